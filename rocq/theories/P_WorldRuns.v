(** Runs for the examples of C_World.v. *)
From Verif Require Import Base M_Slots M_ObjectStore S_ObjectStore P_ObjectStore M_Rights S_Rights M_Svp M_Prog
  M_ApiKey M_ApiCipher M_ApiMac M_ApiSvp M_Api S_Api M_World S_World S_System P_WorldReach P_Api P_ApiRuns.

(** A context is made, its key is released, and the handle of the key goes to another key;
    then the context is used. *)
Definition reuse_run : list act :=
  session [k1; KCipherInit A_CTR DECRYPT 31 OK OK; KKeyRelease 31; generate (granted [F_SIGN] 100 200 ALL)] ++
  [Start process 31 9; Steps 5 7 fine].
Definition k1_key : stored_key :=
  MkKey (granted [F_DECRYPT; F_HDCP22; F_SVP_OPTIONAL] 100 200 ALL) KT_SYMMETRIC no_params 16 (repeat 7 48).
Lemma reuse_case : exists sy h p, doing sy 5 process 31 9 h (CUse p k1_key RDecrypt PClear PClear) /\
  runs_cipher process /\ cipher_args process = [31] /\
  exists h' key, has_call sy (generate (granted [F_SIGN] 100 200 ALL)) 31 9 h' /\
    out_value h' VKey = Some 31 /\ In (EAdd (SKeys 1) 8 (OWrapped key) 9 (Got 31)) h' /\ key <> k1_key.
Proof.
  destruct (schedule_doing reuse_run 5 process 31 9 (hist reuse_run 5) (CUse 4 k1_key RDecrypt PClear PClear)) as (sy&S&D).
  { vm_compute. reflexivity. }
  exists sy, (hist reuse_run 5), 4. split; [exact D|]. split; [exact I|]. split; [reflexivity|].
  exists (hist reuse_run 4), (MkKey (granted [F_SIGN] 100 200 ALL) KT_SYMMETRIC no_params 16 (repeat 7 48)).
  split.
  - exists 4%nat. eexists. assert (schedule boot reuse_run = Some sy) as S' by exact S.
    clear D. revert S'. vm_compute. intros E. injection E as <-. reflexivity.
  - split; [vm_compute; reflexivity|]. split; [|discriminate]. vm_compute. tauto.
Qed.
Lemma mac_case : exists sy i slot u h p key, doing sy i (KMacProcess 31 true) slot u h (CUse p key RMacRun PClear PNone) /\
  runs_mac (KMacProcess 31 true).
Proof. destruct mac_untimed as (sy&i&slot&u&h&p&key&D&_). do 7 eexists. split; [exact D|exact I]. Qed.
(** Common encryption while its context is replaced. *)
Lemma raced_case : exists sy i l slot u h p key, doing sy i (KCenc l) slot u h (CUse p key RDecrypt PClear PClear) /\ ~ not_raced (KCenc l) h.
Proof.
  destruct race_time as (sy&i&l&slot&u&h&p&key&D&N). do 8 eexists. split; [exact D|].
  intros NR. apply N. apply (P_Api.use_time _ _ _ _ _ _ _ _ _ (doing_issues _ _ _ _ _ _ _ D) NR). exact I.
Qed.
(** A handle that a call itself has made is looked up again. *)
Definition oaep_again : list act :=
  session [KKeyGenerate (Some (granted [F_DECRYPT; F_HDCP22] 100 200 ALL)) (GenRsa (Some 128))] ++
  [Start oaep_init 31 9; Steps 2 15 fine].
Lemma again_case : exists h c, issues oaep_init 31 9 (CAcquire (SCiphers c) 31 9) h /\
  cipher_args oaep_init = [] /\ has_made h (SCiphers c) 31.
Proof.
  exists (hist oaep_again 2), 1. split; [at_schedule oaep_again 2%nat|]. split; [reflexivity|].
  vm_compute. auto.
Qed.
