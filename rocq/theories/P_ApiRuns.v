(** Concrete runs of the whole system: examples for the theorems, and the schedules behind
    the refuted ones. *)
From Verif Require Import Base M_Slots M_ObjectStore S_ObjectStore P_ObjectStore M_Rights S_Rights M_Svp M_Prog
  M_ApiKey M_ApiCipher M_ApiMac M_ApiSvp M_Api S_Api M_World S_World P_WorldReach.

Definition bits (l : list Z) : Z := fold_right (fun f n => Z.lor (2 ^ f) n) 0 l.
Definition granted (flags : list Z) (from til : Z) (tas : list uuid) : rights :=
  MkRights (repeat 0 64) (bits flags) 0 from til tas.
Definition ALL : list uuid := [2 ^ 128 - 1].
(** Time [t]; [hdcp22] HDCP 2.2 outputs are active; allocations and externals succeed. *)
Definition at_ (t hdcp22 : Z) : choice :=
  MkChoice t (Some (MkVideo 0 0 0 0 hdcp22 true)) true (MkAns OK 16 (repeat 7 48)).
Definition fine : choice := at_ 150 1.
(** Client 9 opens a session (handle 31), then makes the given calls one after another. *)
Definition session (l : list call) : list act :=
  [Start KInit 0 9; Finish 0 fine] ++
  flat_map (fun ik => [Start (snd ik) 31 9; Finish (fst ik) fine]) (combine (seq 1 (length l)) l).
Definition hist (l : list act) (i : nat) : list ev :=
  match at_call (schedule boot l) i with Some (_, _, _, h, _) => h | None => [] end.
Definition next (l : list act) (i : nat) : option (cmd + status) :=
  match at_call (schedule boot l) i with Some (_, _, _, _, n) => Some n | None => None end.
Definition generate (r : rights) : call := KKeyGenerate (Some r) (GenSymmetric (Some 16)).
Definition clear_at (a : Z) : option ubuf := Some (UClear a 64 0).
Definition answering (n : Z) : choice :=
  MkChoice 150 (Some (MkVideo 0 0 0 0 1 true)) true (MkAns OK n (repeat 7 (Z.to_nat n))).
(** [at_schedule l i] proves that call [i] is at the next command, or has the result, found by
    running schedule [l]. *)
Ltac at_schedule l i :=
  first [apply (schedule_issues l i) | apply (schedule_returns l i)]; vm_compute; reflexivity.

(** *** A decryption with a permitted key *)
Definition k1 : call := generate (granted [F_DECRYPT; F_HDCP22; F_SVP_OPTIONAL] 100 200 ALL).
Definition process : call := KCipherProcess (clear_at 2000) 31 (clear_at 1000) 16.
Definition crypt_run : list act :=
  session [k1; KCipherInit A_CTR DECRYPT 31 OK OK] ++ [Start process 31 9; Steps 3 7 fine].
Lemma crypt_case : exists h p key, issues process 31 9 (CUse p key RDecrypt PClear PClear) h /\
  ~ is_cenc process /\ r_usage (k_rights key) = 2 ^ 4 + 2 ^ 10 + 2 ^ 12 /\ length h = 7%nat.
Proof.
  exists (hist crypt_run 3), 4. eexists. split; [at_schedule crypt_run 3%nat|].
  split; [intros [l E]; discriminate|]. vm_compute. auto.
Qed.
(** ... and what happens with a key that may only encrypt. *)
Lemma refused_case : exists h, returns (KCipherInit A_CTR DECRYPT 31 OK OK) 31 9 h OPERATION_NOT_ALLOWED /\
  made_handles h = [] /\ out_value h VContext = Some INVALID_HANDLE.
Proof.
  pose (l := session [generate (granted [F_ENCRYPT; F_HDCP22] 100 200 ALL); KCipherInit A_CTR DECRYPT 31 OK OK]).
  exists (hist l 2). split; [at_schedule l 2%nat|]. vm_compute. auto.
Qed.
Definition ctx_run : list act :=
  session [k1] ++ [Start (KCipherInit A_CTR DECRYPT 31 OK OK) 31 9; Steps 2 14 fine].
Lemma context_case : exists h s p ci, issues (KCipherInit A_CTR DECRYPT 31 OK OK) 31 9 (CAdd s p (OCipher ci) 9) h.
Proof. exists (hist ctx_run 2), (SCiphers 1), 6. eexists. at_schedule ctx_run 2%nat. Qed.

(** *** The race of common encryption: the context that was verified is released and its
    handle given to another one before the data are processed. *)
Definition k2 : call := generate (granted [F_DECRYPT] 300 400 ALL).
Definition sample : csample := MkCsample (Some 16) true 1 0 0 31 (clear_at 1000) (clear_at 2000) (Some 16).
Definition cenc_ok : list act :=
  session [k1; KCipherInit A_CTR DECRYPT 31 OK OK] ++ [Start (KCenc (Some [sample])) 31 9; Steps 3 14 fine].
Definition cenc_race : list act :=
  session [k1; k2; KCipherInit A_CTR DECRYPT 31 OK OK] ++
  [Start (KCenc (Some [sample])) 31 9; Steps 4 9 fine;
   Start (KCipherRelease 31) 31 9; Finish 5 fine;
   Start (KCipherInit A_CTR DECRYPT 30 OK OK) 31 9; Finish 6 (at_ 350 0);
   Steps 4 5 fine].
Definition k2_key : stored_key := MkKey (granted [F_DECRYPT] 300 400 ALL) KT_SYMMETRIC no_params 16 (repeat 7 48).
Lemma cenc_race_run : exists sy h p, doing sy 4 (KCenc (Some [sample])) 31 9 h (CUse p k2_key RDecrypt PClear PClear) /\
  (forall now, In (EClock now) h -> now = 150) /\
  (forall v, In (EPoll v) h -> v = Some (MkVideo 0 0 0 0 1 true)) /\ calm_system sy.
Proof.
  destruct (schedule_doing cenc_race 4 (KCenc (Some [sample])) 31 9 (hist cenc_race 4) (CUse 9 k2_key RDecrypt PClear PClear))
    as (sy&S&D); [vm_compute; reflexivity|].
  exists sy, (hist cenc_race 4), 9. split; [exact D|].
  assert (forall e, In e (hist cenc_race 4) -> match e with EClock now => now = 150 | EPoll v => v = Some (MkVideo 0 0 0 0 1 true) | _ => True end) as H.
  { apply Forall_forall. vm_compute. repeat constructor. }
  split; [intros now Hn; exact (H _ Hn)|]. split; [intros v Hv; exact (H _ Hv)|].
  apply (schedule_calm _ _ S). vm_compute. reflexivity.
Qed.
Lemma race_clear : exists sy i l slot u h p key, doing sy i (KCenc l) slot u h (CUse p key RDecrypt PClear PClear) /\
  ~ has_flag (k_rights key) F_SVP_OPTIONAL.
Proof.
  destruct cenc_race_run as (sy&h&p&D&_). do 8 eexists. split; [exact D|]. vm_compute. discriminate.
Qed.
Lemma race_time : exists sy i l slot u h p key, doing sy i (KCenc l) slot u h (CUse p key RDecrypt PClear PClear) /\
  ~ time_ok h key.
Proof.
  destruct cenc_race_run as (sy&h&p&D&T&_). do 8 eexists. split; [exact D|].
  intros (now&H1&H2). apply T in H1. subst. unfold in_window in H2. cbn in H2. lia.
Qed.
Lemma race_outputs : exists sy i l slot u h p key, doing sy i (KCenc l) slot u h (CUse p key RDecrypt PClear PClear) /\
  ~ outputs_ok h key.
Proof.
  destruct cenc_race_run as (sy&h&p&D&_&T&_). do 8 eexists. split; [exact D|].
  intros (v&H1&H2). apply T in H1. injection H1 as ->. destruct H2 as (_&_&_&_&H2&_).
  assert (1 > 0) as G by lia. specialize (H2 G). vm_compute in H2. discriminate.
Qed.
Lemma cenc_ok_case : exists h p key, issues (KCenc (Some [sample])) 31 9 (CUse p key RDecrypt PClear PClear) h /\
  not_raced (KCenc (Some [sample])) h.
Proof.
  exists (hist cenc_ok 3), 4. eexists. split; [at_schedule cenc_ok 3%nat|]. intros _.
  assert (A : forall e, In e (hist cenc_ok 3) -> match e with
     | EAcquire s x _ (Got p) => (s = SClients /\ x = 31 /\ p = 1) \/ (s = SCiphers 1 /\ x = 31 /\ p = 6)
     | ECipher p a => a = MkCipher A_CTR DECRYPT (Some 5) 4 false
     | EGetKey p a => a = MkKey (granted [F_DECRYPT; F_HDCP22; F_SVP_OPTIONAL] 100 200 ALL) KT_SYMMETRIC no_params 16 (repeat 7 48)
     | _ => True end).
  { apply Forall_forall. vm_compute.
    repeat (apply Forall_cons; [first [exact I | reflexivity | left; solve [repeat split] | right; solve [repeat split]]|]).
    apply Forall_nil. }
  split; [|split].
  - intros s x u p u' p' H1 H2. apply A in H1, H2. intuition congruence.
  - intros p a b H1 H2. apply A in H1, H2. congruence.
  - intros p a b H1 H2. apply A in H1, H2. congruence.
Qed.

(** *** Time and allow list *)
Definition mac_late : list act :=
  session [generate (granted [F_SIGN; F_HDCP22] 100 200 ALL); KMacInit MAC_CMAC None 31] ++
  [Start (KMacProcess 31 true) 31 9; Steps 3 5 (at_ 999 1)].
Lemma mac_untimed : exists sy i slot u h p key, doing sy i (KMacProcess 31 true) slot u h (CUse p key RMacRun PClear PNone) /\
  (forall now, ~ In (EClock now) h).
Proof.
  destruct (schedule_doing mac_late 3 (KMacProcess 31 true) 31 9 (hist mac_late 3)
     (CUse 5 (MkKey (granted [F_SIGN; F_HDCP22] 100 200 ALL) KT_SYMMETRIC no_params 16 (repeat 7 48)) RMacRun PClear PNone))
    as (sy&_&D); [vm_compute; reflexivity|].
  do 7 eexists. split; [exact D|].
  assert (A : forall e, In e (hist mac_late 3) -> match e with EClock _ => False | _ => True end).
  { apply Forall_forall. vm_compute. repeat constructor. }
  intros now H. exact (A _ H).
Qed.
Definition export_call : call := KKeyExport None (Some 1000) 31 (fun _ => 200).
Definition export_run : list act :=
  session [generate (granted [F_CACHEABLE] 500 600 [])] ++ [Start export_call 31 9; Steps 2 5 (at_ 999 1)].
Definition export_key : stored_key := MkKey (granted [F_CACHEABLE] 500 600 []) KT_SYMMETRIC no_params 16 (repeat 7 48).
Lemma export_doing : exists sy h p, doing sy 2 export_call 31 9 h (CUse p export_key RExport PNone PClear) /\
  (forall now, ~ In (EClock now) h).
Proof.
  destruct (schedule_doing export_run 2 export_call 31 9 (hist export_run 2) (CUse 4 export_key RExport PNone PClear))
    as (sy&_&D); [vm_compute; reflexivity|].
  do 3 eexists. split; [exact D|].
  assert (A : forall e, In e (hist export_run 2) -> match e with EClock _ => False | _ => True end).
  { apply Forall_forall. vm_compute. repeat constructor. }
  intros now H. exact (A _ H).
Qed.
Lemma export_untimed : exists sy i k slot u h p key, doing sy i k slot u h (CUse p key RExport PNone PClear) /\
  (forall now, ~ In (EClock now) h).
Proof. destruct export_doing as (sy&h&p&D&N). do 8 eexists. split; [exact D|exact N]. Qed.
Lemma export_unlisted : exists sy i k slot u h p key, doing sy i k slot u h (CUse p key RExport PNone PClear) /\
  ~ listed (k_rights key) u.
Proof.
  destruct export_doing as (sy&h&p&D&_). do 8 eexists. split; [exact D|]. vm_compute. intuition.
Qed.

(** *** Children *)
Definition want : rights := granted [F_DECRYPT; F_HDCP22; F_SVP_OPTIONAL] 100 200 ALL.
Definition derive_call : call := KKeyDerive (Some want) (Some (DvCmac 31 16 1 true)).
Definition parents : list act :=
  [Start KInit 0 9; Finish 0 fine;
   Start (generate (granted [F_DERIVE; F_HDCP22] 100 200 ALL)) 31 9; Finish 1 (answering 16);
   Start (KKeyGenerate (Some (granted [F_KEY_EXCHANGE; F_HDCP22] 100 200 ALL))
                       (GenDh (Some (Some [1; 2; 3], Some [2])))) 31 9; Finish 2 (answering 128)].
Definition derive_run : list act := parents ++ [Start derive_call 31 9; Steps 3 14 (answering 16)].
Lemma derive_case : exists h s p key, issues derive_call 31 9 (CAdd s p (OWrapped key) 9) h /\ has_parent derive_call /\
  r_usage want = 2 ^ 4 + 2 ^ 10 + 2 ^ 12 /\ r_usage (k_rights key) = 2 ^ 4 + 2 ^ 10.
Proof.
  exists (hist derive_run 3), (SKeys 1), 8. eexists. split; [at_schedule derive_run 3%nat|]. vm_compute. auto.
Qed.
Definition exchange_call : call := KKeyExchange (Some want) (ExNetflix 31 (Some want) (Some want)) 30 true.
Definition exchange_run (last : choice) : list act :=
  parents ++ [Start exchange_call 31 9; Steps 3 36 (answering 48); Finish 3 last].
Lemma exchange_case : exists h, returns exchange_call 31 9 h OK /\ calm exchange_call h /\
  made_handles h = [(SKeys 1, 27); (SKeys 1, 28); (SKeys 1, 29)].
Proof.
  exists (hist (exchange_run (answering 48)) 3). split; [at_schedule (exchange_run (answering 48)) 3%nat|].
  split; [exact I|]. vm_compute. reflexivity.
Qed.
(** The last allocation fails: the two keys already stored are removed again. *)
Definition no_memory : choice := MkChoice 150 (Some (MkVideo 0 0 0 0 1 true)) false (MkAns OK 48 (repeat 7 48)).
Lemma exchange_failed : exists h, returns exchange_call 31 9 h INTERNAL_ERROR /\
  made_handles h = [(SKeys 1, 28); (SKeys 1, 29)] /\ undone_handles h = [(SKeys 1, 29); (SKeys 1, 28)].
Proof.
  exists (hist (exchange_run no_memory) 3). split; [at_schedule (exchange_run no_memory) 3%nat|]. vm_compute. auto.
Qed.

(** *** Leaks and crashes *)
Definition bad_process : call := KCipherProcess (Some (UBad 2)) 31 (clear_at 0) 16.
Definition leak_run : list act := session [k1; KCipherInit A_CTR DECRYPT 31 OK OK; bad_process].
Definition blocked (r : run_result) : bool := match r with RunBlocked => true | _ => false end.
Lemma blocked_true r : blocked r = true -> r = RunBlocked.
Proof. destruct r; discriminate || reflexivity. Qed.
Lemma leak : exists sy i slot u h s c p, done sy i bad_process slot u h s /\ s <> OK /\
  refs h SClients slot c = 1 /\ refs h (SCiphers c) 31 p = 1 /\ locks h p = 1 /\
  exists t, run_step (MkSystem (s_world sy) (s_threads sy ++ [t])) (length (s_threads sy)) fine = RunBlocked /\
            t = start KClose slot u.
Proof.
  destruct (schedule_done leak_run 3 bad_process 31 9 (hist leak_run 3) INVALID_PARAMETER) as (sy&S&D);
    [vm_compute; reflexivity|].
  exists sy, 3%nat, 31, 9, (hist leak_run 3), INVALID_PARAMETER, 1, 6.
  split; [exact D|]. split; [discriminate|]. split; [vm_compute; reflexivity|]. split; [vm_compute; reflexivity|].
  split; [vm_compute; reflexivity|]. eexists. split; [|reflexivity].
  assert (E : (match schedule boot leak_run with
      | Some sy => blocked (run_step (MkSystem (s_world sy) (s_threads sy ++ [start KClose 31 9])) (length (s_threads sy)) fine)
      | None => false end) = true) by (vm_compute; reflexivity).
  rewrite S in E. exact (blocked_true _ E).
Qed.
Definition close_after : list act := session [k1; KCipherInit A_CTR DECRYPT 31 OK OK; process; KClose].
Lemma close_case : exists h, returns KClose 31 9 h OK.
Proof. exists (hist close_after 4). at_schedule close_after 4%nat. Qed.

Definition oaep_init : call := KCipherInit A_RSA_OAEP DECRYPT 31 OK OK.
Definition oaep_race : list act :=
  session [KKeyGenerate (Some (granted [F_DECRYPT; F_HDCP22] 100 200 ALL)) (GenRsa (Some 256))] ++
  [Start oaep_init 31 9; Steps 2 15 fine; Start (KCipherRelease 31) 31 9; Finish 3 fine; Steps 2 1 fine].
Definition news (h : list ev) : list Z := flat_map (fun e => match e with ENew _ (Some p) => [p] | _ => [] end) h.
Lemma news_in h p : In p (news h) -> exists o, In (ENew o (Some p)) h.
Proof.
  unfold news. intros HI. apply in_flat_map in HI as (e&He&Hp). destruct e; try contradiction.
  destruct r as [r|]; [|contradiction]. destruct Hp as [->|[]]. eexists. exact He.
Qed.
Lemma double_free : exists sy i slot u h p o, doing sy i oaep_init slot u h (CFree p o) /\
  w_heap (s_world sy) p = None /\ (exists o', In (ENew o' (Some p)) h) /\ forall ch, run_step sy i ch = RunCrash.
Proof.
  destruct (schedule_doing oaep_race 2 oaep_init 31 9 (hist oaep_race 2)
     (CFree 4 (OKey (MkKey (granted [F_DECRYPT; F_HDCP22] 100 200 ALL) KT_RSA no_params 256 (repeat 7 48)))))
     as (sy&S&D); [vm_compute; reflexivity|].
  assert (H : w_heap (s_world sy) 4 = None).
  { assert (E : match schedule boot oaep_race with Some sy => match w_heap (s_world sy) 4 with None => true | _ => false end | None => false end = true)
      by (vm_compute; reflexivity).
    rewrite S in E. destruct (w_heap (s_world sy) 4); [discriminate|reflexivity]. }
  do 7 eexists. split; [exact D|]. split; [exact H|]. split.
  - apply (news_in (hist oaep_race 2) 4). vm_compute. auto.
  - intros ch. destruct D as (_&cont&T). unfold run_step. rewrite T. cbn [t_prog serve free_all]. now rewrite H.
Qed.

Definition svp_session : list act := session [KSvpCreate 5000 64].
Definition svp_race : list act :=
  svp_session ++ [Start (KSvpRelease 31) 31 9; Start (KSvpRelease 31) 31 9; Steps 3 2 fine; Steps 2 9 fine; Finish 3 fine].
Lemma release_race : exists sy slot u h1 h2 c, done sy 3 (KSvpRelease 31) slot u h1 OK /\
  doing sy 2 (KSvpRelease 31) slot u h2 (CRemove (SSvps c) 31 u) /\
  (exists st p, w_stores (s_world sy) (SSvps c) = Some st /\ view st 31 = Some (p, u, 1) /\
                w_heap (s_world sy) p = Some (OSvp None) /\ w_mutex (s_world sy) = [(p, 3%nat)]) /\
  forall ch, run_step sy 2 ch = RunBlocked.
Proof.
  destruct (schedule_done svp_race 3 (KSvpRelease 31) 31 9 (hist svp_race 3) OK) as (sy&S&D); [vm_compute; reflexivity|].
  destruct (schedule_doing svp_race 2 (KSvpRelease 31) 31 9 (hist svp_race 2) (CRemove (SSvps 1) 31 9)) as (sy'&S'&D');
    [vm_compute; reflexivity|].
  assert (sy' = sy) as -> by congruence.
  assert (E : match schedule boot svp_race with
    | Some sy => match w_stores (s_world sy) (SSvps 1) with
                 | Some st => Some (view st 31, w_heap (s_world sy) 2, w_mutex (s_world sy), st_count st,
                                    match remove_pass st 31 (Some 9) with (_, RemRetry) => true | _ => false end)
                 | None => None end
    | None => None end = Some (Some (2, 9, 1), Some (OSvp None), [(2, 3%nat)], 256, true)) by (vm_compute; reflexivity).
  rewrite S in E. destruct (w_stores (s_world sy) (SSvps 1)) as [st|] eqn:Est; [|discriminate].
  injection E as E1 E2 E3 E4 E5.
  exists sy, 31, 9, (hist svp_race 3), (hist svp_race 2), 1. split; [exact D|]. split; [exact D'|]. split.
  - exists st, 2. auto.
  - intros ch. destruct D' as (_&cont&T). unfold run_step. rewrite T. cbn [t_prog serve]. rewrite Est, E4.
    change ((31 <? 0) || (256 <=? 31)) with false. cbv iota.
    destruct (remove_pass st 31 (Some 9)) as [st' r] eqn:Er. destruct r; [|discriminate].
    match goal with |- context [remove_pass ?a ?b ?c] => change (remove_pass a b c) with (remove_pass st 31 (Some 9)) end.
    now rewrite Er.
Qed.
Definition check_call : call := KSvpCheck 31 0 64 1 (Some 32).
Definition check_race : list act :=
  svp_session ++ [Start (KSvpRelease 31) 31 9; Start check_call 31 9; Steps 3 2 fine; Steps 2 9 fine; Steps 3 2 fine].
Lemma null_buffer : exists sy i k slot u h, doing sy i k slot u h CFault.
Proof.
  destruct (schedule_doing check_race 3 check_call 31 9 (hist check_race 3) CFault) as (sy&S&D); [vm_compute; reflexivity|].
  do 6 eexists. exact D.
Qed.
Lemma release_case : exists h, returns (KSvpRelease 31) 31 9 h OK /\ calm (KSvpRelease 31) h /\
  In (ERemove (SSvps 1) 31 9 OK) h /\ out_value h VMemory = Some 5000 /\ out_value h VSize = Some 64.
Proof.
  pose (l := session [KSvpCreate 5000 64; KSvpRelease 31]).
  exists (hist l 2). split; [at_schedule l 2%nat|]. split; [|vm_compute; auto 10].
  apply calmb_calm. vm_compute. reflexivity.
Qed.
Lemma cipher_release_case : exists h, returns (KCipherRelease 31) 31 9 h OK.
Proof.
  pose (l := session [k1; KCipherInit A_CTR DECRYPT 31 OK OK; KCipherRelease 31]).
  exists (hist l 3). at_schedule l 3%nat.
Qed.
Lemma order_case : exists h p key, issues process 31 9 (CUse p key RDecrypt PClear PClear) h /\ calm process h /\
  length h = 7%nat.
Proof.
  exists (hist crypt_run 3), 4. eexists. split; [at_schedule crypt_run 3%nat|]. split; [|vm_compute; auto].
  split; intros t; discriminate.
Qed.
