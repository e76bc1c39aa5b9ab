(** What is stored and what is overwritten is what has been allocated: for all calls, in
    whatever situation. *)
From Verif Require Import Base M_ObjectStore M_Rights S_Rights P_Rights M_Svp M_Prog M_ApiKey M_ApiCipher M_ApiMac M_ApiSvp M_Api S_Api P_Prog M_World S_World.

Definition alike_cipher (a b : cipher) : Prop :=
  ci_alg a = ci_alg b /\ ci_mode a = ci_mode b /\ ci_sym a = ci_sym b /\ ci_key a = ci_key b.
Definition touched (the : call) (slot : Z) (h : list ev) (s : sid) (x : Z) : Prop :=
  was_given the slot s x \/ exists p o v, In (EAdd s p o v (Got x)) h.
Definition made_by (the : call) (u : uuid) (h : list ev) (s : sid) (o : obj) : Prop :=
  match o with
  | OCipher ci => exists c x s1 s2 w key, s = SCiphers c /\ the = KCipherInit (ci_alg ci) (ci_mode ci) x s1 s2 /\ In (EAcquire (SKeys c) x u (Got w)) h /\ In (EWrapped w key) h /\ In (ENew (OKey key) (Some (ci_key ci))) h
  | OMac m => exists c d x w key, s = SMacs c /\ the = KMacInit (mc_alg m) d x /\ In (EAcquire (SKeys c) x u (Got w)) h /\ In (EWrapped w key) h /\ In (ENew (OMacState (MkMacState key false)) (Some (mc_ctx m))) h
  | _ => True
  end.
Definition mode_for (r : role) : Z := match r with REncrypt => ENCRYPT | _ => DECRYPT end.
Definition run_by (the : call) (u : uuid) (h : list ev) (p : Z) (k : stored_key) (r : role) : Prop :=
  match r with
  | RMacRun => exists c x q m st, In (EAcquire (SMacs c) x u (Got q)) h /\ In (EMac q m) h /\ mc_ctx m = p /\
      In (EMacState p st) h /\ ms_key st = k
  | REncrypt | RDecrypt | RDecryptAsym =>
      match the with
      | KSvpKeyCheck _ _ _ _ => by_handle h p k
      | _ => exists c x q ci, In (EAcquire (SCiphers c) x u (Got q)) h /\ In (ECipher q ci) h /\ ci_key ci = p /\
               ci_mode ci = mode_for r /\ In (EGetKey p k) h
      end
  | _ => True
  end.
Section Born.
Variables (the : call) (slot : Z) (u : uuid).
Definition born (h : list ev) (c : cmd) : Prop :=
  match c with
  | CAcquire s x _ | CRemove s x _ => touched the slot h s x
  | CAdd s p o _ => In (ENew o (Some p)) h /\ made_by the u h s o
  | CSetObj p (OCipher ci') => exists ci, In (ECipher p ci) h /\ alike_cipher ci' ci
  | CSetObj p (OSvp _) => exists b, In (ESvp p b) h
  | CSetObj p (OMacState st') => exists st, In (EMacState p st) h /\ ms_key st' = ms_key st
  | CSetObj _ _ => False
  | CUse p k r _ _ => run_by the u h p k r
  | CGetWrapped p => exists c x v, In (EAcquire (SKeys c) x v (Got p)) h
  | CGetCipher p => exists c x v, In (EAcquire (SCiphers c) x v (Got p)) h
  | CGetMac p => exists c x v, In (EAcquire (SMacs c) x v (Got p)) h
  | CGetSvp p => exists c x v, In (EAcquire (SSvps c) x v (Got p)) h
  | _ => True
  end.
End Born.

Ltac born_in := multimatch goal with
  | |- In _ (_ :: _) => (left; reflexivity) + (right; born_in)
  end.
Ltac born_arg := first
  [ left; cbn [was_given key_args cipher_args mac_args svp_args svp_arg app];
    first [reflexivity | assumption | once born_in]
  | right; do 3 eexists; once born_in ].
Ltac born_context := do 4 eexists;
  once (split; [born_in|split; [born_in|split; [reflexivity|split; [assumption|born_in]]]]).
Ltac born_run := lazymatch goal with
  | |- exists c x q m st, In (EAcquire (SMacs c) _ _ _) _ /\ _ => do 5 eexists;
      once (split; [born_in|split; [born_in|split; [reflexivity|split; [born_in|reflexivity]]]])
  | |- by_handle _ _ _ => do 4 eexists; once (split; [born_in|split; born_in])
  | |- True => exact I
  | |- _ => born_context
  end.
Ltac born_side := idtac;
  lazymatch goal with
  | |- born _ _ _ _ (CAdd _ _ (OCipher _) _) => split; [once born_in|];
      cbn [made_by ci_alg ci_mode ci_key]; do 6 eexists;
      once (split; [reflexivity|split; [first [reflexivity | subst; reflexivity]|split; [born_in|split; born_in]]])
  | |- born _ _ _ _ (CAdd _ _ (OMac _) _) => split; [once born_in|];
      cbn [made_by mc_alg mc_ctx]; do 5 eexists;
      once (split; [reflexivity|split; [reflexivity|split; [born_in|split; born_in]]])
  | |- born _ _ _ _ (CAdd _ _ _ _) => split; [once born_in|exact I]
  | |- born _ _ _ _ (CSetObj _ (OCipher _)) => cbn [born]; eexists; split; [once born_in|repeat split]
  | |- born _ _ _ _ (CSetObj _ (OSvp _)) => cbn [born]; eexists; once born_in
  | |- born _ _ _ _ (CSetObj _ (OMacState _)) => cbn [born]; eexists; split; [once born_in|reflexivity]
  | |- born _ _ _ _ (CAcquire _ _ _) => cbn [born]; born_arg
  | |- born _ _ _ _ (CRemove _ _ _) => cbn [born]; born_arg
  | |- born _ _ _ _ (CUse _ _ _ _ _) => cbn [born run_by mode_for]; born_run
  | |- born _ _ _ _ (CGetWrapped _) => cbn [born]; do 3 eexists; once born_in
  | |- born _ _ _ _ (CGetCipher _) => cbn [born]; do 3 eexists; once born_in
  | |- born _ _ _ _ (CGetMac _) => cbn [born]; do 3 eexists; once born_in
  | |- born _ _ _ _ (CGetSvp _) => cbn [born]; do 3 eexists; once born_in
  | |- born _ _ _ _ _ => exact I
  end.
Ltac born_go := unfold api, api_m, api_fn; cbv beta iota; wp_run born_side; try exact I.

Lemma born_each {B} the slot u (f : B -> M unit) l : (forall x h, In x l -> wp (born the slot u) (f x) h (fun _ _ => True)) ->
  forall h, wp (born the slot u) (each f l) h (fun _ _ => True).
Proof.
  intros H. induction l as [|x l IH]; intros h; cbn [each]; [exact I|].
  unfold bind. apply wp_pbind. eapply wp_mono; [apply H; now left|]. cbn.
  intros [a|s|s] h' _; [apply IH; intros; apply H; now right|exact I|exact I].
Qed.
Section Calls.
Variables (slot : Z) (u : uuid).
Notation good k := (wp (born k slot u) (api k slot u) [] (fun _ _ => True)).
Lemma b_init : good KInit. Proof. born_go. Qed.
Lemma b_close : good KClose. Proof. born_go. Qed.
Lemma b_random a : good (KRandom a). Proof. born_go. Qed.
Lemma b_generate a b : good (KKeyGenerate a b). Proof. born_go. Qed.
Lemma b_import a b d : good (KKeyImport a b d). Proof. born_go. Qed.
Lemma b_unwrap a b d e f g : good (KKeyUnwrap a b d e f g). Proof. born_go. Qed.
Lemma b_derive a b : good (KKeyDerive a b). Proof. born_go. Qed.
Lemma b_exchange a b d e : good (KKeyExchange a b d e). Proof. born_go. Qed.
Lemma b_export a b d e : good (KKeyExport a b d e). Proof. born_go. Qed.
Lemma b_header a : good (KKeyHeader a). Proof. born_go. Qed.
Lemma b_digest a : good (KKeyDigest a). Proof. born_go. Qed.
Lemma b_release a : good (KKeyRelease a). Proof. born_go. Qed.
Lemma b_public a : good (KKeyPublic a). Proof. born_go. Qed.
Lemma b_sign a b d e f g : good (KSign a b d e f g). Proof. born_go. Qed.
Lemma b_cinit a b d e f : good (KCipherInit a b d e f). Proof. born_go. Qed.
Lemma b_process a b d e : good (KCipherProcess a b d e). Proof. born_go. Qed.
Lemma b_last a b d e f : good (KCipherProcessLast a b d e f). Proof. born_go. Qed.
Lemma b_iv a b : good (KCipherUpdateIv a b). Proof. born_go. Qed.
Lemma b_crelease a : good (KCipherRelease a). Proof. born_go. Qed.
Lemma b_minit a b d : good (KMacInit a b d). Proof. born_go. Qed.
Lemma b_mprocess a b : good (KMacProcess a b). Proof. born_go. Qed.
Lemma b_mkey a b : good (KMacProcessKey a b). Proof. born_go. Qed.
Lemma b_compute a b d : good (KMacCompute a b d). Proof. born_go. Qed.
Lemma b_mrelease a : good (KMacRelease a). Proof. born_go. Qed.
Lemma b_screate a b : good (KSvpCreate a b). Proof. born_go. Qed.
Lemma b_srelease a : good (KSvpRelease a). Proof. born_go. Qed.
Lemma b_swrite a b d : good (KSvpWrite a b d). Proof. born_go. Qed.
Lemma b_scopy a b d : good (KSvpCopy a b d). Proof. born_go. Qed.
Lemma b_scheck a b d e f : good (KSvpCheck a b d e f). Proof. born_go. Qed.
Lemma b_kcheck a b d e : good (KSvpKeyCheck a b d e). Proof. born_go. Qed.
Section Samples.
Variables (l : list csample) (s : csample).
Hypothesis Hs : In s l.
Lemma arg_context : In (cs_context s) (map cs_context l).
Proof. now apply in_map. Qed.
Lemma arg_out x off : cs_out s = Some (USvp x off) -> In x (flat_map (fun s => svp_arg (cs_out s) ++ svp_arg (cs_in s)) l).
Proof. intros E. apply in_flat_map. exists s. split; [exact Hs|]. rewrite E. now left. Qed.
Lemma arg_in x off : cs_in s = Some (USvp x off) -> In x (flat_map (fun s => svp_arg (cs_out s) ++ svp_arg (cs_in s)) l).
Proof. intros E. apply in_flat_map. exists s. split; [exact Hs|]. apply in_or_app. right. rewrite E. now left. Qed.
Ltac sample_side := idtac;
  lazymatch goal with
  | |- born _ _ _ _ (CAcquire _ _ _) => left; cbn [was_given cipher_args svp_args];
        first [apply arg_context | eapply arg_out; eassumption | eapply arg_in; eassumption]
  | |- born _ _ _ _ (CUse _ _ _ _ _) => cbn [born run_by mode_for]; born_context
  | |- born _ _ _ _ (CGetWrapped _) => cbn [born]; do 3 eexists; once born_in
  | |- born _ _ _ _ (CGetCipher _) => cbn [born]; do 3 eexists; once born_in
  | |- born _ _ _ _ (CGetMac _) => cbn [born]; do 3 eexists; once born_in
  | |- born _ _ _ _ (CGetSvp _) => cbn [born]; do 3 eexists; once born_in
  | |- born _ _ _ _ _ => exact I
  end.
Lemma b_verify c h : wp (born (KCenc (Some l)) slot u) (verify_sample c s u) h (fun _ _ => True).
Proof. wp_run sample_side; exact I. Qed.
Lemma b_sample c h : wp (born (KCenc (Some l)) slot u) (process_sample c s u) h (fun _ _ => True).
Proof. wp_run sample_side; exact I. Qed.
End Samples.
Lemma b_cenc l : good (KCenc l).
Proof.
  unfold api, api_m, process_common_encryption. destruct l as [l|]; [|wp_run born_side; exact I].
  unfold api_fn, with_client. wp_step idtac.
  repeat (lazymatch goal with |- wp _ (each _ _) _ _ => fail | _ => idtac end; wp_step born_side).
  all: try exact I.
  eapply wp_mono; [apply born_each; intros; apply b_verify; assumption|].
  intros a h' _. destruct a as [[]|st|st]; lazy beta iota; [|wp_run born_side; exact I..].
  eapply wp_mono; [apply born_each; intros; apply b_sample; assumption|].
  intros a h2 _. destruct a as [[]|st|st]; lazy beta iota; wp_run born_side; exact I.
Qed.
Lemma born_all k : good k.
Proof.
  destruct k; [apply b_init|apply b_close|apply b_random|apply b_generate|apply b_import|apply b_unwrap|apply b_derive|apply b_exchange
    |apply b_export|apply b_header|apply b_digest|apply b_release|apply b_public|apply b_sign|apply b_cinit|apply b_process|apply b_last
    |apply b_iv|apply b_crelease|apply b_cenc|apply b_minit|apply b_mprocess|apply b_mkey|apply b_compute|apply b_mrelease|apply b_screate
    |apply b_srelease|apply b_swrite|apply b_scopy|apply b_scheck|apply b_kcheck].
Qed.
End Calls.
Lemma born_steps k slot u c h : issues k slot u c h -> born k slot u h c.
Proof. intros [cont H]. exact (reach_pre _ _ _ _ _ _ _ H (born_all slot u k)). Qed.
