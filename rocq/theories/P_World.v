(** What the invariants of P_WorldBirth.v say about the uses of keys. *)
From Verif Require Import Base M_Slots M_ObjectStore S_ObjectStore P_ObjectStore M_Rights S_Rights P_Rights M_Svp M_Prog
  M_ApiKey M_ApiCipher M_ApiMac M_ApiSvp M_Api S_Api M_World S_World S_System P_Prog P_ApiGuard P_Api P_Birth P_WorldReach P_WorldBirth.

Section System.
Variable sy : system.
Hypothesis Sy : reaches sy.
Let Inv : inv sy := inv_reaches sy Sy.

Lemma made_add t h s p o u x : made_at sy t h (EAdd s p o u (Got x)) ->
  issues (t_call t) (t_slot t) (t_user t) (CAdd s p o u) h.
Proof.
  intros M. destruct (made_issues _ _ _ _ Sy M) as (c&r&Is&E). destruct c; cbn in E; try discriminate; [|destruct r].
  injection E as <- <- <- <- _. exact Is.
Qed.
Lemma made_acquire t h s x u p : made_at sy t h (EAcquire s x u (Got p)) ->
  issues (t_call t) (t_slot t) (t_user t) (CAcquire s x u) h.
Proof.
  intros M. destruct (made_issues _ _ _ _ Sy M) as (c&r&Is&E). destruct c; cbn in E; try discriminate; [|destruct r].
  injection E as <- <- <- _. exact Is.
Qed.

(** The maker of what was found under a handle. *)
Definition maker (s : sid) (x : Z) (u : uuid) (p : Z) (o : obj) (t : thread) (h : list ev) : Prop :=
  made_at sy t h (EAdd s p o u (Got x)) /\ issues (t_call t) (t_slot t) u (CAdd s p o u) h /\
  t_user t = u /\ In (ENew o (Some p)) h /\ guard_add (t_call t) u h s o /\ made_by (t_call t) u h s o.
Lemma acquired_maker s x u p : did sy (EAcquire s x u (Got p)) -> exists o t h, maker s x u p o t h.
Proof.
  intros D. apply (i_acquire _ Inv) in D as (o&t&h&M). pose proof (made_add _ _ _ _ _ _ _ M) as Is.
  pose proof (guard_steps _ _ _ _ _ Is) as (E&_&G). pose proof (born_steps _ _ _ _ _ Is) as [B1 B2].
  exists o, t, h. rewrite <- E in *. unfold maker. auto 10.
Qed.
Lemma new_same o o' p t h s x u q o1 : maker s x u q o1 t h -> In (ENew o (Some p)) h -> did sy (ENew o' (Some p)) -> o = o'.
Proof.
  intros (M&_) H D. apply (i_one _ Inv _ _ p); [|exact D]. exact (made_before _ _ _ _ _ M H).
Qed.

(** ** Keys *)
Lemma key_maker c x u w key : did sy (EAcquire (SKeys c) x u (Got w)) -> did sy (EWrapped w key) ->
  exists t h, maker (SKeys c) x u w (OWrapped key) t h.
Proof.
  intros D R. apply acquired_maker in D as (o&t&h&M). exists t, h.
  destruct (i_read _ Inv _ _ _ R eq_refl) as (o0&D0&S). pose proof M as (_&_&_&N&G&_).
  pose proof (new_same _ _ _ _ _ _ _ _ _ _ M N D0) as <-.
  destruct o; cbn in S; try discriminate S. injection S as <-. exact M.
Qed.
Lemma key_good c x u w key : did sy (EAcquire (SKeys c) x u (Got w)) -> did sy (EWrapped w key) ->
  size_allowed (k_type key) (p_curve (k_params key)) (k_size key) /\
  (length (r_id (k_rights key)) = 64%nat -> id_terminated (k_rights key)).
Proof.
  intros D R. destruct (key_maker c x u w key D R) as (t&h&_&Is&_). exact (add_key_size _ _ _ _ _ _ _ _ Is).
Qed.
Lemma handle_good t h e p key : made_at sy t h e -> by_handle h p key ->
  size_allowed (k_type key) (p_curve (k_params key)) (k_size key) /\
  (length (r_id (k_rights key)) = 64%nat -> id_terminated (k_rights key)).
Proof.
  intros M (c&kh&w&u&H1&H2&_). apply (key_good c kh u w); eapply made_before; eauto.
Qed.

(** ** Cipher contexts *)
Definition context_facts (c x : Z) (u : uuid) (ci : cipher) (key : stored_key) : Prop :=
  context_made sy c x u ci key /\ cipher_key (ci_alg ci) key /\ listed (k_rights key) u /\
  ((ci_mode ci = ENCRYPT /\ has_flag (k_rights key) F_ENCRYPT) \/
   (ci_mode ci = DECRYPT /\ has_flag (k_rights key) F_DECRYPT)) /\
  size_allowed (k_type key) (p_curve (k_params key)) (k_size key) /\
  (length (r_id (k_rights key)) = 64%nat -> id_terminated (k_rights key)).
Lemma context_origin c x u q ci key : did sy (EAcquire (SCiphers c) x u (Got q)) -> did sy (ECipher q ci) ->
  did sy (EGetKey (ci_key ci) key) -> context_facts c x u ci key.
Proof.
  intros D R K. apply acquired_maker in D as (o&t&h&M).
  destruct (i_read _ Inv _ _ _ R eq_refl) as (o0&D0&S). pose proof M as (Mt&Is&Eu&N&G&B).
  pose proof (new_same _ _ _ _ _ _ _ _ _ _ M N D0) as <-.
  destruct o as [| | | |ci0| | | |]; cbn in S; try discriminate S. destruct S as (S1&S2&S3&S4).
  destruct (i_read _ Inv _ _ _ K eq_refl) as (o1&D1&S). destruct o1; cbn in S; try discriminate S. injection S as <-.
  rewrite S4 in D1.
  assert (forall k1, In (ENew (OKey k1) (Some (ci_key ci0))) h -> k1 = key) as Same.
  { intros k1 H1. pose proof (new_same _ _ _ _ _ _ _ _ _ _ M H1 D1) as E. now injection E as ->. }
  destruct G as (_&k1&G1&G2&_&_&G3&G4). assert (k1 = key) as ->.
  { destruct G1 as (?&?&?&?&_&_&G1). auto. }
  unfold context_facts. rewrite S1, S2. repeat split; auto using fits_key.
  - destruct B as (c1&kh&s1&s2&w&k1&B1&B2&B3&B4&B5). injection B1 as <-. apply Same in B5 as ->.
    exists kh, s1, s2, (t_slot t), (t_hist t), q. rewrite S1, S2. split.
    + destruct Mt as [[j Tj] _]. exists j, (t_prog t). rewrite Tj. destruct t; cbn in *. congruence.
    + assert (forall e, In e h -> In e (t_hist t)) as Up.
      { destruct Mt as [_ [h' ->]]. intros e He. apply in_or_app. right. now right. }
      split; [exists w; auto|]. exists ci0. exact (made_in _ _ _ _ Mt).
  - exact (proj1 (handle_good _ _ _ _ _ Mt G1)).
  - exact (proj2 (handle_good _ _ _ _ _ Mt G1)).
Qed.

(** ** MAC contexts *)
Definition mac_facts (c x : Z) (u : uuid) (alg : Z) (key : stored_key) : Prop :=
  mac_made sy c x u alg key /\ mac_key alg key /\ listed (k_rights key) u /\ has_flag (k_rights key) F_SIGN /\
  size_allowed (k_type key) (p_curve (k_params key)) (k_size key) /\
  (length (r_id (k_rights key)) = 64%nat -> id_terminated (k_rights key)).
Lemma mac_origin c x u q m st : did sy (EAcquire (SMacs c) x u (Got q)) -> did sy (EMac q m) ->
  did sy (EMacState (mc_ctx m) st) -> mac_facts c x u (mc_alg m) (ms_key st).
Proof.
  intros D R K. apply acquired_maker in D as (o&t&h&M).
  destruct (i_read _ Inv _ _ _ R eq_refl) as (o0&D0&S). pose proof M as (Mt&Is&Eu&N&G&B).
  pose proof (new_same _ _ _ _ _ _ _ _ _ _ M N D0) as <-.
  destruct o as [| | | | | |m0| |]; cbn in S; try discriminate S. injection S as <-.
  destruct (i_read _ Inv _ _ _ K eq_refl) as (o1&D1&S). destruct o1 as [| | | | |st1| | |]; cbn in S; try discriminate S.
  assert (forall k1, In (ENew (OMacState (MkMacState k1 false)) (Some (mc_ctx m))) h -> k1 = ms_key st) as Same.
  { intros k1 H1. pose proof (new_same _ _ _ _ _ _ _ _ _ _ M H1 D1) as E. injection E as <-. cbn in S. congruence. }
  destruct G as (_&k1&G0&(p1&G1)&G2&_&_&G3&G4). apply Same in G0 as ->.
  unfold mac_facts. repeat split; auto using mac_fits_key.
  - destruct B as (c1&d&kh&w&k1&B1&B2&B3&B4&B5). injection B1 as <-. apply Same in B5 as ->.
    exists kh, d, (t_slot t), (t_hist t), q. split.
    + destruct Mt as [[j Tj] _]. exists j, (t_prog t). rewrite Tj. destruct t; cbn in *. congruence.
    + assert (forall e, In e h -> In e (t_hist t)) as Up.
      { destruct Mt as [_ [h' ->]]. intros e He. apply in_or_app. right. now right. }
      split; [exists w; auto|]. exists m. exact (made_in _ _ _ _ Mt).
  - exact (proj1 (handle_good _ _ _ _ _ Mt G1)).
  - exact (proj2 (handle_good _ _ _ _ _ Mt G1)).
Qed.

(** ** Uses *)
Variables (i : nat) (k : call) (slot : Z) (u : uuid) (h : list ev).
Section Use.
Variables (p : Z) (key : stored_key) (r : role) (src dst : place).
Hypothesis Doing : doing sy i k slot u h (CUse p key r src dst).
Lemma issued : issues k slot u (CUse p key r src dst) h.
Proof. exact (doing_issues _ _ _ _ _ _ _ Doing). Qed.
Lemma here e : In e h -> did sy e.
Proof. pose proof Doing as [_ [cont T]]. intros. eapply in_did; [exact T|exact H]. Qed.
Lemma acquirer s x v q : In (EAcquire s x v (Got q)) h -> v = u.
Proof.
  intros H. pose proof Doing as [_ [cont T]]. destruct (in_made _ _ _ _ T H) as [h0 M].
  apply made_acquire in M. exact (proj1 (guard_steps _ _ _ _ _ M)).
Qed.
Lemma crypt_context : is_crypt r -> (forall a b d e, k <> KSvpKeyCheck a b d e) ->
  exists c x q ci, In (EAcquire (SCiphers c) x u (Got q)) h /\ In (ECipher q ci) h /\ ci_key ci = p /\
    ci_mode ci = direction r /\ In (EGetKey p key) h /\ context_facts c x u ci key.
Proof.
  intros C N. pose proof (born_steps _ _ _ _ _ issued) as B. cbn [born] in B.
  assert (exists c x q ci, In (EAcquire (SCiphers c) x u (Got q)) h /\ In (ECipher q ci) h /\ ci_key ci = p /\
               ci_mode ci = mode_for r /\ In (EGetKey p key) h) as (c&x&q&ci&H1&H2&H3&H4&H5).
  { unfold run_by in B. destruct r; try contradiction C; destruct k eqn:Ek; try exact B; exfalso; eapply N; reflexivity. }
  exists c, x, q, ci. split; [exact H1|split; [exact H2|split; [exact H3|split; [exact H4|split; [exact H5|]]]]]. rewrite <- H3 in H5.
  exact (context_origin _ _ _ _ _ _ (here _ H1) (here _ H2) (here _ H5)).
Qed.
Lemma mac_context : r = RMacRun -> exists c x q m st, In (EAcquire (SMacs c) x u (Got q)) h /\ In (EMac q m) h /\
    mc_ctx m = p /\ In (EMacState p st) h /\ ms_key st = key /\ mac_facts c x u (mc_alg m) key.
Proof.
  intros Er. pose proof (born_steps _ _ _ _ _ issued) as B. cbn [born] in B. rewrite Er in B. destruct B as (c&x&q&m&st&H1&H2&H3&H4&H5). exists c, x, q, m, st.
  split; [exact H1|split; [exact H2|split; [exact H3|split; [exact H4|split; [exact H5|]]]]]. rewrite <- H3 in H4. rewrite <- H5. exact (mac_origin _ _ _ _ _ _ (here _ H1) (here _ H2) (here _ H4)).
Qed.
Lemma by_context_facts alg : by_context h p key alg -> exists c x ci, context_facts c x u ci key.
Proof.
  intros (c&x&q&v&ci&H1&H2&H3&_&H4). exists c, x, ci. rewrite <- H3 in H4. pose proof (acquirer _ _ _ _ H1) as ->.
  exact (context_origin _ _ _ _ _ _ (here _ H1) (here _ H2) (here _ H4)).
Qed.
Lemma by_mac_facts : by_mac h p key -> exists c x alg, mac_facts c x u alg key.
Proof.
  intros (c&x&q&v&m&st&H1&H2&H3&H4&H5). exists c, x, (mc_alg m). rewrite <- H3 in H4. rewrite <- H5. pose proof (acquirer _ _ _ _ H1) as ->.
  exact (mac_origin _ _ _ _ _ _ (here _ H1) (here _ H2) (here _ H4)).
Qed.
Lemma world_flag f : flag_for r = Some f -> has_flag (k_rights key) f.
Proof.
  intros F. destruct (is_cenc_dec k) as [C|C].
  - destruct (guard_cenc_uses _ _ _ _ _ _ _ _ _ issued C) as [Er _].
    destruct crypt_context as (c&x&q&ci&_&_&_&Md&_&_&_&_&Fl&_); [rewrite Er; exact I|intros * E; destruct C; congruence|].
    rewrite Er in F, Md. cbn in F, Md. injection F as <-. destruct Fl as [[E _]|[_ Fl]]; [|exact Fl].
    rewrite E in Md. discriminate Md.
  - assert (not_raced k h) as NR by (intros [l E]; now apply C in E).
    destruct (guard_uses _ _ _ _ _ _ _ _ _ issued NR) as (G&_).
    assert (r = RMacRun \/ flag_for r = needs_flag r) as [Er|Er] by (clear; destruct r; auto).
    + destruct mac_context as (c&x&q&m&st&_&_&_&_&_&_&_&_&Fl&_); [exact Er|].
      rewrite Er in F. cbn in F. injection F as <-. exact Fl.
    + apply G. congruence.
Qed.
Lemma world_listed : r <> RInner -> r <> RExport -> listed (k_rights key) u.
Proof.
  intros N1 N2. destruct (use_origin _ _ _ _ _ _ _ _ _ issued N1) as [[_ H]|[[alg H]|H]].
  - auto.
  - destruct (by_context_facts alg H) as (c&x&ci&_&_&L&_). exact L.
  - destruct (by_mac_facts H) as (c&x&alg&_&_&L&_). exact L.
Qed.
Lemma world_size : r <> RInner -> size_allowed (k_type key) (p_curve (k_params key)) (k_size key) /\
  (length (r_id (k_rights key)) = 64%nat -> id_terminated (k_rights key)).
Proof.
  intros N1. destruct (use_origin _ _ _ _ _ _ _ _ _ issued N1) as [[H _]|[[alg H]|H]].
  - destruct H as (c&kh&w&v&H1&H2&_). exact (key_good c kh v w key (here _ H1) (here _ H2)).
  - destruct (by_context_facts alg H) as (c&x&ci&_&_&_&_&L). exact L.
  - destruct (by_mac_facts H) as (c&x&alg&_&_&_&_&L). exact L.
Qed.
End Use.
End System.

Lemma given_or_made k slot u c h : issues k slot u c h ->
  match c with
  | CAcquire s x _ | CRemove s x _ => was_given k slot s x \/ has_made h s x
  | _ => True
  end.
Proof.
  intros H. apply born_steps in H. unfold has_made.
  assert (forall s x, touched k slot h s x -> was_given k slot s x \/ In (s, x) (made_handles h)) as T.
  { intros s x [G|(p&o&v&G)]; [now left|right]. clear -G. induction h as [|e h IH]; [destruct G|].
    destruct G as [->|G]; [now left|]. apply IH in G.
    destruct e; cbn [made_handles]; auto. destruct r; [now right|exact G]. }
  destruct c; cbn [born] in H; auto.
Qed.

(** ** C61: what a handle stands for *)
Lemma key_handle_stands sy k slot u h c x w key : reaches sy -> has_call sy k slot u h ->
  In (EAcquire (SKeys c) x u (Got w)) h -> In (EWrapped w key) h ->
  exists k' slot' h', has_call sy k' slot' u h' /\ In (EAdd (SKeys c) w (OWrapped key) u (Got x)) h'.
Proof.
  intros R (i&p&T) H1 H2.
  destruct (key_maker sy R c x u w key) as (t&h'&M&_&E&_); [eapply in_did; eauto..|].
  pose proof (made_in _ _ _ _ M) as Hin. destruct M as [[j Tj] _].
  exists (t_call t), (t_slot t), (t_hist t). split; [|exact Hin].
  exists j, (t_prog t). rewrite Tj. destruct t; cbn in *. congruence.
Qed.
Lemma made_only_by_init sy i k slot u p h s q o v x : reaches sy ->
  nth_error (s_threads sy) i = Some (MkThread k slot u p h) -> In (EAdd s q o v (Got x)) h ->
  (exists c, s = SCiphers c) \/ (exists c, s = SMacs c) -> ~ runs_cipher k /\ ~ runs_mac k.
Proof.
  intros R T H Hs. destruct (in_made _ _ _ _ T H) as [h0 M].
  pose proof (made_add sy R _ _ _ _ _ _ _ M) as Is. cbn [t_call t_slot t_user] in Is.
  pose proof (guard_steps _ _ _ _ _ Is) as (_&_&G). pose proof (born_steps _ _ _ _ _ Is) as [_ B].
  destruct o; cbn [guard_add made_by] in G, B; try contradiction G.
  - destruct Hs as [[c ->]|[c ->]]; discriminate G.
  - destruct G as ([c' ->]&_), Hs as [[c E]|[c E]]; discriminate E.
  - destruct B as (c'&y&s1&s2&w&key&_&E&_). rewrite E. auto.
  - destruct B as (c'&y&d&w&key&_&E&_). rewrite E. auto.
  - destruct G as [c' ->], Hs as [[c E]|[c E]]; discriminate E.
Qed.
Lemma context_stands sy i k slot u h p key r src dst :
  doing sy i k slot u h (CUse p key r src dst) -> is_crypt r -> runs_cipher k ->
  exists c x q ci, In x (cipher_args k) /\ In (EAcquire (SCiphers c) x u (Got q)) h /\
    In (ECipher q ci) h /\ ci_key ci = p /\ ci_mode ci = direction r /\ In (EGetKey p key) h /\
    context_made sy c x u ci key /\ cipher_key (ci_alg ci) key.
Proof.
  intros D C K. pose proof D as [R [cont T]].
  destruct (crypt_context sy R i k slot u h p key r src dst D C) as (c&x&q&ci&H1&H2&H3&H4&H5&H6&H7&_).
  { intros * ->. exact K. }
  exists c, x, q, ci. repeat (split; [|auto 10]). 
  destruct (in_made _ _ _ _ T H1) as [h0 M]. pose proof (made_acquire sy R _ _ _ _ _ _ M) as Is.
  cbn [t_call t_slot t_user] in Is. apply born_steps in Is. cbn [born] in Is. destruct Is as [G|(q'&o&v&G)]; [exact G|].
  assert (In (EAdd (SCiphers c) q' o v (Got x)) h) as G'.
  { destruct M as [_ [h' E]]. cbn [t_hist] in E. rewrite E. apply in_or_app. right. now right. }
  destruct (made_only_by_init _ _ _ _ _ _ _ _ _ _ _ _ R T G') as [N _]; [eauto|contradiction].
Qed.
Lemma mac_stands sy i k slot u h p key src dst :
  doing sy i k slot u h (CUse p key RMacRun src dst) -> runs_mac k ->
  exists c x q m, In x (mac_args k) /\ In (EAcquire (SMacs c) x u (Got q)) h /\
    In (EMac q m) h /\ mc_ctx m = p /\ mac_made sy c x u (mc_alg m) key /\ mac_key (mc_alg m) key.
Proof.
  intros D K. pose proof D as [R [cont T]].
  destruct (mac_context sy R i k slot u h p key RMacRun src dst D eq_refl) as (c&x&q&m&st&H1&H2&H3&H4&H5&H6&H7&_).
  exists c, x, q, m. repeat (split; [|auto 10]).
  destruct (in_made _ _ _ _ T H1) as [h0 M]. pose proof (made_acquire sy R _ _ _ _ _ _ M) as Is.
  cbn [t_call t_slot t_user] in Is. apply born_steps in Is. cbn [born] in Is. destruct Is as [G|(q'&o&v&G)]; [exact G|].
  assert (In (EAdd (SMacs c) q' o v (Got x)) h) as G'.
  { destruct M as [_ [h' E]]. cbn [t_hist] in E. rewrite E. apply in_or_app. right. now right. }
  destruct (made_only_by_init _ _ _ _ _ _ _ _ _ _ _ _ R T G') as [_ N]; [eauto|contradiction].
Qed.

(** ** C03: whose objects a call gets *)
Lemma own_makers sy k slot u h s x v p : reaches sy -> has_call sy k slot u h -> In (EAcquire s x v (Got p)) h ->
  v = u /\ exists k' slot' h' o, has_call sy k' slot' u h' /\ In (EAdd s p o u (Got x)) h' /\
  forall c, client_of s = Some c -> In (EAcquire SClients slot u (Got c)) h /\ In (EAcquire SClients slot' u (Got c)) h'.
Proof.
  intros R (i&q&T) H. destruct (in_made _ _ _ _ T H) as [h0 M0].
  pose proof (made_acquire sy R _ _ _ _ _ _ M0) as Is0. cbn [t_call t_slot t_user] in Is0.
  destruct (own_objects _ _ _ _ _ Is0) as (->&_&C0). split; [reflexivity|].
  destruct (acquired_maker sy R s x u p) as (o&t&h'&M&Is&E&_); [eapply in_did; eauto|].
  destruct (own_objects _ _ _ _ _ Is) as (_&C).
  exists (t_call t), (t_slot t), (t_hist t), o. split; [|split].
  - destruct M as [[j Tj] _]. exists j, (t_prog t). rewrite Tj. destruct t; cbn in *. congruence.
  - exact (made_in _ _ _ _ M).
  - intros c Hc. split.
    + destruct M0 as [_ [h1 E0]]. cbn [t_hist] in E0. rewrite E0. apply in_or_app. right. right. exact (C0 c Hc).
    + destruct M as [_ [h1 ->]]. apply in_or_app. right. right. exact (C c Hc).
Qed.

(** Statements in the form of C_World.v. *)
Lemma use_flag_always sy i k slot u h p key r src dst f :
  doing sy i k slot u h (CUse p key r src dst) -> flag_for r = Some f -> has_flag (k_rights key) f.
Proof. intros D. exact (world_flag sy (proj1 D) i k slot u h p key r src dst D f). Qed.
Lemma use_listed_always sy i k slot u h p key r src dst :
  doing sy i k slot u h (CUse p key r src dst) -> r <> RInner -> r <> RExport -> listed (k_rights key) u.
Proof. intros D. exact (world_listed sy (proj1 D) i k slot u h p key r src dst D). Qed.
Lemma use_size_always sy i k slot u h p key r src dst :
  doing sy i k slot u h (CUse p key r src dst) -> r <> RInner ->
  size_allowed (k_type key) (p_curve (k_params key)) (k_size key) /\
  (length (r_id (k_rights key)) = 64%nat -> id_terminated (k_rights key)).
Proof. intros D. exact (world_size sy (proj1 D) i k slot u h p key r src dst D). Qed.
