(** Where the objects of the whole system come from: invariants of all reachable states. *)
From Verif Require Import Base M_Slots M_ObjectStore S_ObjectStore P_ObjectStore M_Rights S_Rights P_Rights M_Svp M_Prog
  M_ApiKey M_ApiCipher M_ApiMac M_ApiSvp M_Api S_Api M_World S_World P_Prog P_ApiGuard P_Api P_Birth P_WorldReach.

(** [made sy e h]: call [t] of the system did [e] after having done [h]. *)
Definition made_at (sy : system) (t : thread) (h : list ev) (e : ev) : Prop :=
  (exists i, nth_error (s_threads sy) i = Some t) /\ exists h', t_hist t = h' ++ e :: h.
Definition did (sy : system) (e : ev) : Prop := exists t h, made_at sy t h e.

Lemma made_in sy t h e : made_at sy t h e -> In e (t_hist t).
Proof. intros [_ [h' ->]]. apply in_elt. Qed.
Lemma in_made sy i t e : nth_error (s_threads sy) i = Some t -> In e (t_hist t) -> exists h, made_at sy t h e.
Proof. intros T H. apply in_split in H as (h'&h&H). exists h. split; eauto. Qed.
Lemma in_did sy i t e : nth_error (s_threads sy) i = Some t -> In e (t_hist t) -> did sy e.
Proof. intros T H. exists t. eapply in_made; eauto. Qed.
Lemma made_before sy t h e e' : made_at sy t h e -> In e' h -> did sy e'.
Proof.
  intros [[i T] [h' E]] H. eapply in_did; [exact T|]. rewrite E. apply in_or_app. right. now right.
Qed.

(** A past step of a call was a step its program takes. *)
Lemma split_at {A} (a b c d : list A) : length a = length c -> a ++ b = c ++ d -> a = c /\ b = d.
Proof.
  revert c. induction a as [|x a IH]; intros [|y c]; cbn; try discriminate; intros L E; [auto|].
  injection L as L. injection E as -> E. destruct (IH c L E) as [-> ->]. auto.
Qed.
Lemma reach_grows {A} (p q : prog A) h h' : reach p h q h' -> extends h h'.
Proof. induction 1; [apply extends_refl|now apply extends_cons in IHreach]. Qed.
Lemma reach_past {A} (p : prog A) q h0 hist : reach p h0 q hist -> forall h' e h, hist = h' ++ e :: h ->
  (exists l, h = l ++ h0) -> exists c k r, reach p h0 (Do c k) h /\ e = event c r.
Proof.
  induction 1 as [p h|c k h r q hist L R IH]; intros h1 e h2 E [l ->].
  - exfalso. apply (f_equal (@length ev)) in E. rewrite !app_length in E. cbn in E. rewrite app_length in E. lia.
  - destruct (length l) as [|n] eqn:N.
    + destruct l; [|discriminate]. cbn in E. exists c, k, r. split; [constructor|].
      assert (exists l, hist = l ++ event c r :: h) as [l ->].
      { exact (reach_grows _ _ _ _ R). }
      assert (length l = length h1) as Hl.
      { apply (f_equal (@length ev)) in E. rewrite !app_length in E. cbn in E. lia. }
      apply split_at in E as [_ E]; [congruence|exact Hl].
    + assert (exists m, hist = m ++ event c r :: h) as [m Em].
      { exact (reach_grows _ _ _ _ R). }
      assert (exists l', l ++ h = l' ++ event c r :: h) as [l' El].
      { destruct (exists_last (l := l)) as (l1&x&->); [intros ->; discriminate|].
        rewrite E in Em. change (h1 ++ e :: (l1 ++ [x]) ++ h) with (h1 ++ (e :: l1 ++ [x]) ++ h) in Em.
        exists l1. rewrite <- app_assoc. cbn.
        rewrite <- app_assoc in E.
        replace (h1 ++ (e :: l1 ++ [x]) ++ h) with ((h1 ++ e :: l1) ++ x :: h) in Em
          by (rewrite <- app_assoc; cbn; now rewrite <- app_assoc).
        assert (length (h1 ++ e :: l1) = length m) as Hl.
        { apply (f_equal (@length ev)) in Em. rewrite !app_length in *. cbn in *. lia. }
        apply split_at in Em as [_ Em]; [now injection Em as ->|exact Hl]. }
      destruct (IH h1 e (l ++ h) E) as (c'&k'&r'&R'&->); [eauto|].
      exists c', k', r'. split; [|reflexivity]. econstructor; eauto.
Qed.
Lemma made_issues sy t h e : reaches sy -> made_at sy t h e ->
  exists c r, issues (t_call t) (t_slot t) (t_user t) c h /\ e = event c r.
Proof.
  intros H [[i T] [h' E]]. destruct (reaches_paths sy H) as [_ P]. specialize (P _ _ T).
  destruct (reach_past _ _ _ _ P h' e h E) as (c&k&r&R&Ee); [exists h; now rewrite app_nil_r|].
  exists c, r. split; [now exists k|exact Ee].
Qed.

(** ** The invariant *)
Definition similar (o o0 : obj) : Prop :=
  match o, o0 with
  | OCipher a, OCipher b => alike_cipher a b
  | OSvp _, OSvp _ => True
  | OMacState a, OMacState b => ms_key a = ms_key b
  | _, _ => o = o0
  end.
Lemma similar_refl o : similar o o.
Proof. destruct o; cbn; auto. now repeat split. Qed.
(** What a step found in the object at [p]. *)
Definition found (e : ev) : option (Z * obj) :=
  match e with
  | EWrapped p k => Some (p, OWrapped k)
  | EGetKey p k => Some (p, OKey k)
  | ECipher p c => Some (p, OCipher c)
  | EMac p m => Some (p, OMac m)
  | EMacState p m => Some (p, OMacState m)
  | ESvp p b => Some (p, OSvp b)
  | _ => None
  end.
Record inv (sy : system) : Prop := MkInv {
  i_old : forall o p, did sy (ENew o (Some p)) -> p < w_next (s_world sy);
  i_one : forall o o' p, did sy (ENew o (Some p)) -> did sy (ENew o' (Some p)) -> o = o';
  i_heap : forall p o, w_heap (s_world sy) p = Some o -> exists o0, did sy (ENew o0 (Some p)) /\ similar o o0;
  i_read : forall e p o, did sy e -> found e = Some (p, o) -> exists o0, did sy (ENew o0 (Some p)) /\ similar o o0;
  i_store : forall s st x p, w_stores (s_world sy) s = Some st -> 0 <= x -> e_object (get_entry st x) = Some p ->
     exists o, did sy (EAdd s p o (e_owner (get_entry st x)) (Got x));
  i_acquire : forall s x u p, did sy (EAcquire s x u (Got p)) -> exists o, did sy (EAdd s p o u (Got x))
}.

(** ** Steps *)
Definition after (sy : system) (i : nat) (t : thread) (w : world) (p : prog status) (e : ev) : system :=
  MkSystem w (update i (MkThread (t_call t) (t_slot t) (t_user t) p (e :: t_hist t)) (s_threads sy)).
Lemma did_after sy i t w p e e' : nth_error (s_threads sy) i = Some t ->
  did (after sy i t w p e) e' <-> e' = e \/ did sy e'.
Proof.
  intros T. split.
  - intros (t'&h&M). pose proof (made_in _ _ _ _ M) as Hin. destruct M as [[j Tj] _]. cbn in Tj.
    apply nth_error_update_in in Tj as [[_ ->]|Tj].
    + cbn in Hin. destruct Hin as [<-|Hin]; [now left|right; eapply in_did; eauto].
    + right. eapply in_did; eauto.
  - assert (nth_error (s_threads (after sy i t w p e)) i =
       Some (MkThread (t_call t) (t_slot t) (t_user t) p (e :: t_hist t))) as Ti.
    { cbn. apply nth_error_update_eq. apply nth_error_Some. congruence. }
    intros [->|(t'&h&M)]; [eapply in_did; [exact Ti|now left]|].
    pose proof (made_in _ _ _ _ M) as Hin. destruct M as [[j Tj] _].
    destruct (Nat.eq_dec i j) as [->|N].
    + assert (t' = t) as -> by congruence. eapply in_did; [exact Ti|now right].
    + eapply in_did; [|exact Hin]. cbn. rewrite nth_error_update_neq by exact N. exact Tj.
Qed.

(** Freeing only removes. *)
Definition shrinks (w w' : world) : Prop :=
  w_next w' = w_next w /\ (forall p o, w_heap w' p = Some o -> w_heap w p = Some o).
Lemma free_shrinks l : forall w w', free_all w l = Some w' -> shrinks w w' /\ w_stores w' = w_stores w.
Proof.
  induction l as [|p l IH]; cbn; intros w w' H; [injection H as <-; repeat split; auto|].
  destruct (w_heap w p); [|discriminate]. destruct (locked w p); [discriminate|].
  apply IH in H as [[H1 H2] H3]. cbn in *. repeat split; auto. intros q o' Hq. apply H2 in Hq.
  destruct (q =? p); [discriminate|exact Hq].
Qed.
Lemma destroy_shrinks w p w' : destroy w p = Some w' -> shrinks w w' /\ w_stores w' = w_stores w.
Proof. unfold destroy. destruct (w_heap w p); [|discriminate]. apply free_shrinks. Qed.
Lemma shrinks_trans a b c : shrinks a b -> shrinks b c -> shrinks a c.
Proof. intros [A B] [C D]. split; [congruence|auto]. Qed.
Lemma destroy_all_shrinks l : forall w w', destroy_all w l = Some w' -> shrinks w w' /\ w_stores w' = w_stores w.
Proof.
  induction l as [|p l IH]; cbn; intros w w' H; [injection H as <-; repeat split; auto|].
  destruct (destroy w p) as [w1|] eqn:E; [|discriminate].
  apply destroy_shrinks in E as [E1 E2]. apply IH in H as [H1 H2]. split; [eapply shrinks_trans; eauto|congruence].
Qed.
Lemma shut_shrinks l : forall w w', shut_stores w l = Some (Some w') ->
  shrinks w w' /\ forall s st, w_stores w' s = Some st -> w_stores w s = Some st.
Proof.
  induction l as [|s l IH]; cbn; intros w w' H; [injection H as <-; repeat split; auto|].
  unfold shut_store in H. destruct (w_stores w s) as [st|] eqn:E; [|discriminate].
  destruct (busy st); [discriminate|].
  destruct (destroy_all w (objects_of st)) as [w1|] eqn:D; [|discriminate].
  apply destroy_all_shrinks in D as [D1 D2]. apply IH in H as [H1 H2]. split.
  - eapply shrinks_trans; [exact D1|]. exact H1.
  - intros s' st' Hs. apply H2 in Hs. cbn in Hs. destruct (sid_eqb s' s); [discriminate|]. congruence.
Qed.

(** The entries of a store, across its operations. *)
Lemma init_entry st x : store_init NUM_SLOTS = Some st -> e_object (get_entry st x) = None.
Proof.
  intros E. assert (st_objects st = repeat empty_entry 256) as Eo.
  { unfold store_init in E. destruct (NUM_SLOTS mod 32 =? 0); [|discriminate].
    destruct (slots_init NUM_SLOTS); [|discriminate]. injection E as <-. reflexivity. }
  unfold get_entry. rewrite Eo. clear. generalize 256%nat. intros n. generalize (Z.to_nat x).
  induction n as [|n IH]; intros [|m]; cbn; auto.
Qed.
Lemma get_set st x e y : 0 <= x -> 0 <= y -> get_entry (set_entry st x e) y = e \/
  get_entry (set_entry st x e) y = get_entry st y.
Proof.
  intros Hx Hy. unfold get_entry, set_entry. cbn.
  destruct (Nat.eq_dec (Z.to_nat x) (Z.to_nat y)) as [<-|N].
  - destruct (Nat.lt_ge_cases (Z.to_nat x) (length (st_objects st))) as [L|L].
    + left. rewrite nth_update_eq by exact L. reflexivity.
    + right. rewrite !nth_overflow; auto. now rewrite update_length.
  - right. now rewrite nth_update_neq by exact N.
Qed.

Lemma inv_step sy i t w p e : inv sy -> nth_error (s_threads sy) i = Some t ->
  w_next (s_world sy) <= w_next w ->
  (forall o q, e = ENew o (Some q) -> q = w_next (s_world sy) /\ w_next w = q + 1) ->
  (forall q o, w_heap w q = Some o -> w_heap (s_world sy) q = Some o \/ e = ENew o (Some q) \/
      exists o0, did sy (ENew o0 (Some q)) /\ similar o o0) ->
  (forall q o, found e = Some (q, o) -> w_heap (s_world sy) q = Some o) ->
  (forall s st x q, w_stores w s = Some st -> 0 <= x -> e_object (get_entry st x) = Some q ->
      (exists st0, w_stores (s_world sy) s = Some st0 /\ e_object (get_entry st0 x) = Some q /\
                   e_owner (get_entry st0 x) = e_owner (get_entry st x)) \/
      exists o, e = EAdd s q o (e_owner (get_entry st x)) (Got x)) ->
  (forall s x u q, e = EAcquire s x u (Got q) -> exists st, w_stores (s_world sy) s = Some st /\ 0 <= x /\
      e_object (get_entry st x) = Some q /\ e_owner (get_entry st x) = u) ->
  inv (after sy i t w p e).
Proof.
  intros [I1 I2 I3 I4 I5 I6] T Ha Hb Hc Hd He Hf.
  assert (forall e', did sy e' -> did (after sy i t w p e) e') as Up
    by (intros; apply did_after; auto).
  assert (did (after sy i t w p e) e) as Now by (apply did_after; auto).
  constructor.
  - intros o q D. apply (did_after _ _ _ _ _ _ _ T) in D as [D|D].
    + symmetry in D. apply Hb in D as [-> E]. cbn. lia.
    + apply I1 in D. cbn. lia.
  - intros o o' q D D'. apply (did_after _ _ _ _ _ _ _ T) in D. apply (did_after _ _ _ _ _ _ _ T) in D'.
    destruct D as [D|D], D' as [D'|D'].
    + congruence.
    + symmetry in D. apply Hb in D as [-> _]. apply I1 in D'. lia.
    + symmetry in D'. apply Hb in D' as [-> _]. apply I1 in D. lia.
    + eauto.
  - intros q o Hq. destruct (Hc q o Hq) as [H|[->|(o0&H1&H2)]].
    + apply I3 in H as (o0&H1&H2). eauto.
    + exists o. split; [exact Now|apply similar_refl].
    + eauto.
  - intros e' q o D F. apply (did_after _ _ _ _ _ _ _ T) in D as [->|D]; [|apply (I4 _ _ _ D) in F as (o0&H1&H2); eauto].
    apply Hd, I3 in F as (o0&H1&H2). eauto.
  - intros s st x q Hs Hx Ho. destruct (He s st x q Hs Hx Ho) as [(st0&H1&H2&H3)|[o ->]]; [|eauto].
    destruct (I5 s st0 x q H1 Hx H2) as [o D]. rewrite H3 in D. eauto.
  - intros s x u q D. apply (did_after _ _ _ _ _ _ _ T) in D as [D|D].
    + symmetry in D. destruct (Hf _ _ _ _ D) as (st&H1&H2&H3&<-). destruct (I5 _ _ _ _ H1 H2 H3) as [o E]. eauto.
    + apply I6 in D as [o D]. eauto.
Qed.

(** Most commands leave the stores and the heap alone. *)
Lemma inv_quiet sy i t w p e : inv sy -> nth_error (s_threads sy) i = Some t ->
  shrinks (s_world sy) w -> (forall s st, w_stores w s = Some st -> w_stores (s_world sy) s = Some st) ->
  (forall o q, e <> ENew o (Some q)) -> (forall s x u q, e <> EAcquire s x u (Got q)) ->
  (forall q o, found e = Some (q, o) -> w_heap (s_world sy) q = Some o) ->
  inv (after sy i t w p e).
Proof.
  intros I T [S1 S2] St N A F. apply inv_step; auto.
  - lia.
  - intros o q E. now apply N in E.
  - intros s st x q Hs Hx Ho. left. eauto.
  - intros s x u q E. now apply A in E.
Qed.

Lemma acquire_shape st x u st' e o : store_acquire st x u = (st', e, o) -> forall p, o = Some p ->
  e_object (get_entry st x) = Some p /\ e_owner (get_entry st x) = u /\ e = OK /\
  st' = set_entry st x (MkEntry (e_object (get_entry st x)) (e_refs (get_entry st x) + 1) (e_owner (get_entry st x))).
Proof.
  unfold store_acquire. intros E p ->. destruct (st_count st <=? x); [discriminate|].
  destruct (st_shutting st); [discriminate|]. destruct (e_object (get_entry st x)) as [q|] eqn:Eo; [|discriminate].
  destruct (e_owner (get_entry st x) =? u) eqn:Eu; cbn [negb] in E; [|discriminate].
  injection E as <- <- ->. apply Z.eqb_eq in Eu. auto.
Qed.
(** An entry keeps its object and owner. *)
Definition kept (st st' : store) : Prop := forall y p, 0 <= y -> e_object (get_entry st' y) = Some p ->
  e_object (get_entry st y) = Some p /\ e_owner (get_entry st y) = e_owner (get_entry st' y).
Lemma kept_refl st : kept st st. Proof. intros y p _ H. auto. Qed.
Lemma get_set_eq st x e y : get_entry (set_entry st x e) y = get_entry st y \/
  (Z.to_nat x = Z.to_nat y /\ get_entry (set_entry st x e) y = e).
Proof.
  unfold get_entry, set_entry. cbn. destruct (Nat.eq_dec (Z.to_nat x) (Z.to_nat y)) as [E|N].
  - rewrite <- E. destruct (Nat.lt_ge_cases (Z.to_nat x) (length (st_objects st))) as [L|L].
    + right. split; [reflexivity|]. now rewrite nth_update_eq by exact L.
    + left. rewrite !nth_overflow; auto. now rewrite update_length.
  - left. now rewrite nth_update_neq by exact N.
Qed.
Lemma same_slot st x y : Z.to_nat x = Z.to_nat y -> get_entry st y = get_entry st x.
Proof. unfold get_entry. now intros ->. Qed.
Lemma kept_refs st x n : kept st (set_entry st x (MkEntry (e_object (get_entry st x)) n (e_owner (get_entry st x)))).
Proof.
  intros y p _ H. destruct (get_set_eq st x (MkEntry (e_object (get_entry st x)) n (e_owner (get_entry st x))) y) as [E|[N E]];
    rewrite E in *; [auto|]. rewrite (same_slot _ _ _ N). auto.
Qed.
Lemma kept_release st x p u : kept st (fst (store_release st x p u)).
Proof.
  unfold store_release. destruct (st_count st <=? x); [apply kept_refl|].
  destruct (negb (e_owner (get_entry st x) =? u)); [apply kept_refl|].
  destruct (negb _); [apply kept_refl|]. destruct (e_refs (get_entry st x) =? 0); [apply kept_refl|]. cbn [fst].
  apply kept_refs.
Qed.
Lemma kept_remove st x v : kept st (fst (remove_pass st x v)).
Proof.
  unfold remove_pass. destruct (e_object (get_entry st x)) as [o|]; [|apply kept_refl].
  destruct (match v with Some u => _ | None => _ end); [apply kept_refl|].
  destruct (e_refs (get_entry st x) =? 0); [|apply kept_refl]. cbn [fst].
  intros y p _ H. unfold set_slots in *. change (get_entry (MkStore _ (st_objects ?s) _ _ _) y) with (get_entry s y) in *.
  match type of H with e_object (get_entry (set_entry st x ?e) y) = _ => destruct (get_set_eq st x e y) as [E|[N E]] end;
    rewrite E in *; [auto|discriminate].
Qed.
Lemma add_entries st p u st' x : store_add st p u = (st', OK, x) -> 0 <= x ->
  forall y q, 0 <= y -> e_object (get_entry st' y) = Some q ->
  (e_object (get_entry st y) = Some q /\ e_owner (get_entry st y) = e_owner (get_entry st' y)) \/
  (y = x /\ q = p /\ e_owner (get_entry st' y) = u).
Proof.
  unfold store_add. destruct (st_shutting st); [discriminate|].
  destruct (slots_allocate (st_slots st)) as [sl z]. destruct (z =? INVALID_HANDLE); [discriminate|].
  intros E Hx y q Hy H. injection E as <- <-.
  match type of H with e_object (get_entry (set_entry ?a ?b ?e) y) = _ => destruct (get_set_eq a b e y) as [E|[N E]] end;
    rewrite E in *; [left; auto|right]. cbn in *. repeat split; try congruence. lia.
Qed.

Lemma init_stores_entries w c s st : w_stores (init_stores w c) s = Some st ->
  w_stores w s = Some st \/ forall x, e_object (get_entry st x) = None.
Proof.
  unfold init_stores, client_stores. cbn [fold_left set_store w_stores].
  intros H. repeat match type of H with context [if ?b then _ else _] => destruct b end;
    try (right; intros; now apply init_entry); now left.
Qed.
Lemma init_stores_rest w c : w_heap (init_stores w c) = w_heap w /\ w_next (init_stores w c) = w_next w.
Proof. split; reflexivity. Qed.
Lemma sid_eqb_eq a b : sid_eqb a b = true -> a = b.
Proof. unfold sid_eqb. destruct (sid_dec a b); [auto|discriminate]. Qed.

Lemma inv_serve sy i t ch c k w r : reaches sy -> inv sy -> nth_error (s_threads sy) i = Some t ->
  t_prog t = Do c k -> serve (s_world sy) i ch c = Served w r -> inv (after sy i t w (k r) (event c r)).
Proof.
  intros R I T P H. destruct (reaches_paths sy R) as [G On].
  assert (issues (t_call t) (t_slot t) (t_user t) c (t_hist t)) as Is.
  { exists k. rewrite <- P. exact (On _ _ T). }
  pose proof (born_steps _ _ _ _ _ Is) as B. clear Is On P.
  destruct c; cbn [serve event] in *;
    try (unfold or_crash, read in H; destruct (w_heap (s_world sy) p) as [o|] eqn:Ep; [destruct o|]; try discriminate;
         injection H as <- <-; apply inv_quiet; cbn [found]; auto;
         [now split|congruence..|intros q o' E; injection E as <- <-; exact Ep]).
  - (* acquire *)
    destruct (w_stores (s_world sy) s) as [st|] eqn:E; [|discriminate].
    destruct (h <? 0) eqn:En; [injection H as <- <-; apply inv_quiet; cbn [found]; auto; [now split|congruence..]|].
    destruct (store_acquire st h u) as [[st' e] [p|]] eqn:A; injection H as <- <-;
      [|apply inv_quiet; cbn [found]; auto; [now split|congruence..] ].
    apply acquire_shape with (p := p) in A as (A1&A2&->&->); [|reflexivity].
    apply inv_step; cbn [found set_store w_heap w_next w_stores]; auto; try discriminate; [lia| |].
    + intros s' st1 x q Hs Hx Ho. destruct (sid_eqb s' s) eqn:Es; [|left; eauto].
      apply sid_eqb_eq in Es as ->. injection Hs as <-. left. exists st.
      destruct (kept_refs st h (e_refs (get_entry st h) + 1) x q Hx Ho) as [K1 K2]. auto.
    + intros s' x v q Eq. injection Eq as <- <- <- <-. exists st. repeat split; auto. lia.
  - (* release *)
    destruct (w_stores (s_world sy) s) as [st|] eqn:E; [|discriminate]. injection H as <- <-.
    apply inv_step; cbn [found set_store w_heap w_next w_stores]; auto; try discriminate; [lia|].
    intros s' st1 x q Hs Hx Ho. destruct (sid_eqb s' s) eqn:Es; [|left; eauto].
    apply sid_eqb_eq in Es as ->. injection Hs as <-. left. exists st.
    destruct (kept_release st h p u x q Hx Ho) as [K1 K2]. auto.
  - (* add *)
    destruct (w_stores (s_world sy) s) as [st|] eqn:E; [|discriminate]. pose proof (G _ _ E) as (W&C&Sh).
    destruct (w_heap (s_world sy) p) as [o'|]; [|discriminate]. cbn [born] in B. destruct B as [B _].
    destruct (store_add st p u) as [[st' e] x] eqn:A. pose proof A as A0.
    apply add_wf in A0 as (A1&A2&A3&A5); [|exact W].
    destruct A5 as [(_&->&->&->)|[(_&_&->&->&->)|(A6&A7&A8&->&A9&A10)]]; injection H as <- <-;
      try (apply inv_quiet; cbn [found]; auto; [now split|congruence..]).
    set (w' := set_store (set_heap (s_world sy) p (Some o)) s (Some st')).
    assert (inv (after sy i t w' (k (Got x)) (EAdd s p o u (Got x)))) as Iw.
    { unfold w'. apply inv_step; cbn [found set_store set_heap w_heap w_next w_stores]; auto; try discriminate; [lia| |].
      - intros q o1 Hq. destruct (q =? p) eqn:Eq; [|auto]. apply Z.eqb_eq in Eq as ->. injection Hq as <-.
        right. right. exists o. split; [eapply in_did; eauto|apply similar_refl].
      - intros s' st1 y q Hs Hy Ho. destruct (sid_eqb s' s) eqn:Es; [|left; eauto].
        apply sid_eqb_eq in Es as ->. injection Hs as <-.
        destruct (add_entries st p u st' x A ltac:(lia) y q Hy Ho) as [[K1 K2]|(->&->&<-)]; [left|right]; eauto. }
    destruct s; try exact Iw. destruct Iw as [J1 J2 J3 J4 J5 J6]. constructor; auto.
    intros s st1 y q Hs Hy Ho. cbn [after s_world] in Hs. apply init_stores_entries in Hs as [Hs|Hs]; [|congruence].
    exact (J5 s st1 y q Hs Hy Ho).
  - (* remove *)
    destruct (w_stores (s_world sy) s) as [st|] eqn:E; [|discriminate].
    destruct ((h <? 0) || (st_count st <=? h)) eqn:En; [injection H as <- <-; apply inv_quiet; cbn [found]; auto; [now split|congruence..]|].
    pose proof (kept_remove st h (Some u)) as K.
    destruct (remove_pass st h (Some u)) as [st' [|e [p|]]]; [discriminate| |injection H as <- <-; apply inv_quiet; cbn [found]; auto; [now split|congruence..] ].
    cbn [fst] in K.
    assert (forall wa, shrinks (set_store (s_world sy) s (Some st')) wa ->
      (forall s1 st1, w_stores wa s1 = Some st1 -> w_stores (set_store (s_world sy) s (Some st')) s1 = Some st1) ->
      inv (after sy i t wa (k e) (ERemove s h u e))) as Go.
    { intros wa [S1 S2] S3. cbn in S1, S2. apply inv_step; cbn [found]; auto; try discriminate; [lia|].
      intros s' st1 x q Hs Hx Ho. apply S3 in Hs. cbn in Hs. destruct (sid_eqb s' s) eqn:Es; [|left; eauto].
      apply sid_eqb_eq in Es as ->. injection Hs as <-. left. exists st.
      destruct (K x q Hx Ho) as [K1 K2]. auto. }
    destruct s.
    1: destruct (shut_stores (set_store (s_world sy) SClients (Some st')) (client_stores p)) as [[w1|]|] eqn:Sh;
         try discriminate; apply shut_shrinks in Sh as [Sh1 Sh2];
       destruct (destroy w1 p) as [w2|] eqn:D; [|discriminate]; injection H as <- <-; apply destroy_shrinks in D as [D1 D2];
       apply Go; [eapply shrinks_trans; eauto|intros s1 st1; rewrite D2; apply Sh2].
    all: match type of H with match ?d with _ => _ end = _ => destruct d as [w2|] eqn:D end;
         [|discriminate]; injection H as <- <-; apply destroy_shrinks in D as [D1 D2];
         apply Go; [exact D1|intros s1 st1; now rewrite D2].
  - (* lock *)
    destruct (w_heap (s_world sy) p); [|discriminate]. destruct (locked_by_other (s_world sy) p i); [discriminate|].
    injection H as <- <-. apply inv_quiet; cbn [found]; auto; [now split|congruence..].
  - destruct (w_heap (s_world sy) p); [|discriminate]. destruct (locked_by (s_world sy) p i); [|discriminate].
    injection H as <- <-. apply inv_quiet; cbn [found]; auto; [now split|congruence..].
  - (* new *)
    destruct (ch_alloc ch); injection H as <- <-; [|apply inv_quiet; cbn [found]; auto; [now split|congruence..] ].
    apply inv_step; cbn [found set_heap w_heap w_next w_stores]; auto; try discriminate; [lia| | |].
    + intros o1 q Eq. injection Eq as <- <-. auto.
    + intros q o1 Hq. destruct (q =? w_next (s_world sy)) eqn:Eq; [|auto]. apply Z.eqb_eq in Eq as ->.
      injection Hq as <-. auto.
    + intros s st x q Hs Hx Ho. left. eauto.
  - (* free *)
    destruct (free_all (s_world sy) (p :: children o)) as [w1|] eqn:F; [|discriminate]. injection H as <- <-.
    apply free_shrinks in F as [F1 F2]. apply inv_quiet; cbn [found]; auto; congruence.
  - (* set *)
    destruct (w_heap (s_world sy) p) as [o1|] eqn:Ep; [|discriminate]. injection H as <- <-.
    apply inv_step; cbn [found set_heap w_heap w_next w_stores]; auto; try discriminate; [lia| |intros; left; eauto].
    intros q o2 Hq. destruct (q =? p) eqn:Eq; [|auto]. apply Z.eqb_eq in Eq as ->. injection Hq as <-.
    right. right. cbn [born] in B. destruct I as [J1 J2 J3 J4 J5 J6].
    assert (forall e o', In e (t_hist t) -> found e = Some (p, o') ->
      exists o0, did sy (ENew o0 (Some p)) /\ similar o' o0) as Rd.
    { intros e o' Hin. apply J4. eapply in_did; eauto. }
    destruct o as [| | | |ci'|st'| | |b']; try contradiction.
    + destruct B as (ci&B1&B2). destruct (Rd _ _ B1 eq_refl) as (o0&D&S). exists o0. split; [exact D|].
      destruct o0; cbn in S |- *; try discriminate S. unfold alike_cipher in *. intuition congruence.
    + destruct B as (st0&B1&B2). destruct (Rd _ _ B1 eq_refl) as (o0&D&S). exists o0. split; [exact D|].
      destruct o0; cbn in S |- *; try discriminate S. congruence.
    + destruct B as (b&B1). destruct (Rd _ _ B1 eq_refl) as (o0&D&S). exists o0. split; [exact D|].
      destruct o0; cbn in S |- *; try discriminate S. exact Logic.I.
  - injection H as <- <-. apply inv_quiet; cbn [found]; auto; [now split|congruence..].
  - injection H as <- <-. apply inv_quiet; cbn [found]; auto; [now split|congruence..].
  - destruct (w_heap (s_world sy) p) as [o|]; [destruct o|]; try discriminate; injection H as <- <-;
      (apply inv_quiet; cbn [found]; auto; [now split|congruence..]).
  - injection H as <- <-. apply inv_quiet; cbn [found]; auto; [now split|congruence..].
  - injection H as <- <-. apply inv_quiet; cbn [found]; auto; [now split|congruence..].
  - discriminate.
Qed.

Lemma did_start sy k slot u e : did (MkSystem (s_world sy) (s_threads sy ++ [start k slot u])) e <-> did sy e.
Proof.
  split; intros (t&h&M); pose proof (made_in _ _ _ _ M) as Hin; destruct M as [[j Tj] _].
  - cbn in Tj. destruct (Nat.lt_ge_cases j (length (s_threads sy))) as [L|L].
    + rewrite nth_error_app1 in Tj by exact L. eapply in_did; eauto.
    + rewrite nth_error_app2 in Tj by exact L. destruct (j - length (s_threads sy))%nat as [|[|n]]; try discriminate.
      injection Tj as <-. destruct Hin.
  - eapply in_did; [|exact Hin]. cbn. rewrite nth_error_app1; [exact Tj|]. apply nth_error_Some. congruence.
Qed.
Lemma inv_reaches sy : reaches sy -> inv sy.
Proof.
  induction 1 as [|sy k slot u H I|sy i ch sy' H I R].
  - assert (forall e, ~ did boot e) as N.
    { intros e (t&h&[[j Tj] _]). cbn in Tj. destruct j; discriminate. }
    constructor; try (intros; exfalso; eapply N; eassumption); cbn; try discriminate.
    intros s st x p Hs Hx Ho. destruct s; try discriminate. rewrite init_entry in Ho by exact Hs. discriminate.
  - destruct I as [I1 I2 I3 I4 I5 I6].
    constructor; intros *; rewrite ?did_start; try (setoid_rewrite did_start); eauto.
  - unfold run_step in R. destruct (nth_error (s_threads sy) i) as [t|] eqn:T; [|discriminate].
    destruct (t_prog t) as [|c k] eqn:P; [discriminate|].
    destruct (serve (s_world sy) i ch c) as [w r| |] eqn:S; try discriminate. injection R as <-.
    exact (inv_serve sy i t ch c k w r H I T P S).
Qed.
