(** Proofs for C67: the private keys behind the key objects, and the theorems. *)
From Coq Require Import List ZArith Bool Arith Lia.
From Verif Require Import M_ProvKeys S_ProvKeys P_ProvKeys.
Import ListNotations.
Open Scope Z_scope.

(** The private key of an object and whether the provider is to delete it. *)
Definition pk (s : st) (k : nat) : option (option nat * bool) := match objs s k with Some o => Some (priv o, owned o) | None => None end.
Record hinv (e : bool) (s : st) (l : ledger) : Prop := Hinv {
  h_live : forall k h, pk s k = Some (Some h, true) -> In h (keys s) /\ own l h = false;
  h_one : forall k k' h, pk s k = Some (Some h, true) -> pk s k' = Some (Some h, true) -> k = k';
  h_own : forall h, own l h = true -> In h (keys s);
  h_all : e = true -> forall h, In h (keys s) -> own l h = true \/ exists k, pk s k = Some (Some h, true);
  h_empty : forall k p, pk s k = Some p -> full l k = false -> p = (None, false) }.
Lemma start_hinv : forall e, hinv e start blank.
Proof. intros e; constructor; unfold pk; simpl; try discriminate; tauto. Qed.
Lemma hinv_same : forall e s s' l l', hinv e s l -> (forall k, pk s' k = pk s k) -> keys s' = keys s -> (forall h, own l' h = own l h) -> (forall k, full l' k = full l k) -> hinv e s' l'.
Proof. intros e s s' l l' [A B C D E] P K O F. constructor.
  - intros k h. rewrite P, K, O. apply A. - intros k k' h. rewrite !P. apply B. - intros h. rewrite O, K. apply C.
  - intros Et h. rewrite O, K. intros H. destruct (D Et h H) as [Q|[k Q] ]; [auto|right; exists k; now rewrite P]. - intros k p. rewrite P, F. apply E. Qed.
Lemma pk_upd : forall s k o i n c ks p, pk (St (upd (objs s) k (Some o)) n c ks p) i = if Nat.eqb i k then Some (priv o, owned o) else pk s i.
Proof. intros. unfold pk. cbn [objs]. rewrite upd_eq. destruct (Nat.eqb i k); reflexivity. Qed.
Lemma pk_dup : forall s k s', dup_key s k = Some s' -> (forall i, pk s' i = pk s i) /\ keys s' = keys s.
Proof. unfold dup_key. intros s k s' H. destruct (objs s k) as [o|] eqn:E; [|discriminate]. injection H; intros <-. split; [|reflexivity]. intros i. unfold set_obj. rewrite pk_upd.
  destruct (Nat.eqb_spec i k) as [->|N]; [|reflexivity]. unfold pk. now rewrite E. Qed.
Lemma pk_free : forall s k s', free_key s k = Some s' -> (forall i, pk s' i = pk s i) /\ keys s' = keys s.
Proof. unfold free_key. intros s k s' H. destruct (objs s k) as [o|] eqn:E; [|discriminate]. injection H; intros <-. split; [|destruct (rc o - 1 =? 0); reflexivity]. intros i.
  transitivity (pk (set_obj s k (Some (Kobj (rc o - 1) (priv o) (owned o)))) i); [destruct (rc o - 1 =? 0); reflexivity|].
  unfold set_obj. rewrite pk_upd. destruct (Nat.eqb_spec i k) as [->|N]; [|reflexivity]. unfold pk. now rewrite E. Qed.
Lemma pk_free_slot : forall s k s', free_slot s k = Some s' -> (forall i, pk s' i = pk s i) /\ keys s' = keys s.
Proof. intros s [k|] s' H; simpl in H; [now apply (pk_free s k)|]. injection H; intros <-. auto. Qed.
Lemma pk_dup_slot : forall s k s', dup_slot s k = Some s' -> (forall i, pk s' i = pk s i) /\ keys s' = keys s.
Proof. intros s [k|] s' H; simpl in H; [now apply (pk_dup s k)|]. discriminate. Qed.
(** An object gets the private key [h], nobody's before. *)
Lemma hinv_gain : forall e s s' l l' k h, hinv e s l ->
  (forall i, pk s' i = if Nat.eqb i k then Some (Some h, true) else pk s i) -> (forall i, i <> k -> pk s i <> Some (Some h, true)) -> (forall h', pk s k <> Some (Some h', true)) ->
  (forall x, In x (keys s') <-> x = h \/ In x (keys s)) -> own l' h = false -> (forall x, x <> h -> own l' x = own l x) -> full l' k = true -> (forall i, i <> k -> full l' i = full l i) -> hinv e s' l'.
Proof.
  intros e s s' l l' k h [A B C D E] P N NK K O OX F FX. constructor.
  - intros i x. rewrite P. destruct (Nat.eqb_spec i k) as [->|NI].
    + intros H; injection H; intros <-. rewrite K. auto.
    + intros H. destruct (A i x H) as [A1 A2]. assert (x <> h) by (intros ->; exact (N i NI H)). rewrite K, OX by assumption. auto.
  - intros i j x. rewrite !P. destruct (Nat.eqb_spec i k) as [->|NI]; destruct (Nat.eqb_spec j k) as [->|NJ]; auto.
    + intros H H2; injection H; intros <-. destruct (N j NJ H2). + intros H2 H; injection H; intros <-. destruct (N i NI H2). + apply B.
  - intros x Ox. rewrite K. destruct (Nat.eq_dec x h) as [->|NX]; [auto|]. rewrite OX in Ox by assumption. auto.
  - intros Et x. rewrite K. intros H. destruct (Nat.eq_dec x h) as [->|NX]; [right; exists k; rewrite P, Nat.eqb_refl; reflexivity|]. destruct H as [H|H]; [tauto|].
    rewrite OX by assumption. destruct (D Et x H) as [Q|[i Q] ]; [auto|]. right. exists i. rewrite P. destruct (Nat.eqb_spec i k) as [->|NI]; [destruct (NK x Q)|exact Q].
  - intros i p. rewrite P. destruct (Nat.eqb_spec i k) as [->|NI]; [congruence|]. rewrite FX by assumption. apply E.
Qed.
(** An object gets a private key that stays the application's, or none. *)
Lemma hinv_plain : forall e s s' l l' k p, hinv e s l ->
  (forall i, pk s' i = if Nat.eqb i k then Some (p, false) else pk s i) -> (forall h', pk s k <> Some (Some h', true)) -> keys s' = keys s ->
  (forall x, own l' x = own l x) -> (full l' k = true \/ p = None) -> (forall i, i <> k -> full l' i = full l i) -> hinv e s' l'.
Proof.
  intros e s s' l l' k p [A B C D E] P NK K O F FX. constructor.
  - intros i x. rewrite P, K, O. destruct (Nat.eqb_spec i k) as [->|NI]; [discriminate|apply A].
  - intros i j x. rewrite !P. destruct (Nat.eqb_spec i k); [discriminate|]. destruct (Nat.eqb_spec j k); [discriminate|]. apply B.
  - intros x. rewrite O, K. apply C.
  - intros Et x. rewrite K, O. intros H. destruct (D Et x H) as [Q|[i Q] ]; [auto|]. right. exists i. rewrite P. destruct (Nat.eqb_spec i k) as [->|NI]; [destruct (NK x Q)|exact Q].
  - intros i q. rewrite P. destruct (Nat.eqb_spec i k) as [->|NI]; [|rewrite FX by assumption; apply E]. intros H; injection H; intros <-. destruct F as [F| ->]; [congruence|auto].
Qed.
(** A key exists that nobody cares for. *)
Lemma hinv_leak : forall s l h, hinv false s l -> hinv false (St (objs s) (nobj s) (ctxs s) (h :: keys s) (pend s)) l.
Proof. intros s l h [A B C D E]. constructor; cbn [keys]; auto.
  - intros k x H. destruct (A k x H). split; [now right|auto]. - intros x H. right. auto. - discriminate. Qed.

Lemma own_fresh : forall e s l h, hinv e s l -> mem h (keys s) = false -> own l h = false /\ forall k, pk s k <> Some (Some h, true).
Proof. intros e s l h H M. apply mem_out in M. split; [destruct (own l h) eqn:O; [|reflexivity]; destruct (M (h_own _ _ _ H h O))|]. intros k Q. destruct (h_live _ _ _ H k h Q). auto. Qed.
Lemma not_owner : forall e s l k, hinv e s l -> full l k = false -> forall h, pk s k <> Some (Some h, true).
Proof. intros e s l k H F h Q. pose proof (h_empty _ _ _ H k _ Q F). discriminate. Qed.
Lemma upd_false : forall (f : nat -> bool) i x, x <> i -> forall v, upd f i v x = f x.
Proof. intros. now apply upd_other. Qed.

Lemma import_hinv : forall e s l k src s' a, hinv e s l -> may l (OImport k src) -> fresh l (OImport k src) -> (e = true -> tidy l (OImport k src)) ->
  import_key s k src = Ran s' a -> hinv e s' (note l (OImport k src) a).
Proof.
  intros e s l k src s' a H M F T. cbn [fresh] in F. unfold import_key, accept, refuse. destruct (objs s k) as [o|] eqn:E; [|discriminate].
  assert (PK : priv o = None /\ owned o = false). { assert (Q : (priv o, owned o) = (None, false)) by (apply (h_empty _ _ _ H k); [unfold pk; now rewrite E|exact F]). now inversion Q. }
  destruct PK as [P0 W0]. rewrite P0, W0. cbn [drop_opt].
  assert (NK := not_owner _ _ _ _ H F).
  assert (RF : forall ks, keys s = ks -> hinv e (St (upd (objs s) k (Some (Kobj (rc o) None false))) (nobj s) (ctxs s) ks (pend s)) l).
  { intros ks <-. apply (hinv_same e s _ l l H); auto. intros i. rewrite pk_upd. destruct (Nat.eqb_spec i k) as [->|N]; [|reflexivity]. unfold pk. rewrite E, P0, W0. reflexivity. }
  destruct src as [h g d|h g d|g].
  - destruct M as [M OW]. destruct (g && mem h (keys s)) eqn:G; intros R; injection R; intros <- <-; [|cbn [note]; destruct d as [ [|]|]; apply RF; reflexivity].
    apply andb_true_iff in G. destruct G as [_ G]. apply mem_in in G. cbn [note].
    assert (NO : forall i, pk s i <> Some (Some h, true)) by (intros i Q; destruct (h_live _ _ _ H i h Q); congruence).
    destruct d as [ [|]|].
    + apply (hinv_gain e s _ l _ k h H); cbn [with_own with_full own full keys].
      * intros i. rewrite pk_upd. reflexivity. * intros i _. apply NO. * exact NK. * intros x. split; [auto|]. intros [->|Q]; auto. * apply upd_same. * intros x Nx. now apply upd_other. * apply upd_same. * intros i Ni. now apply upd_other.
    + apply (hinv_plain e s _ l _ k (Some h) H); cbn [with_own with_full own full keys]; auto; [intros i; apply pk_upd|left; apply upd_same|intros i Ni; now apply upd_other].
    + apply (hinv_plain e s _ l _ k (Some h) H); cbn [with_own with_full own full keys]; auto; [intros i; apply pk_upd|left; apply upd_same|intros i Ni; now apply upd_other].
  - destruct (mem h (keys s)) eqn:G; [intros R; injection R; intros <- <-; exact H|]. destruct (own_fresh _ _ _ _ H G) as [OW NO]. destruct g; intros R; injection R; intros <- <-; cbn [note].
    + assert (GA : d <> Some false -> hinv e (St (upd (objs s) k (Some (Kobj (rc o) (Some h) (match d with Some d => d | None => true end)))) (nobj s) (ctxs s) (h :: keys s) (pend s)) (with_full l k)).
      { intros ND. replace (match d with Some d => d | None => true end) with true by (destruct d as [ [|]|]; congruence).
        apply (hinv_gain e s _ l _ k h H); cbn [with_own with_full own full keys]; auto.
        * intros i. rewrite pk_upd. reflexivity. * intros x. cbn [In]. intuition auto. * apply upd_same. * intros i Ni. now apply upd_other. }
      destruct e; [apply GA; exact (proj2 (T eq_refl))|]. destruct d as [ [|]|]; try (apply GA; congruence).
      apply (hinv_plain false _ _ l _ k (Some h) (hinv_leak _ _ h H)); cbn [with_own with_full own full keys]; auto; [intros i; rewrite pk_upd; reflexivity|left; apply upd_same|intros i Ni; now apply upd_other].
    + destruct e; [destruct (T eq_refl); discriminate|]. apply (hinv_leak _ _ h (RF (keys s) eq_refl)).
  - destruct g; intros R; injection R; intros <- <-; cbn [note]; apply RF; reflexivity.
Qed.
Lemma destroy_hinv : forall e s l k s' a, inv e s l -> hinv e s l -> destroy s k = Ran s' a -> hinv e s' l.
Proof.
  intros e s l k s' a I H R. destruct (bal_destroy _ _ _ k (v_bal _ _ _ I) (demand_pos s l)) as [s2 [a2 [R2 [_ [_ Q] ] ] ] ]. rewrite R in R2. injection R2; intros <- <-.
  destruct Q as [->|[o [E [_ [O K] ] ] ] ]; [exact H|].
  assert (P : forall i, pk s' i = if Nat.eqb i k then None else pk s i) by (intros i; unfold pk; rewrite O, upd_eq; destruct (Nat.eqb i k); reflexivity).
  assert (PK : pk s k = Some (priv o, owned o)) by (unfold pk; now rewrite E).
  destruct H as [A B C D F].
  assert (KX : forall x, In x (keys s') <-> In x (keys s) /\ pk s k <> Some (Some x, true)).
  { intros x. rewrite K, PK. destruct (owned o); [destruct (priv o) as [h|]; cbn [drop_opt]; rewrite ?in_drop|]; split; try (intros [Q1 Q2]); try (intros Q1); auto; try (split; [tauto|congruence]). }
  constructor.
  - intros i h. rewrite P. destruct (Nat.eqb_spec i k) as [->|N]; [discriminate|]. intros Q. destruct (A i h Q) as [A1 A2]. split; [|exact A2]. apply KX. split; [exact A1|]. intros Q2. exact (N (B i k h Q Q2)).
  - intros i j h. rewrite !P. destruct (Nat.eqb i k); [discriminate|]. destruct (Nat.eqb j k); [discriminate|]. apply B.
  - intros h Q. apply KX. split; [auto|]. intros Q2. destruct (A k h Q2). congruence.
  - intros Et h Q. apply KX in Q. destruct Q as [Q1 Q2]. destruct (D Et h Q1) as [Q3|[i Q3] ]; [auto|]. right. exists i. rewrite P. destruct (Nat.eqb_spec i k) as [->|N]; [destruct (Q2 Q3)|exact Q3].
  - intros i p. rewrite P. destruct (Nat.eqb_spec i k) as [->|N]; [discriminate|]. apply F.
Qed.
Lemma step_hinv : forall e s l o s' a, inv e s l -> hinv e s l -> may l o -> fresh l o -> (e = true -> tidy l o) -> step s o = Ran s' a -> hinv e s' (note l o a).
Proof.
  intros e s l o s' a I H M F T R.
  assert (SAME : forall s1 l1, (forall k, pk s1 k = pk s k) -> keys s1 = keys s -> (forall h, own l1 h = own l h) -> (forall k, full l1 k = full l k) -> hinv e s1 l1) by (intros; eapply hinv_same; eauto).
  assert (FR : pk s (nobj s) = None) by (unfold pk; now rewrite (b_next _ _ _ (v_bal _ _ _ I) _ (le_n _))).
  destruct o; cbn [step] in R.
  - injection R; intros <- <-. cbn [note]. apply (hinv_plain e s _ l _ (nobj s) None H); auto. + intros i. unfold add_obj. apply pk_upd. + intros h. rewrite FR. discriminate.
  - unfold generate_key in R. destruct h as [h|]; [|injection R; intros <- <-; exact H]. destruct (mem h (keys s)) eqn:G; [injection R; intros <- <-; exact H|]. destruct (own_fresh _ _ _ _ H G) as [OW NO].
    destruct good; [|injection R; intros <- <-; exact H]. injection R; intros <- <-. cbn [note]. apply (hinv_gain e s _ l _ (nobj s) h H); cbn [with_full with_refs own full keys add_obj]; auto.
    + intros i. apply pk_upd. + intros x. rewrite FR. discriminate. + intros x. cbn [In]. intuition auto. + apply upd_same. + intros i Ni. now apply upd_other.
  - destruct (dup_key s k) as [s1|] eqn:E; [|discriminate]. injection R; intros <- <-. destruct (pk_dup _ _ _ E). apply SAME; auto.
  - destruct (free_key s k) as [s1|] eqn:E; [|discriminate]. injection R; intros <- <-. destruct (pk_free _ _ _ E). apply SAME; auto.
  - destruct (objs s k); [|discriminate]. injection R; intros <- <-. exact H.
  - unfold match_keys in R. destruct (objs s k1); [|discriminate]. destruct (objs s k2); [|discriminate]. injection R; intros <- <-. exact H.
  - now apply (import_hinv e s l k src).
  - injection R; intros <- <-. apply SAME; auto.
  - unfold init_ctx in R. destruct (ctx s c) as [x|]; [|discriminate]. destruct (dup_key s k) as [s1|] eqn:E; [|discriminate]. injection R; intros <- <-. destruct (pk_dup _ _ _ E). cbn [note]. unfold change. destruct (mine l c); apply SAME; auto.
  - unfold digest_init in R. destruct (ctx s c) as [x|]; [|discriminate]. destruct (kind x); [|injection R; intros <- <-; exact H..]. destruct (dup_key s k) as [s1|] eqn:E; [|discriminate]. injection R; intros <- <-. destruct (pk_dup _ _ _ E). cbn [note]. unfold change. destruct (mine l c); apply SAME; auto.
  - unfold set_peer in R. destruct (ctx s c) as [x|]; [|discriminate]. destruct (kind x); [injection R; intros <- <-; exact H| |injection R; intros <- <-; exact H]. destruct (dup_key s k) as [s1|] eqn:E; [|discriminate]. injection R; intros <- <-. destruct (pk_dup _ _ _ E). cbn [note]. unfold change. destruct (mine l c); apply SAME; auto.
  - unfold settle in R. destruct (ctx s c) as [x|]; [|discriminate]. destruct (kind x); injection R; intros <- <-; try exact H. cbn [note]. unfold change. destruct (mine l c); apply SAME; auto.
  - unfold dup_ctx in R. destruct (ctx s c) as [x|]; [|discriminate]. destruct (dup_slot s (key x)) as [s1|] eqn:E; [|discriminate]. destruct (pk_dup_slot _ _ _ E) as [E1 E2]. destruct (kind x).
    + destruct (ready x && room); injection R; intros <- <-; apply SAME; auto.
    + destruct (dup_slot s1 (peer x)) as [s2|] eqn:E3; [|discriminate]. destruct (pk_dup_slot _ _ _ E3) as [E4 E5]. injection R; intros <- <-; apply SAME; auto; [intros i; rewrite <- E1; apply E4|cbn [add_ctx keys]; congruence].
    + destruct (ready x); [|discriminate]. destruct room; injection R; intros <- <-; apply SAME; auto.
  - unfold free_ctx in R. destruct (ctx s c) as [x|]; [|discriminate]. destruct (free_slot s (key x)) as [s1|] eqn:E; [|discriminate]. destruct (pk_free_slot _ _ _ E) as [E1 E2].
    destruct (free_slot s1 (peer x)) as [s2|] eqn:E3; [|discriminate]. destruct (pk_free_slot _ _ _ E3) as [E4 E5]. injection R; intros <- <-; apply SAME; auto; [intros i; rewrite <- E1; apply E4|cbn [set_ctx keys]; congruence].
  - assert (s' = s). { revert R. unfold use_ctx, see. destruct (ctx s c) as [x|]; [|discriminate]. destruct (kind x), (key x) as [k|], (peer x) as [p|]; try destruct (objs s k); try destruct (objs s p); congruence. }
    subst. destruct a; exact H.
  - assert (s' = s). { revert R. unfold ask_ctx, see. destruct (ctx s c) as [x|]; [|discriminate]. destruct (kind x), (key x) as [k|]; try destruct (objs s k); congruence. }
    subst. destruct a; exact H.
  - destruct (mem h (keys s)) eqn:G; injection R; intros <- <-; [exact H|]. destruct (own_fresh _ _ _ _ H G) as [OW NO]. destruct H as [A B C D E]. cbn [note]. constructor; cbn [with_own own full keys]; auto.
    + intros k x Q. destruct (A k x Q) as [A1 A2]. split; [now right|]. rewrite upd_other; [exact A2|]. intros ->. exact (NO k Q).
    + intros x. rewrite upd_eq. destruct (Nat.eqb_spec x h) as [->|N]; [now left|]. right. auto.
    + intros Et x [<-|Q]; [left; apply upd_same|]. destruct (D Et x Q) as [Q1|Q1]; [left|right; exact Q1]. rewrite upd_eq. destruct (Nat.eqb x h); auto.
  - injection R; intros <- <-. cbn [may] in M. destruct H as [A B C D E]. cbn [note]. constructor; cbn [with_own own full keys]; auto.
    + intros k x Q. destruct (A k x Q) as [A1 A2]. assert (x <> h) by congruence. split; [now apply in_drop|]. now rewrite upd_other.
    + intros x. rewrite upd_eq. destruct (Nat.eqb_spec x h) as [->|N]; [discriminate|]. intros Q. apply in_drop. auto.
    + intros Et x Q. apply in_drop in Q. destruct Q as [Q N]. destruct (D Et x Q) as [Q1|Q1]; [left|right; exact Q1]. now rewrite upd_other.
  - cbn [note]. apply (destroy_hinv e s l k s' a); auto.
Qed.

(** ** Histories *)
Lemma obeys_weaken : forall (r r' : ledger -> op -> Prop) ops s l, (forall l o, r l o -> r' l o) -> obeys r s l ops -> obeys r' s l ops.
Proof. induction ops as [|o ops IH]; intros s l W H; [exact Logic.I|]. destruct H as [A B]. split; [auto|]. destruct (step s o); auto. Qed.
Definition polite (l : ledger) (o : op) : Prop := may l o /\ careful l o.
Definition frugal (l : ledger) (o : op) : Prop := polite l o /\ fresh l o.
Definition perfect (l : ledger) (o : op) : Prop := frugal l o /\ tidy l o.
Lemma never_crashes : forall ops s l, inv false s l -> obeys polite s l ops -> exists s' l', exec s l ops = Some (s', l') /\ inv false s' l'.
Proof.
  induction ops as [|o ops IH]; intros s l I H; [exists s, l; auto|]. destruct H as [ [M C] H]. destruct (go_step false s l o I M C ltac:(discriminate)) as [s' [a [E I'] ] ].
  cbn [exec]. rewrite E in *. now apply IH.
Qed.
Lemma keys_kept : forall ops s l s' l', inv false s l -> hinv false s l -> obeys frugal s l ops -> exec s l ops = Some (s', l') -> inv false s' l' /\ hinv false s' l'.
Proof.
  induction ops as [|o ops IH]; intros s l s' l' I HI H X; [injection X; intros <- <-; auto|]. destruct H as [ [ [M C] F] H]. destruct (go_step false s l o I M C ltac:(discriminate)) as [s1 [a [E I'] ] ].
  cbn [exec] in X. rewrite E in *. apply (IH s1 (note l o a)); auto. apply (step_hinv false s l o s1 a); auto; discriminate.
Qed.
Lemma nothing_lost : forall ops s l s' l', inv true s l -> hinv true s l -> obeys perfect s l ops -> exec s l ops = Some (s', l') -> inv true s' l' /\ hinv true s' l'.
Proof.
  induction ops as [|o ops IH]; intros s l s' l' I HI H X; [injection X; intros <- <-; auto|]. destruct H as [ [ [ [M C] F] T] H]. destruct (go_step true s l o I M C (fun _ => T)) as [s1 [a [E I'] ] ].
  cbn [exec] in X. rewrite E in *. apply (IH s1 (note l o a)); auto. apply (step_hinv true s l o s1 a); auto.
Qed.
Lemma dead_slots : forall cs k, (forall c x, nth_error cs c = Some x -> dead x = true) -> slots cs k = 0.
Proof. induction cs; intros k H; [reflexivity|]. simpl. rewrite (IHcs k) by (intros c x Q; exact (H (S c) x Q)). unfold holds. rewrite (H 0%nat a eq_refl). lia. Qed.
Lemma safe_all : forall ops, obeys (fun l o => may l o /\ careful l o) start blank ops -> exec start blank ops <> None.
Proof. intros ops H. destruct (never_crashes ops start blank (start_inv false) H) as [s' [l' [E _] ] ]. congruence. Qed.
Lemma kept_all : forall ops s l, obeys (fun l o => (may l o /\ careful l o) /\ fresh l o) start blank ops -> exec start blank ops = Some (s, l) ->
  (forall k, (0 < refs l k)%nat -> whole s k) /\
  (forall c x k, mine l c <> None -> nth_error (ctxs s) c = Some x -> key x = Some k \/ peer x = Some k -> whole s k) /\
  (forall h, own l h = true -> In h (keys s)).
Proof.
  intros ops s l H X. destruct (keys_kept ops _ _ _ _ (start_inv false) (start_hinv false) H X) as [I HI].
  assert (W : forall k, 0 < demand s l k -> whole s k).
  { intros k P. destruct (bal_has _ _ _ k (v_bal _ _ _ I) P) as [o [E _] ]. exists o. split; [exact E|]. intros h W Q. apply (h_live _ _ _ HI k h). unfold pk. now rewrite E, W, Q. }
  split; [|split].
  - intros k P. apply W. now apply refs_demand.
  - intros c x k M N Q. destruct (views_has _ _ c (v_views _ _ _ I) M) as [y [v [_ [N' [D _] ] ] ] ]. rewrite N in N'. injection N'; intros <-. apply W. now apply (slot_demand s l c x).
  - apply (h_own _ _ _ HI).
Qed.
Lemma clean_all : forall ops s l, obeys (fun l o => ((may l o /\ careful l o) /\ fresh l o) /\ tidy l o) start blank ops -> exec start blank ops = Some (s, l) -> returned s l ->
  (forall k, objs s k = None) /\ (forall c x, nth_error (ctxs s) c = Some x -> dead x = true) /\ (forall h, In h (keys s) <-> own l h = true).
Proof.
  intros ops s l H X [R [C P] ]. destruct (nothing_lost ops _ _ _ _ (start_inv true) (start_hinv true) H X) as [I HI].
  assert (DC : forall c x, nth_error (ctxs s) c = Some x -> dead x = true) by (intros c; pose proof (v_views _ _ _ I c) as V; rewrite C in V; exact V).
  assert (N : forall k, objs s k = None).
  { intros k. destruct (objs s k) as [o|] eqn:E; [|reflexivity]. pose proof (b_rc _ _ _ (v_bal _ _ _ I) k o E) as Q. simpl in Q. unfold demand in Q. rewrite (R k), (dead_slots _ _ DC) in Q.
    assert (In k (pend s)) by (apply (b_pend _ _ _ (v_bal _ _ _ I)); exists o; split; [exact E|simpl in Q; lia]). rewrite P in *. destruct H0. }
  split; [exact N|]. split; [exact DC|]. intros h. split; [|apply (h_own _ _ _ HI)]. intros Q. destruct (h_all _ _ _ HI eq_refl h Q) as [A|[k A] ]; [exact A|]. unfold pk in A. rewrite N in A. discriminate.
Qed.
