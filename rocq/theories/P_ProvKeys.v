(** Proofs for C67: an invariant that counts the references to every key object. *)
From Coq Require Import List ZArith Bool Arith Lia.
From Verif Require Import M_ProvKeys S_ProvKeys.
Import ListNotations.
Open Scope Z_scope.

Definition is_some {A} (x : option A) : bool := match x with Some _ => true | None => false end.
Definition hit (k : nat) (x : option nat) : Z := match x with Some i => if Nat.eqb i k then 1 else 0 | None => 0 end.
Definition holds (k : nat) (x : cobj) : Z := if dead x then 0 else hit k (key x) + hit k (peer x).
Fixpoint slots (l : list cobj) (k : nat) : Z := match l with [] => 0 | x :: r => holds k x + slots r k end.
Lemma hit_pos : forall k x, 0 <= hit k x.
Proof. intros k [i|]; simpl; [destruct (Nat.eqb i k)|]; lia. Qed.
Lemma holds_pos : forall k x, 0 <= holds k x.
Proof. intros; unfold holds. pose proof (hit_pos k (key x)). pose proof (hit_pos k (peer x)). destruct (dead x); lia. Qed.
Lemma slots_pos : forall l k, 0 <= slots l k.
Proof. induction l; intros; simpl; [lia|]. pose proof (holds_pos k a). specialize (IHl k). lia. Qed.
Lemma slots_app : forall l x k, slots (l ++ [x]) k = slots l k + holds k x.
Proof. induction l; intros; simpl; [lia|]. rewrite IHl. lia. Qed.
Lemma slots_put : forall l c x y k, nth_error l c = Some x -> slots (put l c y) k = slots l k - holds k x + holds k y.
Proof. induction l; intros [|c] x y k H; simpl in *; try discriminate. - injection H; intros; subst. lia. - rewrite (IHl c x y k H). lia. Qed.
Lemma slots_in : forall l c x k, nth_error l c = Some x -> holds k x <= slots l k.
Proof. induction l; intros [|c] x k H; simpl in *; try discriminate. - injection H; intros; subst. pose proof (slots_pos l k). lia.
  - specialize (IHl c x k H). pose proof (holds_pos k a). lia. Qed.
Lemma nth_put : forall (l : list cobj) c x y i, nth_error l c = Some x -> nth_error (put l c y) i = if Nat.eqb i c then Some y else nth_error l i.
Proof. induction l; intros [|c] x y [|i] H; simpl in *; try discriminate; try reflexivity. apply (IHl c x y i H). Qed.
Lemma nth_snoc : forall (l : list cobj) y i, nth_error (l ++ [y]) i = if Nat.eqb i (length l) then Some y else nth_error l i.
Proof. induction l; intros y [|i]; simpl; try reflexivity. - destruct i; reflexivity. - apply IHl. Qed.
Lemma upd_same : forall A (f : nat -> A) i v, upd f i v i = v.
Proof. intros; unfold upd. now rewrite Nat.eqb_refl. Qed.
Lemma upd_other : forall A (f : nat -> A) i v j, j <> i -> upd f i v j = f j.
Proof. intros; unfold upd. apply Nat.eqb_neq in H. now rewrite H. Qed.
Lemma upd_eq : forall A (f : nat -> A) i v j, upd f i v j = if Nat.eqb j i then v else f j.
Proof. reflexivity. Qed.
Lemma in_drop : forall h x l, In x (drop h l) <-> In x l /\ x <> h.
Proof. intros; unfold drop. rewrite filter_In, negb_true_iff, Nat.eqb_neq. tauto. Qed.
Lemma mem_in : forall h l, mem h l = true <-> In h l.
Proof. intros; unfold mem. rewrite existsb_exists. split; [intros [x [A B] ]; apply Nat.eqb_eq in B; now subst|]. intros H; exists h. now rewrite Nat.eqb_refl. Qed.
Lemma mem_out : forall h l, mem h l = false -> ~ In h l.
Proof. intros h l H A. apply mem_in in A. congruence. Qed.

(** ** The counts, against a demand [d] *)
Definition rel (e : bool) (a b : Z) : Prop := if e then a = b else a <= b.
Record bal (e : bool) (s : st) (d : nat -> Z) : Prop := Bal {
  b_rc : forall k o, objs s k = Some o -> rel e (d k) (rc o);
  b_pend : forall k, In k (pend s) <-> exists o, objs s k = Some o /\ rc o = 0;
  b_none : forall k, objs s k = None -> d k = 0;
  b_next : forall k, (nobj s <= k)%nat -> objs s k = None }.
Lemma rel_le : forall e a b, rel e a b -> a <= b.
Proof. intros [|] a b; simpl; lia. Qed.
Lemma rel_add : forall e a b n, rel e a b -> rel e (a + n) (b + n).
Proof. intros [|] a b n; simpl; lia. Qed.
Lemma bal_has : forall e s d k, bal e s d -> 0 < d k -> exists o, objs s k = Some o /\ 0 < rc o.
Proof. intros e s d k B P. destruct (objs s k) as [o|] eqn:E. - exists o. split; [reflexivity|]. pose proof (rel_le _ _ _ (b_rc _ _ _ B k o E)). lia.
  - rewrite (b_none _ _ _ B k E) in P. lia. Qed.
Lemma bal_ext : forall e s d d', bal e s d -> (forall k, d' k = d k) -> bal e s d'.
Proof. intros e s d d' [A B C D] E. constructor; auto. - intros k o H. rewrite E. auto. - intros. rewrite E. auto. Qed.
(** Losing references is harmless. *)
Lemma bal_less : forall s d d', bal false s d -> (forall k, 0 <= d' k <= d k) -> bal false s d'.
Proof. intros s d d' [A B C D] E. constructor; auto. - intros k o H. specialize (A k o H). specialize (E k). simpl in *. lia. - intros k H. specialize (C k H). specialize (E k). lia. Qed.
Lemma bal_parts : forall e s s' d, objs s' = objs s -> nobj s' = nobj s -> pend s' = pend s -> bal e s d -> bal e s' d.
Proof. intros e s s' d A B C [P Q R S]. constructor; rewrite ?A, ?B, ?C; auto. Qed.
Lemma bal_dup : forall e s d k, bal e s d -> 0 < d k -> exists s', dup_key s k = Some s' /\ ctxs s' = ctxs s /\ keys s' = keys s /\ pend s' = pend s /\ nobj s' = nobj s /\
  (exists o, objs s k = Some o /\ objs s' = upd (objs s) k (Some (Kobj (rc o + 1) (priv o) (owned o)))) /\ bal e s' (fun i => d i + hit i (Some k)).
Proof.
  intros e s d k B P. destruct (bal_has _ _ _ _ B P) as [o [E R] ]. unfold dup_key. rewrite E. eexists. split; [reflexivity|]. cbn [set_obj ctxs keys pend nobj objs].
  repeat (split; [reflexivity|]). split; [exists o; auto|]. constructor; cbn [set_obj ctxs keys pend nobj objs].
  - intros i x. unfold hit. rewrite upd_eq. destruct (Nat.eqb_spec i k) as [->|N].
    + intros H; injection H; intros <-. rewrite Nat.eqb_refl. apply rel_add. apply (b_rc _ _ _ B _ _ E).
    + intros H. replace (Nat.eqb k i) with false by (symmetry; apply Nat.eqb_neq; auto). rewrite Z.add_0_r. apply (b_rc _ _ _ B _ _ H).
  - intros i. rewrite (b_pend _ _ _ B i). rewrite upd_eq. destruct (Nat.eqb_spec i k) as [->|N]; [|tauto].
    split; [intros [x [X Y] ]; rewrite E in X; injection X; intros; subst; lia|]. intros [x [X Y] ]. injection X; intros; subst. simpl in Y. lia.
  - intros i. rewrite upd_eq. destruct (Nat.eqb_spec i k) as [->|N]; [discriminate|]. intros H. unfold hit. replace (Nat.eqb k i) with false by (symmetry; apply Nat.eqb_neq; auto).
    rewrite (b_none _ _ _ B _ H). lia.
  - intros i H. rewrite upd_eq. destruct (Nat.eqb_spec i k) as [->|N]; [|apply (b_next _ _ _ B _ H)]. rewrite (b_next _ _ _ B _ H) in E. discriminate.
Qed.
Lemma bal_free : forall e s d k, bal e s d -> 0 < d k -> exists s', free_key s k = Some s' /\ ctxs s' = ctxs s /\ keys s' = keys s /\ nobj s' = nobj s /\
  (exists o, objs s k = Some o /\ objs s' = upd (objs s) k (Some (Kobj (rc o - 1) (priv o) (owned o)))) /\ bal e s' (fun i => d i - hit i (Some k)).
Proof.
  intros e s d k B P. destruct (bal_has _ _ _ _ B P) as [o [E R] ]. unfold free_key. rewrite E. eexists. split; [reflexivity|].
  split; [destruct (rc o - 1 =? 0); reflexivity|]. split; [destruct (rc o - 1 =? 0); reflexivity|]. split; [destruct (rc o - 1 =? 0); reflexivity|].
  split; [exists o; split; [reflexivity|]; destruct (rc o - 1 =? 0); reflexivity|].
  assert (O : forall i, objs (if rc o - 1 =? 0 then St (objs (set_obj s k (Some (Kobj (rc o - 1) (priv o) (owned o))))) (nobj s) (ctxs s) (keys s) (k :: pend s) else set_obj s k (Some (Kobj (rc o - 1) (priv o) (owned o)))) i
    = upd (objs s) k (Some (Kobj (rc o - 1) (priv o) (owned o))) i) by (intros; destruct (rc o - 1 =? 0); reflexivity).
  cbn [set_obj ctxs keys pend nobj objs] in *.
  constructor.
  - intros i x. rewrite O. unfold hit. rewrite upd_eq. destruct (Nat.eqb_spec i k) as [->|N].
    + intros H; injection H; intros <-. rewrite Nat.eqb_refl. apply (rel_add _ _ _ (-1)). apply (b_rc _ _ _ B _ _ E).
    + intros H. replace (Nat.eqb k i) with false by (symmetry; apply Nat.eqb_neq; auto). rewrite Z.sub_0_r. apply (b_rc _ _ _ B _ _ H).
  - intros i. rewrite O. rewrite upd_eq. destruct (Z.eqb_spec (rc o - 1) 0) as [F|F]; cbn [set_obj ctxs keys pend nobj objs]; [cbn [In]|]; rewrite (b_pend _ _ _ B i); destruct (Nat.eqb_spec i k) as [->|N].
    + split; [intros _; eexists; split; [reflexivity|exact F]|auto].
    + split; [intros [C|C]; [congruence|exact C]|auto].
    + split; [intros [x [X Y] ]; rewrite E in X; injection X; intros; subst; lia|]. intros [x [X Y] ]. injection X; intros; subst. simpl in Y. lia.
    + tauto.
  - intros i. rewrite O. rewrite upd_eq. destruct (Nat.eqb_spec i k) as [->|N]; [discriminate|]. intros H. unfold hit. replace (Nat.eqb k i) with false by (symmetry; apply Nat.eqb_neq; auto).
    rewrite (b_none _ _ _ B _ H). lia.
  - intros i H. rewrite O. rewrite upd_eq. destruct (Nat.eqb_spec i k) as [->|N].
    + rewrite (b_next _ _ _ B k) in E; [discriminate|]. destruct (rc o - 1 =? 0); exact H.
    + apply (b_next _ _ _ B). destruct (rc o - 1 =? 0); exact H.
Qed.
Lemma bal_new : forall e s d p w, bal e s d -> bal e (add_obj s (Kobj 1 p w)) (fun i => d i + hit i (Some (nobj s))).
Proof.
  intros e s d p w B. pose proof (b_next _ _ _ B (nobj s) (le_n _)) as F. pose proof (b_none _ _ _ B _ F) as Z0.
  constructor; cbn [add_obj objs nobj pend].
  - intros i x. unfold hit. rewrite upd_eq. destruct (Nat.eqb_spec i (nobj s)) as [->|N].
    + intros H; injection H; intros <-. rewrite Nat.eqb_refl, Z0. destruct e; simpl; lia.
    + intros H. replace (Nat.eqb (nobj s) i) with false by (symmetry; apply Nat.eqb_neq; auto). rewrite Z.add_0_r. apply (b_rc _ _ _ B _ _ H).
  - intros i. rewrite (b_pend _ _ _ B i). rewrite upd_eq. destruct (Nat.eqb_spec i (nobj s)) as [->|N]; [|tauto].
    split; [intros [x [X Y] ]; congruence|]. intros [x [X Y] ]. injection X; intros; subst. simpl in Y. lia.
  - intros i. rewrite upd_eq. destruct (Nat.eqb_spec i (nobj s)) as [->|N]; [discriminate|]. intros H. unfold hit. replace (Nat.eqb (nobj s) i) with false by (symmetry; apply Nat.eqb_neq; auto).
    rewrite (b_none _ _ _ B _ H). lia.
  - intros i H. rewrite upd_eq. destruct (Nat.eqb_spec i (nobj s)) as [->|N]; [lia|]. apply (b_next _ _ _ B). lia.
Qed.
Lemma bal_destroy : forall e s d k, bal e s d -> (forall i, 0 <= d i) -> exists s' a, destroy s k = Ran s' a /\ ctxs s' = ctxs s /\ bal e s' d /\
  (s' = s \/ exists o, objs s k = Some o /\ In k (pend s) /\ objs s' = upd (objs s) k None /\ keys s' = if owned o then drop_opt (priv o) (keys s) else keys s).
Proof.
  intros e s d k B P. unfold destroy. destruct (mem k (pend s)) eqn:M; [|exists s, ANothing; auto 6]. apply mem_in in M. pose proof M as M0. apply (b_pend _ _ _ B) in M. destruct M as [o [E R] ].
  rewrite E. eexists _, _. split; [reflexivity|]. cbn [ctxs objs keys]. split; [reflexivity|]. split; [|right; exists o; auto].
  assert (D0 : d k = 0) by (pose proof (rel_le _ _ _ (b_rc _ _ _ B k o E)); specialize (P k); lia).
  constructor; cbn [objs nobj pend].
  - intros i x. rewrite upd_eq. destruct (Nat.eqb_spec i k) as [->|N]; [discriminate|]. apply (b_rc _ _ _ B).
  - intros i. rewrite in_drop, (b_pend _ _ _ B i), upd_eq. destruct (Nat.eqb_spec i k) as [->|N]; [|tauto]. split; [tauto|]. intros [x [X _] ]. discriminate.
  - intros i. rewrite upd_eq. destruct (Nat.eqb_spec i k) as [->|N]; [auto|]. apply (b_none _ _ _ B).
  - intros i H. rewrite upd_eq. destruct (Nat.eqb_spec i k); [reflexivity|]. apply (b_next _ _ _ B _ H).
Qed.
Lemma bal_set : forall e s d k o p w ks, bal e s d -> objs s k = Some o -> bal e (St (upd (objs s) k (Some (Kobj (rc o) p w))) (nobj s) (ctxs s) ks (pend s)) d.
Proof.
  intros e s d k o p w ks B E. constructor; cbn [objs nobj pend].
  - intros i x. rewrite upd_eq. destruct (Nat.eqb_spec i k) as [->|N]; [|apply (b_rc _ _ _ B)]. intros H; injection H; intros <-. apply (b_rc _ _ _ B _ _ E).
  - intros i. rewrite (b_pend _ _ _ B i), upd_eq. destruct (Nat.eqb_spec i k) as [->|N]; [|tauto]. split; intros [x [X Y] ].
    + rewrite E in X. injection X; intros; subst. eexists; split; [reflexivity|exact Y].
    + injection X; intros; subst. exists o. auto.
  - intros i. rewrite upd_eq. destruct (Nat.eqb_spec i k) as [->|N]; [discriminate|]. apply (b_none _ _ _ B).
  - intros i H. rewrite upd_eq. destruct (Nat.eqb_spec i k) as [->|N]; [|apply (b_next _ _ _ B _ H)]. rewrite (b_next _ _ _ B _ H) in E. discriminate.
Qed.

(** ** Contexts, against what the program knows of them *)
Definition like (x : cobj) (v : view) : Prop :=
  dead x = false /\ kind x = vkind v /\ is_some (key x) = vkey v /\ is_some (peer x) = vpeer v /\ ready x = vready v /\
  (kind x <> Exchange -> peer x = None) /\ (kind x = Exchange -> ready x = false).
Definition views (cs : list cobj) (m : nat -> option view) : Prop :=
  forall c, match m c with Some v => exists x, nth_error cs c = Some x /\ like x v | None => forall x, nth_error cs c = Some x -> dead x = true end.
Definition fits (y : cobj) (v : option view) : Prop := match v with Some v => like y v | None => dead y = true end.
Lemma views_put : forall cs m c x y v, views cs m -> nth_error cs c = Some x -> fits y v -> views (put cs c y) (upd m c v).
Proof. intros cs m c x y v V E F i. rewrite (nth_put _ _ _ _ _ E), upd_eq. destruct (Nat.eqb_spec i c) as [->|N]; [|apply V].
  destruct v; [exists y; auto|]. intros z Z0; injection Z0; intros <-; exact F. Qed.
Lemma views_snoc : forall cs m y v, views cs m -> fits y v -> views (cs ++ [y]) (upd m (length cs) v).
Proof. intros cs m y v V F i. rewrite nth_snoc, upd_eq. destruct (Nat.eqb_spec i (length cs)) as [->|N]; [|apply V].
  destruct v; [exists y; auto|]. intros z Z0; injection Z0; intros <-; exact F. Qed.
Lemma views_has : forall cs m c, views cs m -> m c <> None -> exists x v, m c = Some v /\ nth_error cs c = Some x /\ like x v.
Proof. intros cs m c V H. specialize (V c). destruct (m c) as [v|]; [|congruence]. destruct V as [x [A B] ]. exists x, v; auto. Qed.
Definition demand (s : st) (l : ledger) (k : nat) : Z := Z.of_nat (refs l k) + slots (ctxs s) k.
Record inv (e : bool) (s : st) (l : ledger) : Prop := Inv { v_bal : bal e s (demand s l); v_views : views (ctxs s) (mine l) }.
Lemma demand_pos : forall s l k, 0 <= demand s l k.
Proof. intros; unfold demand. pose proof (slots_pos (ctxs s) k). lia. Qed.
Lemma start_inv : forall e, inv e start blank.
Proof. intros e. constructor; [constructor; simpl|].
  - discriminate. - intros k; split; [tauto|]. intros [o [A _] ]; discriminate. - reflexivity. - reflexivity.
  - intros [|c] x H; simpl in H; discriminate. Qed.
Lemma ctx_of : forall s c x, nth_error (ctxs s) c = Some x -> dead x = false -> ctx s c = Some x.
Proof. intros; unfold ctx. now rewrite H, H0. Qed.
Lemma refs_demand : forall s l k, (0 < refs l k)%nat -> 0 < demand s l k.
Proof. intros; unfold demand. pose proof (slots_pos (ctxs s) k). lia. Qed.
Lemma slot_demand : forall s l c x k, nth_error (ctxs s) c = Some x -> dead x = false -> key x = Some k \/ peer x = Some k -> 0 < demand s l k.
Proof. intros s l c x k N D H. unfold demand. pose proof (slots_in _ _ _ k N) as S. unfold holds in S. rewrite D in S. pose proof (hit_pos k (key x)). pose proof (hit_pos k (peer x)).
  destruct H as [H|H]; rewrite H in *; simpl in *; rewrite Nat.eqb_refl in *; lia. Qed.
Lemma hit_sym : forall i k, hit i (Some k) = if Nat.eqb k i then 1 else 0.
Proof. reflexivity. Qed.
Lemma refs_up : forall (f : nat -> nat) k i, Z.of_nat (upd f k (S (f k)) i) = Z.of_nat (f i) + hit i (Some k).
Proof. intros. rewrite upd_eq, hit_sym, Nat.eqb_sym. destruct (Nat.eqb_spec k i) as [->|N]; lia. Qed.
Lemma refs_down : forall (f : nat -> nat) k i, (0 < f k)%nat -> Z.of_nat (upd f k (pred (f k)) i) = Z.of_nat (f i) - hit i (Some k).
Proof. intros. rewrite upd_eq, hit_sym, Nat.eqb_sym. destruct (Nat.eqb_spec k i) as [->|N]; lia. Qed.

(** A context gets the key [k] into a slot. *)
Lemma slot_set : forall e s l c x k y v, inv e s l -> (0 < refs l k)%nat -> nth_error (ctxs s) c = Some x -> like y v ->
  (forall i, 0 <= holds i y <= holds i x + hit i (Some k)) -> (e = true -> forall i, holds i y = holds i x + hit i (Some k)) ->
  exists s', dup_key s k = Some s' /\ inv e (set_ctx s' c y) (with_ctx l c (Some v)).
Proof.
  intros e s l c x k y v [B V] P N L LE EX. destruct (bal_dup _ _ _ k B (refs_demand s l k P)) as [s' [D [C [K [Pd [No [Ob B'] ] ] ] ] ] ].
  exists s'. split; [exact D|]. constructor.
  - apply (bal_parts e s'); [reflexivity..|]. assert (Q : forall i, demand (set_ctx s' c y) (with_ctx l c (Some v)) i = demand s l i - holds i x + holds i y).
    { intros i. unfold demand. cbn [set_ctx ctxs with_ctx refs]. rewrite C, (slots_put _ _ _ _ _ N). lia. }
    destruct e.
    + apply (bal_ext _ _ _ _ B'). intros i. rewrite Q, (EX eq_refl i). lia.
    + apply (bal_less _ _ _ B'). intros i. rewrite Q. specialize (LE i). pose proof (slots_in _ _ _ i N). unfold demand in *. lia.
  - cbn [set_ctx ctxs with_ctx mine]. rewrite C. apply (views_put _ _ _ _ _ _ V N). exact L.
Qed.
Lemma holds_live : forall i x, dead x = false -> holds i x = hit i (key x) + hit i (peer x).
Proof. intros i x H. unfold holds. now rewrite H. Qed.
Lemma change_to : forall l c v f, mine l c = Some v -> change l c f = with_ctx l c (Some (f v)).
Proof. intros; unfold change. now rewrite H. Qed.
Lemma is_none : forall (x : option nat), is_some x = false -> x = None.
Proof. destruct x; simpl; congruence. Qed.
Lemma is_there : forall (x : option nat), is_some x = true -> exists k, x = Some k.
Proof. destruct x; simpl; [eauto|congruence]. Qed.

Definition goes (e : bool) (s : st) (l : ledger) (o : op) : Prop := exists s' a, step s o = Ran s' a /\ inv e s' (note l o a).
Lemma inv_keys : forall e s l ks, inv e s l -> inv e (St (objs s) (nobj s) (ctxs s) ks (pend s)) l.
Proof. intros e s l ks [B V]. constructor; [|exact V]. now apply (bal_parts e s). Qed.
Lemma inv_own : forall e s l h b, inv e s l -> inv e s (with_own l h b).
Proof. intros e s l h b [B V]. now constructor. Qed.
Lemma inv_full : forall e s l k, inv e s l -> inv e s (with_full l k).
Proof. intros e s l h [B V]. now constructor. Qed.
Lemma inv_set : forall e s l k o p w ks, inv e s l -> objs s k = Some o -> inv e (St (upd (objs s) k (Some (Kobj (rc o) p w))) (nobj s) (ctxs s) ks (pend s)) l.
Proof. intros e s l k o p w ks [B V] E. constructor; [|exact V]. apply (bal_set _ _ _ _ _ p w ks B E). Qed.
Lemma inv_new : forall e s l p w, inv e s l -> inv e (add_obj s (Kobj 1 p w)) (with_refs l (nobj s) 1).
Proof. intros e s l p w [B V]. constructor; [|exact V]. apply (bal_ext _ _ _ _ (bal_new _ _ _ p w B)). intros i. unfold demand. cbn [add_obj ctxs with_refs refs].
  pose proof (b_none _ _ _ B _ (b_next _ _ _ B (nobj s) (le_n _))) as Z0. unfold demand in Z0. pose proof (slots_pos (ctxs s) (nobj s)).
  rewrite upd_eq, hit_sym, Nat.eqb_sym. destruct (Nat.eqb_spec (nobj s) i) as [<-|N]; lia. Qed.

Lemma go_new : forall e s l, inv e s l -> goes e s l ONew.
Proof. intros e s l I. eexists _, _. split; [reflexivity|]. simpl. now apply inv_new. Qed.
Lemma go_gen : forall e s l h g, inv e s l -> goes e s l (OGen h g).
Proof. intros e s l h g I. unfold goes. cbn [step]. unfold generate_key. destruct h as [h|]; [|exists s, ANull; auto]. destruct (mem h (keys s)); [exists s, ANothing; auto|].
  destruct g; [|exists s, ANull; auto]. eexists _, _. split; [reflexivity|]. cbn [note]. apply inv_full. apply (inv_keys e (add_obj s (Kobj 1 (Some h) true))). now apply inv_new. Qed.
Lemma has_obj : forall e s l k, inv e s l -> (0 < refs l k)%nat -> exists o, objs s k = Some o.
Proof. intros e s l k I P. destruct (bal_has _ _ _ k (v_bal _ _ _ I) (refs_demand _ _ _ P)) as [o [A _] ]. eauto. Qed.
Lemma go_dup : forall e s l k, inv e s l -> (0 < refs l k)%nat -> goes e s l (ODup k).
Proof. intros e s l k [B V] P. unfold goes. cbn [step]. destruct (bal_dup _ _ _ k B (refs_demand s l k P)) as [s' [D [C [K [Pd [No [Ob B'] ] ] ] ] ] ]. rewrite D.
  eexists _, _. split; [reflexivity|]. cbn [note]. constructor; [|rewrite C; exact V]. apply (bal_ext _ _ _ _ B'). intros i. unfold demand. cbn [with_refs refs]. rewrite C, refs_up. lia. Qed.
Lemma go_free : forall e s l k, inv e s l -> (0 < refs l k)%nat -> goes e s l (OFree k).
Proof. intros e s l k [B V] P. unfold goes. cbn [step]. destruct (bal_free _ _ _ k B (refs_demand s l k P)) as [s' [D [C [K [No [Ob B'] ] ] ] ] ]. rewrite D.
  eexists _, _. split; [reflexivity|]. cbn [note]. constructor; [|rewrite C; exact V]. apply (bal_ext _ _ _ _ B'). intros i. unfold demand. cbn [with_refs refs]. rewrite C, (refs_down _ _ _ P). lia. Qed.
Lemma go_look : forall e s l k, inv e s l -> (0 < refs l k)%nat -> goes e s l (OLook k).
Proof. intros e s l k I P. destruct (has_obj _ _ _ _ I P) as [o E]. unfold goes. cbn [step]. rewrite E. eexists _, _. split; [reflexivity|]. exact I. Qed.
Lemma go_match : forall e s l k1 k2, inv e s l -> (0 < refs l k1)%nat -> (0 < refs l k2)%nat -> goes e s l (OMatch k1 k2).
Proof. intros e s l k1 k2 I P Q. destruct (has_obj _ _ _ _ I P) as [o E]. destruct (has_obj _ _ _ _ I Q) as [o' E']. unfold goes. cbn [step]. unfold match_keys. rewrite E, E'. eexists _, _. split; [reflexivity|]. exact I. Qed.
Lemma go_import : forall e s l k src, inv e s l -> (0 < refs l k)%nat -> goes e s l (OImport k src).
Proof.
  intros e s l k src I P. destruct (has_obj _ _ _ _ I P) as [o E]. unfold goes. cbn [step]. unfold import_key, accept, refuse. rewrite E.
  destruct src as [h g d|h g d|g].
  - destruct (g && mem h (keys s)); eexists _, _; (split; [reflexivity|]); cbn [note]; [|destruct d as [ [|]|]; now apply inv_set].
    destruct d as [ [|]|]; try apply inv_own; try apply inv_full; now apply inv_set.
  - destruct (mem h (keys s)); [exists s, ANothing; auto|]. destruct g; eexists _, _; (split; [reflexivity|]); cbn [note]; try apply inv_full; now apply inv_set.
  - destruct g; eexists _, _; (split; [reflexivity|]); cbn [note]; now apply inv_set.
Qed.
Lemma go_ctx : forall e s l kd, inv e s l -> goes e s l (OCtx kd).
Proof. intros e s l kd [B V]. eexists _, _. split; [reflexivity|]. cbn [note]. constructor.
  - apply (bal_parts e s); [reflexivity..|]. apply (bal_ext _ _ _ _ B). intros i. unfold demand. cbn [add_ctx ctxs with_ctx refs]. rewrite slots_app. unfold holds. simpl. lia.
  - cbn [add_ctx ctxs with_ctx mine]. apply views_snoc; [exact V|]. simpl. unfold like; simpl. repeat split; auto. Qed.
Lemma go_init : forall e s l c k p, inv e s l -> mine l c <> None -> (0 < refs l k)%nat -> (e = true -> tidy l (OInit c k p)) -> goes e s l (OInit c k p).
Proof.
  intros e s l c k p I M P T. destruct (views_has _ _ c (v_views _ _ _ I) M) as [x [v [Mv [N L] ] ] ]. pose proof L as [D [Kd [Ky [Pe [Re [NE EX] ] ] ] ] ].
  unfold goes. cbn [step]. unfold init_ctx. rewrite (ctx_of _ _ _ N D).
  destruct (slot_set e s l c x k (Cobj (kind x) (Some k) (peer x) (ready x) false) (View (vkind v) true (vpeer v) (vready v)) I P N) as [s' [E J] ].
  - unfold like; simpl. repeat split; auto.
  - intros i. rewrite !holds_live by (assumption || reflexivity). cbn [key peer]. pose proof (hit_pos i (key x)). pose proof (hit_pos i (peer x)). pose proof (hit_pos i (Some k)). lia.
  - intros Et i. specialize (T Et v Mv). rewrite !holds_live by (assumption || reflexivity). cbn [key peer]. rewrite (is_none (key x)) by congruence. simpl (hit i None). lia.
  - rewrite E. eexists _, _. split; [reflexivity|]. cbn [note]. rewrite (change_to _ _ _ _ Mv). exact J.
Qed.
Lemma go_digest : forall e s l c k g pl, inv e s l -> mine l c <> None -> (0 < refs l k)%nat -> (e = true -> tidy l (ODigest c k g pl)) -> goes e s l (ODigest c k g pl).
Proof.
  intros e s l c k g pl I M P T. destruct (views_has _ _ c (v_views _ _ _ I) M) as [x [v [Mv [N L] ] ] ]. pose proof L as [D [Kd [Ky [Pe [Re [NE EX] ] ] ] ] ].
  unfold goes. cbn [step]. unfold digest_init. rewrite (ctx_of _ _ _ N D). destruct (kind x) eqn:KX; [|exists s, ANothing; auto..].
  destruct (slot_set e s l c x k (if g then Cobj Signing (Some k) (peer x) (negb pl) false else Cobj Signing None (peer x) false false) (View (vkind v) g (vpeer v) (g && negb pl)) I P N) as [s' [E J] ].
  - rewrite NE by congruence. rewrite NE in Pe by congruence. destruct g; unfold like; simpl; repeat split; auto; try congruence.
  - intros i. pose proof (hit_pos i (key x)). pose proof (hit_pos i (peer x)). pose proof (hit_pos i (Some k)). rewrite (holds_live i x) by assumption. destruct g; rewrite holds_live by reflexivity; cbn [key peer]; simpl (hit i None); lia.
  - intros Et i. destruct (T Et) as [-> T2]. specialize (T2 v Mv). rewrite !holds_live by (assumption || reflexivity). cbn [key peer]. rewrite (is_none (key x)) by congruence. simpl (hit i None). lia.
  - rewrite E. eexists _, _. split; [reflexivity|]. cbn [note]. rewrite (change_to _ _ _ _ Mv). exact J.
Qed.
Lemma go_peer : forall e s l c k, inv e s l -> mine l c <> None -> (0 < refs l k)%nat -> (e = true -> tidy l (OPeer c k)) -> goes e s l (OPeer c k).
Proof.
  intros e s l c k I M P T. destruct (views_has _ _ c (v_views _ _ _ I) M) as [x [v [Mv [N L] ] ] ]. pose proof L as [D [Kd [Ky [Pe [Re [NE EX] ] ] ] ] ].
  unfold goes. cbn [step]. unfold set_peer. rewrite (ctx_of _ _ _ N D). destruct (kind x) eqn:KX; [exists s, ANothing; auto| |exists s, ANothing; auto].
  destruct (slot_set e s l c x k (Cobj Exchange (key x) (Some k) (ready x) false) (View (vkind v) (vkey v) true (vready v)) I P N) as [s' [E J] ].
  - unfold like; simpl. repeat split; auto. intros C; congruence.
  - intros i. rewrite !holds_live by (assumption || reflexivity). cbn [key peer]. pose proof (hit_pos i (key x)). pose proof (hit_pos i (peer x)). pose proof (hit_pos i (Some k)). lia.
  - intros Et i. specialize (T Et v Mv). rewrite !holds_live by (assumption || reflexivity). cbn [key peer]. rewrite (is_none (peer x)) by congruence. simpl (hit i None). lia.
  - rewrite E. eexists _, _. split; [reflexivity|]. cbn [note]. rewrite (change_to _ _ _ _ Mv). exact J.
Qed.
Lemma go_settle : forall e s l c b, inv e s l -> mine l c <> None -> goes e s l (OSettle c b).
Proof.
  intros e s l c b I M. destruct (views_has _ _ c (v_views _ _ _ I) M) as [x [v [Mv [N L] ] ] ]. pose proof L as [D [Kd [Ky [Pe [Re [NE EX] ] ] ] ] ].
  unfold goes. cbn [step]. unfold settle. rewrite (ctx_of _ _ _ N D). destruct (kind x) eqn:KX; [exists s, ANothing; auto..|].
  eexists _, _. split; [reflexivity|]. cbn [note]. rewrite (change_to _ _ _ _ Mv). destruct I as [B V]. constructor.
  - apply (bal_parts e s); [reflexivity..|]. apply (bal_ext _ _ _ _ B). intros i. unfold demand. cbn [set_ctx ctxs with_ctx refs]. rewrite (slots_put _ _ _ _ _ N).
    rewrite !holds_live by (assumption || reflexivity). cbn [key peer]. lia.
  - cbn [set_ctx ctxs with_ctx mine]. apply (views_put _ _ _ _ _ _ V N). simpl. unfold like; simpl. repeat split; auto; congruence.
Qed.
Lemma copied : forall e s s1 l x y v, bal e s1 (fun i => demand s l i + holds i y) -> views (ctxs s) (mine l) -> ctxs s1 = ctxs s -> like y v -> x = Some v ->
  inv e (add_ctx s1 y) (with_ctx l (length (ctxs s)) x).
Proof.
  intros e s s1 l x y v B V C L ->. constructor.
  - apply (bal_parts e s1); [reflexivity..|]. apply (bal_ext _ _ _ _ B). intros i. unfold demand. cbn [add_ctx ctxs with_ctx refs]. rewrite C, slots_app. lia.
  - cbn [add_ctx ctxs with_ctx mine]. rewrite C. apply views_snoc; [exact V|exact L].
Qed.
Lemma go_dupctx : forall e s l c r, inv e s l -> mine l c <> None -> careful l (ODupCtx c r) -> (e = true -> tidy l (ODupCtx c r)) -> goes e s l (ODupCtx c r).
Proof.
  intros e s l c r I M CF T. destruct (views_has _ _ c (v_views _ _ _ I) M) as [x [v [Mv [N L] ] ] ]. pose proof L as [D [Kd [Ky [Pe [Re [NE EX] ] ] ] ] ].
  destruct (CF v Mv) as [CK CR]. destruct (is_there (key x)) as [k E]; [congruence|].
  unfold goes. cbn [step]. unfold dup_ctx. rewrite (ctx_of _ _ _ N D), E. cbn [dup_slot].
  destruct I as [B V]. destruct (bal_dup _ _ _ k B (slot_demand s l c x k N D (or_introl E))) as [s1 [D1 [C [K [Pd [No [Ob B'] ] ] ] ] ] ]. rewrite D1.
  assert (BL : forall y, dead y = false -> key y = Some k -> peer y = None -> bal e s1 (fun i => demand s l i + holds i y)).
  { intros y Y1 Y2 Y3. apply (bal_ext _ _ _ _ B'). intros i. rewrite (holds_live i y Y1), Y2, Y3. simpl (hit i None). lia. }
  destruct (kind x) eqn:KX; rewrite <- Kd in CR.
  - destruct CR as [CR ->]. rewrite Re, CR. cbn [andb]. eexists _, _. split; [reflexivity|]. cbn [note].
    apply (copied e s s1 l (mine l c) _ v); auto. unfold like; simpl. rewrite NE in Pe by congruence. rewrite E in Ky. repeat split; auto; congruence.
  - destruct (is_there (peer x)) as [p E2]; [congruence|]. rewrite E2. cbn [dup_slot].
    assert (DP : 0 < demand s l p + hit p (Some k)) by (pose proof (slot_demand s l c x p N D (or_intror E2)); pose proof (hit_pos p (Some k)); lia).
    destruct (bal_dup _ _ _ p B' DP) as [s2 [D2 [C2 [K2 [Pd2 [No2 [Ob2 B2] ] ] ] ] ] ]. rewrite D2. eexists _, _. split; [reflexivity|]. cbn [note].
    apply (copied e s s2 l (mine l c) _ v); auto.
    + apply (bal_ext _ _ _ _ B2). intros i. rewrite holds_live by reflexivity. cbn [key peer]. lia.
    + congruence.
    + unfold like; simpl. rewrite E in Ky. rewrite E2 in Pe. specialize (EX eq_refl). repeat split; auto; try congruence; try tauto.
  - rewrite Re, CR. destruct r.
    + eexists _, _. split; [reflexivity|]. cbn [note].
      apply (copied e s s1 l (mine l c) _ v); auto. unfold like; simpl. rewrite NE in Pe by congruence. rewrite E in Ky. repeat split; auto; congruence.
    + eexists _, _. split; [reflexivity|]. cbn [note]. destruct e; [specialize (T eq_refl); simpl in T; discriminate|]. constructor; [|now rewrite C].
      apply (bal_less _ _ _ B'). intros i. split; [apply demand_pos|]. unfold demand. rewrite C. pose proof (hit_pos i (Some k)). lia.
Qed.
Lemma free_slot_bal : forall e s d k, bal e s d -> (forall i, k = Some i -> 0 < d i) -> exists s', free_slot s k = Some s' /\ ctxs s' = ctxs s /\ bal e s' (fun i => d i - hit i k).
Proof. intros e s d [k|] B P; simpl.
  - destruct (bal_free _ _ _ k B (P k eq_refl)) as [s' [D [C [K [No [Ob B'] ] ] ] ] ]. exists s'. auto.
  - exists s. split; [reflexivity|]. split; [reflexivity|]. apply (bal_ext _ _ _ _ B). intros; lia. Qed.
Lemma go_freectx : forall e s l c, inv e s l -> mine l c <> None -> goes e s l (OFreeCtx c).
Proof.
  intros e s l c I M. destruct (views_has _ _ c (v_views _ _ _ I) M) as [x [v [Mv [N L] ] ] ]. pose proof L as [D [Kd [Ky [Pe [Re [NE EX] ] ] ] ] ].
  unfold goes. cbn [step]. unfold free_ctx. rewrite (ctx_of _ _ _ N D). destruct I as [B V].
  assert (ND : forall i, hit i (key x) + hit i (peer x) <= demand s l i) by (intros i; pose proof (slots_in _ _ _ i N) as Q; rewrite (holds_live i x D) in Q; unfold demand; lia).
  destruct (free_slot_bal _ _ _ (key x) B) as [s1 [D1 [C1 B1] ] ].
  { intros i Q. specialize (ND i). rewrite Q in ND. simpl in ND. rewrite Nat.eqb_refl in ND. pose proof (hit_pos i (peer x)). lia. }
  rewrite D1. destruct (free_slot_bal _ _ _ (peer x) B1) as [s2 [D2 [C2 B2] ] ].
  { intros i Q. specialize (ND i). rewrite Q in ND. simpl in ND. rewrite Nat.eqb_refl in ND. lia. }
  rewrite D2. eexists _, _. split; [reflexivity|]. cbn [note]. constructor.
  - apply (bal_parts e s2); [reflexivity..|]. apply (bal_ext _ _ _ _ B2). intros i. unfold demand. cbn [set_ctx ctxs with_ctx refs]. rewrite C2, C1, (slots_put _ _ _ _ _ N), (holds_live i x D).
    unfold holds. simpl. lia.
  - cbn [set_ctx ctxs with_ctx mine]. rewrite C2, C1. apply (views_put _ _ _ _ _ _ V N). reflexivity.
Qed.
Lemma see_there : forall e s l c x k nul, inv e s l -> nth_error (ctxs s) c = Some x -> dead x = false -> key x = Some k \/ peer x = Some k -> see s (Some k) nul = Ran s AOk.
Proof. intros e s l c x k nul I N D H. destruct (bal_has _ _ _ k (v_bal _ _ _ I) (slot_demand s l c x k N D H)) as [o [A _] ]. simpl. now rewrite A. Qed.
Lemma go_use : forall e s l c, inv e s l -> mine l c <> None -> careful l (OUse c) -> goes e s l (OUse c).
Proof.
  intros e s l c I M CF. destruct (views_has _ _ c (v_views _ _ _ I) M) as [x [v [Mv [N L] ] ] ]. pose proof L as [D [Kd [Ky [Pe [Re [NE EX] ] ] ] ] ].
  specialize (CF v Mv). unfold goes. cbn [step]. unfold use_ctx. rewrite (ctx_of _ _ _ N D). rewrite <- Kd in CF. destruct (kind x).
  - destruct (key x) as [k|] eqn:E; [|exists s, AFail; auto]. rewrite (see_there e s l c x k _ I N D (or_introl E)). exists s, AOk; auto.
  - destruct CF as [CK CP]. destruct (is_there (key x)) as [k E]; [congruence|]. destruct (is_there (peer x)) as [p E2]; [congruence|]. rewrite E, E2.
    rewrite (see_there e s l c x k _ I N D (or_introl E)), (see_there e s l c x p _ I N D (or_intror E2)). exists s, AOk; auto.
  - destruct (is_there (key x)) as [k E]; [congruence|]. rewrite E, (see_there e s l c x k _ I N D (or_introl E)). exists s, AOk; auto.
Qed.
Lemma go_ask : forall e s l c, inv e s l -> mine l c <> None -> careful l (OAsk c) -> goes e s l (OAsk c).
Proof.
  intros e s l c I M CF. destruct (views_has _ _ c (v_views _ _ _ I) M) as [x [v [Mv [N L] ] ] ]. pose proof L as [D [Kd [Ky [Pe [Re [NE EX] ] ] ] ] ].
  specialize (CF v Mv). unfold goes. cbn [step]. unfold ask_ctx. rewrite (ctx_of _ _ _ N D). rewrite <- Kd in CF. destruct (kind x); [|exists s, ANothing; auto..].
  specialize (CF eq_refl). destruct (is_there (key x)) as [k E]; [congruence|]. rewrite E, (see_there e s l c x k _ I N D (or_introl E)). exists s, AOk; auto.
Qed.
Lemma go_step : forall e s l o, inv e s l -> may l o -> careful l o -> (e = true -> tidy l o) -> goes e s l o.
Proof.
  intros e s l o I M C T. destruct o; cbn [may] in M.
  - now apply go_new. - now apply go_gen. - now apply go_dup. - now apply go_free. - now apply go_look. - destruct M; now apply go_match.
  - apply go_import; [exact I|]. destruct src; tauto.
  - now apply go_ctx. - destruct M; now apply go_init. - destruct M; now apply go_digest. - destruct M; now apply go_peer. - now apply go_settle.
  - now apply go_dupctx. - now apply go_freectx. - now apply go_use. - now apply go_ask.
  - unfold goes. cbn [step]. destruct (mem h (keys s)); [exists s, ANothing; auto|]. eexists _, _. split; [reflexivity|]. cbn [note]. apply inv_own. now apply inv_keys.
  - eexists _, _. split; [reflexivity|]. cbn [note]. apply inv_own. now apply inv_keys.
  - unfold goes. cbn [step]. destruct I as [B V]. destruct (bal_destroy _ _ _ k B (demand_pos s l)) as [s' [a [E [Cx [B' _] ] ] ] ]. rewrite E. exists s', a. split; [reflexivity|].
    cbn [note]. constructor; [|rewrite Cx; exact V]. apply (bal_ext _ _ _ _ B'). intros i. unfold demand. now rewrite Cx.
Qed.
