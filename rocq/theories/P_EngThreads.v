(** Proofs: the engine among threads. *)
From Verif Require Import Base M_EngThreads S_EngThreads.

Lemma upd_same f t x : upd f t x t = x.
Proof. unfold upd. rewrite Nat.eqb_refl. reflexivity. Qed.
Lemma upd_cases f t x u : (u = t /\ upd f t x u = x) \/ (u <> t /\ upd f t x u = f u).
Proof. unfold upd. destruct (Nat.eqb u t) eqn:E; [apply Nat.eqb_eq in E|apply Nat.eqb_neq in E]; auto. Qed.
Lemma slot_eqb_spec a b : slot_eqb a b = true <-> a = b.
Proof.
  destruct a, b; cbn; split; intros H; try discriminate; try (apply Z.eqb_eq in H; congruence); try reflexivity;
    injection H as ->; apply Z.eqb_refl.
Qed.
Lemma fill_same f s o : fill f s o s = o.
Proof. unfold fill. assert (E : slot_eqb s s = true) by (apply slot_eqb_spec; reflexivity). rewrite E. reflexivity. Qed.
Lemma fill_other f s o r : r <> s -> fill f s o r = f r.
Proof. intros N. unfold fill. destruct (slot_eqb r s) eqn:E; [apply slot_eqb_spec in E; contradiction|reflexivity]. Qed.

(** How often a thread holds the mutex by where it is. *)
Definition depth (p : place) : nat :=
  match p with
  | Engine2 | Engine3 | Engine4 | Engine5 _ | Engine6 _ | Table2 _ _ | Table3 _ _ | Table4 _ _ => 1
  | _ => 0
  end.
Definition place_of (w : world) (t : nat) : place := t_place (w_threads w t).
Definition answers_of (w : world) (t : nat) := t_answers (w_threads w t).

Record Inv (w : world) (leak : nat -> nat) : Prop := {
  i_free : w_mutex w = None -> forall t, depth (place_of w t) = O /\ leak t = O;
  i_held : forall t n, w_mutex w = Some (t, n) ->
    n = (depth (place_of w t) + leak t)%nat /\ (1 <= n)%nat /\ forall u, u <> t -> depth (place_of w u) = O /\ leak u = O;
  i_made : forall e, w_engine w = Some e -> exists t, place_of w t = Engine4 \/ (1 <= leak t)%nat;
  i_found : forall t e, place_of w t = Engine5 (Some e) \/ place_of w t = Engine6 (Some e) -> (1 <= leak t)%nat /\ w_engine w = Some e;
  i_none : forall t, place_of w t = Engine3 -> w_engine w = None;
  i_got : forall t e, obtained w t GetEngine e -> (1 <= leak t)%nat /\ w_engine w = Some e;
  i_added : w_added w = match w_engine w with Some _ => 1%nat | None => O end;
  i_four : forall t, place_of w t = Engine4 -> w_engine w <> None;
  i_slot : forall t s b, place_of w t = Table3 s b -> w_slots w s = None;
  i_guard : forall t s b, place_of w t = Table1 s b \/ place_of w t = Table2 s b \/ place_of w t = Table3 s b \/ place_of w t = Table4 s b -> guarded s;
  i_digest : forall t s, place_of w t = Free1 s \/ place_of w t = Free2 s \/ place_of w t = Free3 s -> ~ guarded s;
  i_same : forall t s o, guarded s -> obtained w t (Get s) o -> w_slots w s = Some o
}.

Lemma Inv_start todo : Inv (start todo) (fun _ => O).
Proof.
  split; cbn; auto; try discriminate; try (intros; intuition discriminate); unfold place_of, obtained; cbn; intros;
    try discriminate; try contradiction; try (repeat match goal with H : _ \/ _ |- _ => destruct H end; discriminate).
Qed.

Definition got_engine (a : list (call * answer)) (e : nat) : Prop := In (GetEngine, Got (Some e)) a.
Lemma Inv_move w leak t p' todo' ans' m' e' a' s' n' lt : Inv w leak ->
  (forall u k, w_mutex w = Some (u, k) -> u <> t -> m' = w_mutex w /\ depth p' = O /\ lt = O) ->
  ((w_mutex w = None \/ exists k, w_mutex w = Some (t, k)) -> m' = match (depth p' + lt)%nat with O => None | S k => Some (t, S k) end) ->
  (leak t <= lt)%nat ->
  (e' = w_engine w \/ (w_engine w = None /\ depth (place_of w t) = 1%nat /\ e' <> None /\ p' = Engine4)) ->
  (place_of w t = Engine4 -> (1 <= lt)%nat \/ p' = Engine4) ->
  a' = match e' with Some _ => 1%nat | None => O end ->
  (forall s o, guarded s -> w_slots w s = Some o -> s' s = Some o) ->
  (depth (place_of w t) = 1%nat \/ (forall s, guarded s -> s' s = w_slots w s)) ->
  (forall e, p' = Engine5 (Some e) \/ p' = Engine6 (Some e) -> (1 <= lt)%nat /\ e' = Some e) ->
  (p' = Engine3 -> e' = None) -> (p' = Engine4 -> e' <> None) -> (forall s b, p' = Table3 s b -> s' s = None) ->
  (forall s b, p' = Table1 s b \/ p' = Table2 s b \/ p' = Table3 s b \/ p' = Table4 s b -> guarded s) ->
  (forall s, p' = Free1 s \/ p' = Free2 s \/ p' = Free3 s -> ~ guarded s) ->
  (forall e, got_engine ans' e -> got_engine (answers_of w t) e \/ ((1 <= lt)%nat /\ e' = Some e)) ->
  (forall s o, guarded s -> In (Get s, Got (Some o)) ans' -> In (Get s, Got (Some o)) (answers_of w t) \/ s' s = Some o) ->
  Inv (MkWorld (upd (w_threads w) t (MkThread p' todo' ans')) m' e' a' s' n') (fun u => if Nat.eqb u t then lt else leak u).
Proof.
  intros [i1 i2 i3 i4 i5 i6 i7 i8 i9 i10 i11 i12] M1 M2 LE EN E4 AD SL EX P1 P2 P3 P4 P5 P6 A1 A2.
  set (w' := MkWorld (upd (w_threads w) t (MkThread p' todo' ans')) m' e' a' s' n'). set (leak' := fun u => if Nat.eqb u t then lt else leak u).
  assert (PT : place_of w' t = p') by (unfold place_of, w'; cbn; rewrite upd_same; reflexivity).
  assert (PO : forall u, u <> t -> place_of w' u = place_of w u).
  { intros u N. unfold place_of, w'. cbn. destruct (upd_cases (w_threads w) t (MkThread p' todo' ans') u) as [(Q & _)|(_ & ->)]; [contradiction|reflexivity]. }
  assert (AT : answers_of w' t = ans') by (unfold answers_of, w'; cbn; rewrite upd_same; reflexivity).
  assert (AO : forall u, u <> t -> answers_of w' u = answers_of w u).
  { intros u N. unfold answers_of, w'. cbn. destruct (upd_cases (w_threads w) t (MkThread p' todo' ans') u) as [(Q & _)|(_ & ->)]; [contradiction|reflexivity]. }
  assert (LT : leak' t = lt) by (unfold leak'; rewrite Nat.eqb_refl; reflexivity).
  assert (LO : forall u, u <> t -> leak' u = leak u) by (intros u N; unfold leak'; apply Nat.eqb_neq in N; rewrite N; reflexivity).
  assert (LG : forall u, (leak u <= leak' u)%nat).
  { intros u. destruct (Nat.eq_dec u t) as [->|N]; [rewrite LT; exact LE|rewrite LO by exact N; lia]. }
  (* a thread that holds the mutex is the only one *)
  assert (ONE : depth (place_of w t) = 1%nat -> forall u, u <> t -> depth (place_of w u) = O /\ leak u = O).
  { intros D u N. destruct (w_mutex w) as [(v, k)|] eqn:MU; [|destruct (i1 eq_refl t); lia].
    destruct (i2 v k eq_refl) as (_ & _ & OT). destruct (Nat.eq_dec v t) as [->|NV]; [auto|]. destruct (OT t ltac:(auto)). lia. }
  assert (MC : (exists u k, w_mutex w = Some (u, k) /\ u <> t) \/ (w_mutex w = None \/ exists k, w_mutex w = Some (t, k))).
  { destruct (w_mutex w) as [(v, k)|]; [|auto]. destruct (Nat.eq_dec v t) as [->|NV]; [right; right; eauto|left; eauto]. }
  assert (OTH : forall u, u <> t -> (w_mutex w = None \/ exists k, w_mutex w = Some (t, k)) -> depth (place_of w u) = O /\ leak u = O).
  { intros u N [Q|(k & Q)]; [apply i1; exact Q|]. destruct (i2 t k Q) as (_ & _ & OT). auto. }
  split.
  - (* free *)
    change (w_mutex w') with m'. intros Q. destruct MC as [(v & k & MU & NV)|MC].
    + destruct (M1 v k MU NV) as (Q' & _). congruence.
    + specialize (M2 MC). rewrite Q in M2. destruct (depth p' + lt)%nat eqn:S; [|discriminate].
      intros u. destruct (Nat.eq_dec u t) as [->|N]; [rewrite PT, LT; lia|rewrite PO, LO by exact N; auto].
  - (* held *)
    change (w_mutex w') with m'. intros u k Q. destruct MC as [(v & k' & MU & NV)|MC].
    + destruct (M1 v k' MU NV) as (Q' & D & Z0). rewrite Q' in Q. rewrite MU in Q. injection Q as <- <-.
      destruct (i2 v k' MU) as (I1 & I2 & I3). rewrite PO, LO by exact NV. split; [exact I1|]. split; [exact I2|].
      intros x N. destruct (Nat.eq_dec x t) as [->|N']; [rewrite PT, LT; auto|rewrite PO, LO by exact N'; auto].
    + specialize (M2 MC). rewrite Q in M2. destruct (depth p' + lt)%nat eqn:S; [discriminate|]. injection M2 as -> ->.
      rewrite PT, LT. split; [lia|]. split; [lia|]. intros x N. rewrite PO, LO by exact N. auto.
  - change (w_engine w') with e'. intros e Q. destruct EN as [EN|(_ & _ & _ & EN)]; [|exists t; left; congruence].
    rewrite EN in Q. destruct (i3 e Q) as (u & [U|U]); [|exists u; right; specialize (LG u); lia].
    destruct (Nat.eq_dec u t) as [->|N]; [|exists u; left; rewrite PO by exact N; exact U].
    exists t. rewrite PT, LT. destruct (E4 U); auto.
  - change (w_engine w') with e'. intros u e. destruct (Nat.eq_dec u t) as [->|N]; [rewrite PT, LT; apply P1|].
    rewrite PO, LO by exact N. intros Q. destruct (i4 u e Q) as (I1 & I2). split; [exact I1|].
    destruct EN as [EN|(_ & D & _)]; [congruence|]. destruct (ONE D u N). lia.
  - change (w_engine w') with e'. intros u. destruct (Nat.eq_dec u t) as [->|N]; [rewrite PT; apply P2|].
    rewrite PO by exact N. intros Q. destruct EN as [EN|(_ & D & _)]; [rewrite EN; eauto|]. destruct (ONE D u N) as (Z1 & _). rewrite Q in Z1. discriminate.
  - change (w_engine w') with e'. intros u e. unfold obtained. change (t_answers (w_threads w' u)) with (answers_of w' u).
    assert (OLD : forall x, got_engine (answers_of w x) e -> (1 <= leak' x)%nat /\ e' = Some e).
    { intros x G. destruct (i6 x e G) as (I1 & I2). split; [specialize (LG x); lia|]. destruct EN as [EN|(EN & _)]; congruence. }
    destruct (Nat.eq_dec u t) as [->|N].
    + rewrite AT. intros G. destruct (A1 e G) as [G'|(G1 & G2)]; [apply OLD; exact G'|rewrite LT; auto].
    + rewrite AO by exact N. apply OLD.
  - exact AD.
  - change (w_engine w') with e'. intros u. destruct (Nat.eq_dec u t) as [->|N]; [rewrite PT; apply P3|].
    rewrite PO by exact N. intros Q. destruct EN as [EN|(_ & _ & EN & _)]; [rewrite EN; eauto|exact EN].
  - change (w_slots w') with s'. intros u s b. destruct (Nat.eq_dec u t) as [->|N]; [rewrite PT; apply P4|].
    rewrite PO by exact N. intros Q. destruct EX as [D|EX].
    + destruct (ONE D u N) as (Z1 & _). rewrite Q in Z1. discriminate.
    + rewrite EX by (eapply i10; eauto). eauto.
  - intros u s b. destruct (Nat.eq_dec u t) as [->|N]; [rewrite PT; apply P5|]. rewrite PO by exact N. apply i10.
  - intros u s. destruct (Nat.eq_dec u t) as [->|N]; [rewrite PT; apply P6|]. rewrite PO by exact N. apply i11.
  - change (w_slots w') with s'. intros u s o GD. unfold obtained. change (t_answers (w_threads w' u)) with (answers_of w' u).
    assert (OLD : forall x, In (Get s, Got (Some o)) (answers_of w x) -> s' s = Some o) by (intros x G; apply SL; [exact GD|eapply i12; eauto]).
    destruct (Nat.eq_dec u t) as [->|N].
    + rewrite AT. intros G. destruct (A2 s o GD G) as [G'|G']; [eapply OLD; exact G'|exact G'].
    + rewrite AO by exact N. apply OLD.
Qed.

(** Only the place changes, to one that holds the mutex as much as before. *)
Lemma held_by w leak t : Inv w leak -> depth (place_of w t) = 1%nat -> exists k, w_mutex w = Some (t, S k) /\ k = leak t.
Proof.
  intros [i1 i2 _ _ _ _ _ _ _ _ _ _] D. destruct (w_mutex w) as [(u, n)|] eqn:M; [|destruct (i1 eq_refl t); lia].
  destruct (i2 u n eq_refl) as (N & G & O). destruct (Nat.eq_dec u t) as [->|NE]; [|destruct (O t ltac:(auto)); lia].
  exists (leak t). split; [|reflexivity]. rewrite N, D. reflexivity.
Qed.
Lemma mutex_kept w leak t p' : Inv w leak -> depth p' = depth (place_of w t) ->
  (forall u k, w_mutex w = Some (u, k) -> u <> t -> w_mutex w = w_mutex w /\ depth p' = O /\ leak t = O) /\
  ((w_mutex w = None \/ exists k, w_mutex w = Some (t, k)) -> w_mutex w = match (depth p' + leak t)%nat with O => None | S k => Some (t, S k) end).
Proof.
  intros [i1 i2 _ _ _ _ _ _ _ _ _ _] D. split.
  - intros u k M N. destruct (i2 u k M) as (_ & _ & O). destruct (O t ltac:(auto)). rewrite D. auto.
  - intros [M|(k & M)].
    + destruct (i1 M t) as (Z1 & Z2). rewrite D, Z1, Z2, M. reflexivity.
    + destruct (i2 t k M) as (N & G & _). rewrite D, M, <- N. destruct k; [lia|reflexivity].
Qed.

Definition grow (leak : nat -> nat) t lt : nat -> nat := fun u => if Nat.eqb u t then lt else leak u.

Ltac side := try solve [discriminate | intuition discriminate | intros; discriminate | auto | intros; intuition (try discriminate; try congruence)].

Lemma step_Inv w leak t ok : Inv w leak -> exists leak', Inv (step t ok w) leak'.
Proof.
  intros I. pose proof I as [i1 i2 i3 i4 i5 i6 i7 i8 i9 i10 i11 i12]. unfold step.
  (* a place with the same depth, nothing else *)
  assert (GO : forall p' todo', depth p' = depth (place_of w t) -> (place_of w t <> Engine4) ->
     (forall e, p' = Engine5 (Some e) \/ p' = Engine6 (Some e) -> (1 <= leak t)%nat /\ w_engine w = Some e) ->
     (p' = Engine3 -> w_engine w = None) -> (p' <> Engine4) -> (forall s b, p' = Table3 s b -> w_slots w s = None) ->
     (forall s b, p' = Table1 s b \/ p' = Table2 s b \/ p' = Table3 s b \/ p' = Table4 s b -> guarded s) ->
     (forall s, p' = Free1 s \/ p' = Free2 s \/ p' = Free3 s -> ~ guarded s) ->
     forall ans', (forall e, got_engine ans' e -> got_engine (answers_of w t) e \/ ((1 <= leak t)%nat /\ w_engine w = Some e)) ->
     (forall s o, guarded s -> In (Get s, Got (Some o)) ans' -> In (Get s, Got (Some o)) (answers_of w t) \/ w_slots w s = Some o) ->
     exists leak', Inv (MkWorld (upd (w_threads w) t (MkThread p' todo' ans')) (w_mutex w) (w_engine w) (w_added w) (w_slots w) (w_next w)) leak').
  { intros p' todo' D N4 P1 P2 P3 P4 P5 P6 ans' A1 A2. destruct (mutex_kept w leak t p' I D) as (M1 & M2).
    eexists. eapply (Inv_move w leak t p' todo' ans' _ _ _ _ _ (leak t)); eauto; side. }
  assert (SAME : forall s o, guarded s -> In (Get s, Got (Some o)) (answers_of w t) -> In (Get s, Got (Some o)) (answers_of w t) \/ w_slots w s = Some o) by auto.
  assert (LOCK : forall p', depth p' = 1%nat -> depth (place_of w t) = O -> (match p' with Engine2 => True | Table2 s _ => guarded s | _ => False end) ->
     exists leak', Inv (locking w t p') leak').
  { intros p' D D0 PP. unfold locking, lock. destruct (w_mutex w) as [(u, n)|] eqn:M.
    - destruct (Nat.eqb u t) eqn:E; [|exists leak; exact I]. apply Nat.eqb_eq in E. subst u. eexists. unfold go, set_mutex.
      cbn [w_threads w_mutex w_engine w_added w_slots w_next].
      destruct (i2 t n eq_refl) as (N & _). eapply (Inv_move w leak t p' _ _ _ _ _ _ _ (leak t)); eauto; side;
        try (destruct p'; try contradiction; side; fail).
      + intros _. rewrite D. rewrite D0 in N. cbn in *. congruence.
      + intros Q. rewrite Q in D0. discriminate.
    - eexists. unfold go, set_mutex. cbn [w_threads w_mutex w_engine w_added w_slots w_next]. destruct (i1 eq_refl t) as (_ & L0).
      eapply (Inv_move w leak t p' _ _ _ _ _ _ _ (leak t)); eauto; side; try (destruct p'; try contradiction; side; fail).
      + intros _. rewrite D, L0. reflexivity.
      + intros Q. rewrite Q in D0. discriminate. }
  assert (UNLOCK : forall ans', depth (place_of w t) = 1%nat -> place_of w t <> Engine4 ->
     (forall e, got_engine ans' e -> got_engine (answers_of w t) e \/ ((1 <= leak t)%nat /\ w_engine w = Some e)) ->
     (forall s o, guarded s -> In (Get s, Got (Some o)) ans' -> In (Get s, Got (Some o)) (answers_of w t) \/ w_slots w s = Some o) ->
     exists leak', Inv (MkWorld (upd (w_threads w) t (MkThread Idle (t_todo (w_threads w t)) ans')) (unlock t (w_mutex w)) (w_engine w) (w_added w) (w_slots w) (w_next w)) leak').
  { intros ans' D N4 A1 A2. destruct (held_by w leak t I D) as (k & M & K). eexists. eapply (Inv_move w leak t Idle _ _ _ _ _ _ _ (leak t)); eauto; side.
    - intros _. rewrite M. cbn [unlock depth]. rewrite Nat.eqb_refl, <- K. destruct k; reflexivity. }
  assert (LEAK : forall ans', depth (place_of w t) = 1%nat -> place_of w t <> Engine4 ->
     (forall e, got_engine ans' e -> got_engine (answers_of w t) e) ->
     (forall s o, guarded s -> In (Get s, Got (Some o)) ans' -> In (Get s, Got (Some o)) (answers_of w t)) ->
     exists leak', Inv (MkWorld (upd (w_threads w) t (MkThread Idle (t_todo (w_threads w t)) ans')) (w_mutex w) (w_engine w) (w_added w) (w_slots w) (w_next w)) leak').
  { intros ans' D N4 A1 A2. destruct (held_by w leak t I D) as (k & M & K). eexists. eapply (Inv_move w leak t Idle _ _ _ _ _ _ _ (S (leak t))); eauto; side.
    - intros _. rewrite M, K. reflexivity. }
  change (t_place (w_threads w t)) with (place_of w t).
  destruct (place_of w t) as [| | | | |e|e|s b|s b|s b|s b|s|s|s] eqn:P.
  - (* Idle *)
    destruct (t_todo (w_threads w t)) as [|c rest] eqn:TD; [exists leak; exact I|].
    assert (ST : forall p' ans', upd (upd (w_threads w) t (MkThread Idle rest (t_answers (w_threads w t)))) t (MkThread p' rest ans') = upd (w_threads w) t (MkThread p' rest ans') \/ True) by auto.
    assert (UU : forall x p' ans', upd (upd (w_threads w) t x) t (MkThread p' rest ans') = fun u => if Nat.eqb u t then MkThread p' rest ans' else upd (w_threads w) t x u) by reflexivity.
    clear ST UU.
    assert (GO2 : forall p', depth p' = O -> (match p' with Engine1 | Idle => True | Table1 s _ => guarded s | Free1 s => ~ guarded s | _ => False end) ->
      forall ans', (forall e, got_engine ans' e -> got_engine (answers_of w t) e) -> (forall s o, In (Get s, Got (Some o)) ans' -> In (Get s, Got (Some o)) (answers_of w t)) ->
      exists leak', Inv (MkWorld (upd (upd (w_threads w) t (MkThread Idle rest (t_answers (w_threads w t)))) t (MkThread p' rest ans')) (w_mutex w) (w_engine w) (w_added w) (w_slots w) (w_next w)) leak').
    { intros p' D PP ans' A1 A2. destruct (GO Idle rest eq_refl) with (ans' := t_answers (w_threads w t)) as (l1 & I1); side.
      set (w1 := MkWorld (upd (w_threads w) t (MkThread Idle rest (t_answers (w_threads w t)))) (w_mutex w) (w_engine w) (w_added w) (w_slots w) (w_next w)) in *.
      assert (P1 : place_of w1 t = Idle) by (unfold place_of, w1; cbn; rewrite upd_same; reflexivity).
      assert (AN : answers_of w1 t = answers_of w t) by (unfold answers_of, w1; cbn; rewrite upd_same; reflexivity).
      destruct (mutex_kept w1 l1 t p' I1 ltac:(rewrite P1; exact D)) as (M1 & M2).
      eexists. eapply (Inv_move w1 l1 t p' rest ans' _ _ _ _ _ (l1 t)); eauto; side; try (destruct p'; try contradiction; side; fail).
      all: first [rewrite P1; discriminate | exact (i_added _ _ I1) | intros e G; left; rewrite AN; auto | intros s o _ G; left; rewrite AN; auto]. }
    destruct c as [|s| | | |]; unfold go, reply; cbn [w_threads w_mutex w_engine w_added w_slots w_next t_todo t_answers]; rewrite ?upd_same; cbn [t_todo t_answers].
    + apply (GO2 Engine1); cbn; auto.
    + destruct s; cbn [w_threads w_mutex w_engine w_added w_slots w_next t_todo t_answers]; rewrite ?upd_same; cbn [t_todo t_answers];
        [apply (GO2 (Table1 (Cipher nid) false))|apply (GO2 (Table1 (Pkey nid) false))|apply (GO2 (Table1 Asn1 false))|apply (GO2 (Free1 (Digest nid)))]; cbn; auto.
    + apply (GO2 Idle); cbn; auto; unfold got_engine; cbn; intros; intuition discriminate.
    + apply (GO2 Idle); cbn; auto; unfold got_engine; cbn; intros; intuition discriminate.
    + apply (GO2 Idle); cbn; auto; unfold got_engine; cbn; intros; intuition discriminate.
    + apply (GO2 (Table1 Asn1 true)); cbn; auto.
  - apply LOCK; cbn; auto.
  - (* Engine2 *)
    case_eq (w_engine w); [intros e E|intros E]; unfold go.
    + assert (LK : (1 <= leak t)%nat).
      { destruct (i3 e E) as (u & U). destruct (held_by w leak t I ltac:(rewrite P; reflexivity)) as (k & M & K).
        destruct (i2 t (S k) M) as (_ & _ & O). destruct (Nat.eq_dec u t) as [->|N]; [destruct U; [congruence|assumption]|].
        destruct (O u N) as (O1 & O2). destruct U as [U|U]; [rewrite U in O1; discriminate|lia]. }
      apply (GO (Engine5 (Some e))); side; try solve [intros e' [Q|Q]; [|discriminate]; injection Q as <-; auto].
    + apply (GO Engine3); side.
  - (* Engine3 *)
    destruct ok; unfold go; cbn [w_threads w_mutex w_engine w_added w_slots w_next].
    + destruct (mutex_kept w leak t Engine4 I ltac:(rewrite P; reflexivity)) as (M1 & M2). pose proof (i5 t P) as EN.
      eexists. eapply (Inv_move w leak t Engine4 _ _ _ _ _ _ _ (leak t)); eauto; side.
      all: first [right; rewrite P; repeat split; auto; discriminate | rewrite i7, EN; reflexivity].
    + apply (GO (Engine5 None)); side.
  - (* Engine4 *)
    destruct (held_by w leak t I ltac:(rewrite P; reflexivity)) as (k & M & K). unfold lock. rewrite M, Nat.eqb_refl. unfold set_mutex. cbn [w_slots].
    assert (F : forall s' n', (forall s o, guarded s -> w_slots w s = Some o -> s' s = Some o) ->
      exists leak', Inv (MkWorld (upd (w_threads w) t (MkThread (Engine5 (if ok then w_engine w else None)) (t_todo (w_threads w t)) (t_answers (w_threads w t)))) (Some (t, S (S k))) (w_engine w) (w_added w) s' n') leak').
    { intros s' n' MO. eexists. eapply (Inv_move w leak t _ _ _ _ _ _ _ _ (S (leak t))); eauto; side.
      all: first [intros _; cbn [depth]; rewrite K; reflexivity | intros _; left; lia | left; rewrite P; reflexivity
        | intros e [Q|Q]; [|discriminate]; injection Q as Q; split; [lia|]; destruct ok; [exact Q|discriminate]
        | intros u x Q X; rewrite M in Q; injection Q as <- _; contradiction]. }
    destruct (w_slots w Asn1) as [x|] eqn:SA; unfold go; cbn [w_threads w_mutex w_engine w_added w_slots w_next].
    + apply F. auto.
    + apply F. intros s o _ Q. rewrite fill_other; [exact Q|]. intros ->. congruence.
  - (* Engine5 *)
    assert (NG : forall e', got_engine ((GetEngine, Got None) :: t_answers (w_threads w t)) e' -> got_engine (answers_of w t) e').
    { intros e' [Q|Q]; [discriminate|exact Q]. }
    assert (NS : forall s o, guarded s -> In (Get s, Got (Some o)) ((GetEngine, Got None) :: t_answers (w_threads w t)) -> In (Get s, Got (Some o)) (answers_of w t)).
    { intros s o _ [Q|Q]; [discriminate|exact Q]. }
    destruct e as [e|]; [destruct ok|]; unfold go, reply.
    + apply (GO (Engine6 (Some e))); side; try solve [intros e' [Q|Q]; [discriminate|]; injection Q as <-; apply (i4 t e); auto].
    + apply LEAK; side.
    + apply LEAK; side.
  - (* Engine6 *)
    unfold reply, set_mutex. cbn [w_threads w_mutex w_engine w_added w_slots w_next]. apply UNLOCK; side.
      all: first [intros e' [Q|Q]; [|left; exact Q]; injection Q as ->; right; apply (i4 t e'); auto | intros s o _ [Q|Q]; [discriminate|left; exact Q]].
  - apply LOCK; cbn; auto. apply (i10 t s b). auto.
  - assert (GD : guarded s) by (apply (i10 t s b); auto).
    case_eq (w_slots w s); [intros x SX|intros SX]; unfold go; [apply (GO (Table4 s b))|apply (GO (Table3 s b))]; side;
      try (intros s1 b1 Q; intuition (try discriminate); congruence).
  - (* Table3 *)
    assert (GD : guarded s) by (apply (i10 t s b); auto). destruct ok; unfold go; cbn [w_threads w_mutex w_engine w_added w_slots w_next].
    + destruct (mutex_kept w leak t (Table4 s b) I ltac:(rewrite P; reflexivity)) as (M1 & M2).
      eexists. eapply (Inv_move w leak t (Table4 s b) _ _ _ _ _ _ _ (leak t)); eauto; side.
      all: first [intros r o _ Q; rewrite fill_other; [exact Q|]; intros ->; rewrite (i9 t s b P) in Q; discriminate | left; rewrite P; reflexivity | intros s1 b1 Q; intuition (try discriminate); congruence].
    + apply (GO (Table4 s b)); side; try solve [intros s1 b1 Q; intuition (try discriminate); congruence].
  - (* Table4 *)
    destruct b; unfold reply, set_mutex, the_call; cbn [w_threads w_mutex w_engine w_added w_slots w_next].
    + apply LEAK; side.
      all: first [intros e [Q|Q]; [discriminate|exact Q] | intros s1 o _ [Q|Q]; [discriminate|exact Q]].
    + apply UNLOCK; side.
      all: first [intros e [Q|Q]; [discriminate|left; exact Q] | intros s1 o _ [Q|Q]; [|left; exact Q]; injection Q as <- Q; right; exact Q].
  - assert (GD : ~ guarded s) by (apply (i11 t s); auto).
    case_eq (w_slots w s); [intros x SX|intros SX]; unfold go; [apply (GO (Free3 s))|apply (GO (Free2 s))]; side;
      try (intros s1 Q; intuition (try discriminate); congruence).
  - assert (GD : ~ guarded s) by (apply (i11 t s); auto). unfold go; cbn [w_threads w_mutex w_engine w_added w_slots w_next].
    destruct (mutex_kept w leak t (Free3 s) I ltac:(rewrite P; reflexivity)) as (M1 & M2).
    eexists. eapply (Inv_move w leak t (Free3 s) _ _ _ _ _ _ _ (leak t)); eauto; side.
      all: first [intros r o GR Q; rewrite fill_other; [exact Q|]; intros ->; contradiction | right; intros r GR; apply fill_other; intros ->; contradiction | intros s1 Q; intuition (try discriminate); congruence].
  - assert (GD : ~ guarded s) by (apply (i11 t s); auto). unfold reply. apply (GO Idle); side.
      all: first [intros e [Q|Q]; [discriminate|left; exact Q] | intros s1 o GS [Q|Q]; [|left; exact Q]; injection Q as <- Q; contradiction].
Qed.
