(** Proofs: one engine, one owner. *)
From Verif Require Import Base M_EngThreads S_EngThreads P_EngThreads.

Lemma run_Inv l : forall w leak, Inv w leak -> exists leak', Inv (run l w) leak'.
Proof.
  induction l as [|(t, ok) l IH]; intros w leak I; cbn [run]; [eauto|].
  destruct (step_Inv w leak t ok I) as (leak' & I'). eauto.
Qed.
Lemma reach todo l : exists leak, Inv (run l (start todo)) leak.
Proof. eapply run_Inv, Inv_start. Qed.

Lemma one_engine todo l : (w_added (run l (start todo)) <= 1)%nat.
Proof. destruct (reach todo l) as (leak & I). rewrite (i_added _ _ I). destruct (w_engine _); lia. Qed.
Lemma same_method todo l s t1 t2 o1 o2 : guarded s ->
  obtained (run l (start todo)) t1 (Get s) o1 -> obtained (run l (start todo)) t2 (Get s) o2 -> o1 = o2.
Proof.
  intros G A B. destruct (reach todo l) as (leak & I). pose proof (i_same _ _ I t1 s o1 G A). pose proof (i_same _ _ I t2 s o2 G B). congruence.
Qed.
Lemma holder w leak t : Inv w leak -> (1 <= leak t)%nat ->
  exists n, w_mutex w = Some (t, n) /\ (depth (place_of w t) < n)%nat /\ forall u, u <> t -> depth (place_of w u) = O.
Proof.
  intros I L. destruct (w_mutex w) as [(u, n)|] eqn:M; [|destruct (i_free _ _ I M t); lia].
  destruct (i_held _ _ I u n M) as (N & _ & O). destruct (Nat.eq_dec u t) as [->|NE]; [|destruct (O t ltac:(auto)); lia].
  exists n. split; [reflexivity|]. split; [lia|]. intros x NX. apply O. exact NX.
Qed.
Lemma engine_for_one_thread todo l t1 t2 e1 e2 :
  obtained (run l (start todo)) t1 GetEngine e1 -> obtained (run l (start todo)) t2 GetEngine e2 -> t1 = t2 /\ e1 = e2.
Proof.
  intros A B. destruct (reach todo l) as (leak & I). destruct (i_got _ _ I t1 e1 A) as (L1 & E1). destruct (i_got _ _ I t2 e2 B) as (L2 & E2).
  destruct (holder _ _ t1 I L1) as (n1 & M1 & _). destruct (holder _ _ t2 I L2) as (n2 & M2 & _). split; congruence.
Qed.

(** The mutex is thread [t]'s for good. *)
Definition kept (w : world) (t : nat) : Prop :=
  exists n, w_mutex w = Some (t, n) /\ (depth (place_of w t) < n)%nat /\ forall u, u <> t -> depth (place_of w u) = O.

Lemma place_upd w m e a s n t x u : place_of (MkWorld (upd (w_threads w) t x) m e a s n) u = if Nat.eqb u t then t_place x else place_of w u.
Proof. unfold place_of, upd. cbn. destruct (Nat.eqb u t); reflexivity. Qed.
Lemma place_upd2 w m e a s n t x y u :
  place_of (MkWorld (upd (upd (w_threads w) t y) t x) m e a s n) u = if Nat.eqb u t then t_place x else place_of w u.
Proof. unfold place_of, upd. cbn. destruct (Nat.eqb u t); reflexivity. Qed.

Lemma kept_upd w m e a s n t x v : (forall k, w_mutex w = Some (v, k) -> (depth (place_of w v) < k)%nat ->
    exists k', m = Some (v, k') /\ (if Nat.eqb v t then depth (t_place x) < k' else depth (place_of w v) < k')%nat) ->
  (t <> v -> depth (t_place x) = O) -> kept w v -> kept (MkWorld (upd (w_threads w) t x) m e a s n) v.
Proof.
  intros M D (k & K1 & K2 & K3). destruct (M k K1 K2) as (k' & E & L). exists k'. cbn [w_mutex]. split; [exact E|]. rewrite place_upd.
  split; [destruct (Nat.eqb v t); exact L|]. intros u N. rewrite place_upd. destruct (Nat.eqb u t) eqn:Q; [|auto].
  apply Nat.eqb_eq in Q. subst u. auto.
Qed.
Lemma kept_step t ok w v : kept w v -> kept (step t ok w) v.
Proof.
  intros K. pose proof K as (k & K1 & K2 & K3). unfold step. change (t_place (w_threads w t)) with (place_of w t).
  destruct (Nat.eqb v t) eqn:VT; [apply Nat.eqb_eq in VT; subst v|].
  - destruct (place_of w t) eqn:P; unfold locking, lock, unlock, reply, go, set_mutex; rewrite ?K1, ?Nat.eqb_refl;
      repeat match goal with |- context [match t_todo ?x with _ => _ end] => destruct (t_todo x)
      | |- context [match ?c with GetEngine => _ | _ => _ end] => destruct c
      | |- context [match ?c with Cipher _ => _ | _ => _ end] => destruct c
      | |- context [match w_engine ?x with _ => _ end] => destruct (w_engine x)
      | |- context [match w_slots ?x ?y with _ => _ end] => destruct (w_slots x y)
      | |- context [match ?x with Some _ => _ | None => _ end] => destruct x
      | |- context [if ?b then _ else _] => is_var b; destruct b end; cbn [w_threads w_mutex w_engine w_added w_slots w_next]; try exact K;
      cbn [depth] in K2; try (destruct k as [|[|k]]; [lia|lia|]; rewrite ?Nat.eqb_refl);
      (eexists; cbn [w_mutex]; split; [rewrite ?K1, ?Nat.eqb_refl; reflexivity|]; split;
       [rewrite ?place_upd, ?place_upd2, Nat.eqb_refl; cbn [t_place depth]; lia
       |intros u N; rewrite ?place_upd, ?place_upd2; apply Nat.eqb_neq in N as N'; rewrite N'; apply K3; exact N]).
  - apply Nat.eqb_neq in VT. assert (D : depth (place_of w t) = O) by (apply K3; auto). assert (VT' : Nat.eqb v t = false) by (apply Nat.eqb_neq; exact VT).
    destruct (place_of w t) eqn:P; try discriminate D; unfold locking, lock, unlock, reply, go, set_mutex; rewrite ?K1, ?VT';
      repeat match goal with |- context [match t_todo ?x with _ => _ end] => destruct (t_todo x)
      | |- context [match ?c with GetEngine => _ | _ => _ end] => destruct c
      | |- context [match ?c with Cipher _ => _ | _ => _ end] => destruct c
      | |- context [match w_slots ?x ?y with _ => _ end] => destruct (w_slots x y) end; cbn [w_threads w_mutex w_engine w_added w_slots w_next]; try exact K;
      (exists k; cbn [w_mutex]; split; [first [exact K1|reflexivity]|]; split;
       [rewrite ?place_upd, ?place_upd2, VT'; exact K2
       |intros u N; rewrite ?place_upd, ?place_upd2; destruct (Nat.eqb u t); [reflexivity|apply K3; exact N]]).
Qed.
Lemma locked_step t ok w v u : kept w v -> u <> v -> (forall x s, place_of w x = Free1 s \/ place_of w x = Free2 s \/ place_of w x = Free3 s -> ~ guarded s) ->
  locked_answers (step t ok w) u = locked_answers w u.
Proof.
  intros K N FR. pose proof K as (k & K1 & K2 & K3). unfold step, locked_answers. change (t_place (w_threads w t)) with (place_of w t).
  destruct (Nat.eq_dec u t) as [->|NT].
  - assert (VT' : Nat.eqb v t = false) by (apply Nat.eqb_neq; auto). pose proof (K3 t N) as D.
    destruct (place_of w t) eqn:P; try discriminate D; unfold locking, lock, unlock, reply, go, set_mutex; rewrite ?K1, ?VT';
      repeat match goal with |- context [match t_todo ?x with _ => _ end] => destruct (t_todo x)
      | |- context [match ?c with GetEngine => _ | _ => _ end] => destruct c
      | |- context [match ?c with Cipher _ => _ | _ => _ end] => destruct c
      | |- context [match w_slots ?x ?y with _ => _ end] => destruct (w_slots x y) end; cbn [w_threads w_mutex w_engine w_added w_slots w_next];
      rewrite ?upd_same; cbn [t_answers filter fst locked]; rewrite ?upd_same; try reflexivity.
    assert (G : ~ guarded s) by (eapply FR; eauto). destruct s; cbn in G; try (exfalso; apply G; exact Logic.I). reflexivity.
  - assert (E : forall x y, upd (w_threads w) t x u = w_threads w u /\ upd (upd (w_threads w) t y) t x u = w_threads w u).
    { intros x y. unfold upd. apply Nat.eqb_neq in NT. rewrite NT. auto. }
    assert (E1 : forall x, upd (w_threads w) t x u = w_threads w u) by (intros x; apply (E x x)).
    assert (E2 : forall x y, upd (upd (w_threads w) t y) t x u = w_threads w u) by (intros x y; apply (E x y)). clear E.
    destruct (place_of w t) eqn:P; unfold locking, lock, reply, go, set_mutex;
      repeat match goal with |- context [match t_todo ?x with _ => _ end] => destruct (t_todo x)
      | |- context [match ?c with GetEngine => _ | _ => _ end] => destruct c
      | |- context [match ?c with Cipher _ => _ | _ => _ end] => destruct c
      | |- context [match w_engine ?x with _ => _ end] => destruct (w_engine x)
      | |- context [match w_mutex ?x with _ => _ end] => destruct (w_mutex x) as [(? & ?)|]
      | |- context [if Nat.eqb ?x ?y then _ else _] => destruct (Nat.eqb x y)
      | |- context [w_slots (match w_mutex ?x with _ => _ end)] => destruct (w_mutex x) as [(? & ?)|]
      | |- context [match w_slots ?x ?y with _ => _ end] => destruct (w_slots x y)
      | |- context [match ?x with Some _ => _ | None => _ end] => is_var x; destruct x
      | |- context [if ?b then _ else _] => is_var b; destruct b end; cbn [w_threads w_mutex w_engine w_added w_slots w_next];
      rewrite ?E2, ?E1; reflexivity.
Qed.
Lemma never_answered todo l l' t e u : let w := run l (start todo) in obtained w t GetEngine e -> u <> t ->
  locked_answers (run l' w) u = locked_answers w u.
Proof.
  intros w O N. destruct (reach todo l) as (leak & I). fold w in I. destruct (i_got _ _ I t e O) as (L & _).
  assert (K : kept w t) by exact (holder w leak t I L). clear O L. clearbody w. revert w leak I K.
  induction l' as [|(x, ok) l' IH]; intros w leak I K; cbn [run]; [reflexivity|].
  destruct (step_Inv w leak x ok I) as (leak' & I'). rewrite (IH _ leak' I' (kept_step x ok w t K)).
  apply (locked_step x ok w t u K N (i_digest _ _ I)).
Qed.

(** Every call is answered, in progress or still to come. *)
Definition current (p : place) : list call :=
  match p with
  | Idle => []
  | Engine1 | Engine2 | Engine3 | Engine4 | Engine5 _ | Engine6 _ => [GetEngine]
  | Table1 s b | Table2 s b | Table3 s b | Table4 s b => [the_call s b]
  | Free1 s | Free2 s | Free3 s => [Get s]
  end.
Definition account (w : world) (t : nat) : list call :=
  rev (map fst (t_answers (w_threads w t))) ++ current (place_of w t) ++ t_todo (w_threads w t).
Definition shaped (p : place) : Prop :=
  match p with Table1 s true | Table2 s true | Table3 s true | Table4 s true => s = Asn1 | _ => True end.
Lemma account_step t ok w u : account (step t ok w) u = account w u.
Proof.
  unfold step, account. change (t_place (w_threads w t)) with (place_of w t).
  destruct (Nat.eq_dec u t) as [->|NT].
  - destruct (place_of w t) eqn:P; unfold locking, lock, reply, go, set_mutex;
      repeat match goal with |- context [match t_todo ?x with _ => _ end] => destruct (t_todo x) eqn:TD
      | |- context [match ?c with GetEngine => _ | _ => _ end] => is_var c; destruct c
      | |- context [match ?c with Cipher _ => _ | _ => _ end] => is_var c; destruct c
      | |- context [match w_engine ?x with _ => _ end] => destruct (w_engine x)
      | |- context [match w_mutex ?x with _ => _ end] => destruct (w_mutex x) as [(? & ?)|]
      | |- context [if Nat.eqb ?x ?y then _ else _] => destruct (Nat.eqb x y)
      | |- context [match w_slots ?x ?y with _ => _ end] => destruct (w_slots x y)
      | |- context [match ?x with Some _ => _ | None => _ end] => is_var x; destruct x
      | |- context [if ?b then reply _ _ _ _ else _] => is_var b; destruct b
      | |- context [if ?b then MkWorld _ _ _ _ _ _ else _] => is_var b; destruct b end;
      cbn [w_threads w_mutex w_engine w_added w_slots w_next];
      rewrite ?place_upd2, ?place_upd, ?Nat.eqb_refl, ?upd_same; cbn [t_place t_answers t_todo current map rev fst app]; rewrite ?upd_same; cbn [t_place t_answers t_todo current map rev fst app];
      rewrite ?P, ?TD, <- ?app_assoc; cbn [current app the_call]; try reflexivity.
  - assert (E : forall x y, upd (w_threads w) t x u = w_threads w u /\ upd (upd (w_threads w) t y) t x u = w_threads w u).
    { intros x y. unfold upd. apply Nat.eqb_neq in NT. rewrite NT. auto. }
    assert (E1 : forall x, upd (w_threads w) t x u = w_threads w u) by (intros x; apply (E x x)).
    assert (E2 : forall x y, upd (upd (w_threads w) t y) t x u = w_threads w u) by (intros x y; apply (E x y)). clear E.
    apply Nat.eqb_neq in NT.
    destruct (place_of w t) eqn:P; unfold locking, lock, reply, go, set_mutex;
      repeat match goal with |- context [match t_todo ?x with _ => _ end] => destruct (t_todo x)
      | |- context [match ?c with GetEngine => _ | _ => _ end] => destruct c
      | |- context [match ?c with Cipher _ => _ | _ => _ end] => destruct c
      | |- context [match w_engine ?x with _ => _ end] => destruct (w_engine x)
      | |- context [match w_mutex ?x with _ => _ end] => destruct (w_mutex x) as [(? & ?)|]
      | |- context [if Nat.eqb ?x ?y then _ else _] => destruct (Nat.eqb x y)
      | |- context [match w_slots ?x ?y with _ => _ end] => destruct (w_slots x y)
      | |- context [match ?x with Some _ => _ | None => _ end] => is_var x; destruct x
      | |- context [if ?b then _ else _] => is_var b; destruct b end; cbn [w_threads w_mutex w_engine w_added w_slots w_next];
      rewrite ?place_upd2, ?place_upd, ?NT, ?E2, ?E1; reflexivity.
Qed.
Lemma account_run l : forall w u, account (run l w) u = account w u.
Proof. induction l as [|(t, ok) l IH]; intros w u; cbn [run]; [reflexivity|]. rewrite IH. apply account_step. Qed.
Lemma completed_all todo l u : completed (run l (start todo)) u -> map fst (t_answers (w_threads (run l (start todo)) u)) = rev (todo u).
Proof.
  intros (P & T). pose proof (account_run l (start todo) u) as A. unfold account in A. change (place_of ?w ?x) with (t_place (w_threads w x)) in A.
  rewrite P, T in A. cbn in A. rewrite app_nil_r in A. rewrite <- A, rev_involutive. reflexivity.
Qed.
Lemma never_returns todo l l' t e u c : let w := run l (start todo) in obtained w t GetEngine e -> u <> t ->
  locked c = true -> In c (todo u) -> ~ answered w u c -> ~ answered (run l' w) u c /\ ~ completed (run l' w) u.
Proof.
  intros w O N L IN NA.
  assert (NA' : ~ answered (run l' w) u c).
  { intros (a & A). apply NA. exists a. assert (F : In (c, a) (locked_answers (run l' w) u)) by (apply filter_In; auto).
    unfold w in F. rewrite (never_answered todo l l' t e u O N) in F. apply filter_In in F. apply F. }
  split; [exact NA'|]. intros C. apply NA'. assert (RR : forall l1 l2 x, run l2 (run l1 x) = run (l1 ++ l2) x).
  { induction l1 as [|(y, ok) l1 IH]; intros l2 x; cbn [run app]; auto. }
  unfold w in C |- *. rewrite RR in C |- *. pose proof (completed_all _ _ _ C) as Q. apply in_rev in IN. rewrite <- Q in IN.
  apply in_map_iff in IN as ((c', a) & E & IN). cbn in E. subst c'. exists a. exact IN.
Qed.
