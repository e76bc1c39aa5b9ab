(** More proofs about sessions: threads come through, and what exit() leaves. *)
From Verif Require Import Base M_Session S_Session P_Session.

(** The thread that holds the lock can always move on, and only it has it. *)
Lemma holder_moves : forall l, no_exit l ->
  forall t k, holds_lock (fst (run l start)) t ->
  w_pcs (fst (thread_step t k (fst (run l start)))) t <> w_pcs (fst (run l start)) t.
Proof.
  intros l N t k L. pose proof (calm_run l start calm_start N) as C. revert L C. generalize (fst (run l start)) as w. intros w L C.
  apply (c_held w C) in L. unfold thread_step. destruct (w_pcs w t) eqn:P; try discriminate L.
  - destruct (w_session w); cbn; rewrite Nat.eqb_refl; discriminate.
  - unfold open_session. destruct k; cbn.
    + destruct (w_store (make_store w)); cbn; rewrite Nat.eqb_refl; discriminate.
    + rewrite Nat.eqb_refl; discriminate.
    + rewrite Nat.eqb_refl; discriminate.
  - cbn; rewrite Nat.eqb_refl; discriminate.
  - cbn; rewrite Nat.eqb_refl; discriminate.
  - cbn; rewrite Nat.eqb_refl; discriminate.
Qed.

(** A call that runs alone is served. *)
Lemma alone_step : forall t k w p, w_pcs w t = p -> thread_step t k w =
  match p with
  | Idle => (w, [])
  | S1 => match w_session w with Some i => (set_pc w t (U1 i), [Got t i]) | None => (set_pc w t S2, []) end
  | S2 => match w_mutex w with None => (set_pc (set_mutex w (Some t)) t S3, []) | Some _ => (w, []) end
  | S3 => match w_session w with Some _ => (set_pc w t S7, []) | None => (set_pc w t S4, []) end
  | S4 => open_session t k w
  | S5 i => (set_pc (set_session w (Some i)) t S6, [])
  | S6 => (set_pc (if w_once w then w else set_once (set_handlers w (CloseSession :: w_handlers w))) t S7, [])
  | S7 => (set_pc (set_mutex w None) t S8, [])
  | S8 => match w_session w with Some i => (set_pc w t (U1 i), [Got t i]) | None => (set_pc w t Idle, [Refused t]) end
  | U1 i => if w_ctxs w i then (set_pc w t (U2 i), []) else (set_pc (bad w) t Idle, [])
  | U2 i =>
      match w_store w with
      | Destroyed => (set_pc (bad w) t Idle, [])
      | Live => if w_clients w i then (set_pc (set_users w ((t, i) :: w_users w)) t (U3 i), []) else (set_pc w t Idle, [Refused t])
      | _ => (set_pc w t Idle, [Refused t])
      end
  | U3 i => (set_pc (set_users w (filter (fun u => negb (Nat.eqb (fst u) t)) (w_users w))) t Idle, [Served t])
  end.
Proof. intros t k w p <-. reflexivity. Qed.

Lemma use_served : forall t w i n, calm w -> w_pcs w t = U1 i -> In (Served t) (snd (run (repeat (Step t Succeeds) (3 + n)) w)).
Proof.
  intros t w i n H P.
  assert (X : w_session w = Some i) by (apply (c_use w H t); rewrite P; apply Nat.eqb_refl).
  destruct (c_sess w H _ X) as (Y & Z & L).
  cbn [repeat Nat.add]. rewrite run_cons. cbn [snd]. apply in_or_app. right. cbn [act].
  rewrite (alone_step t _ w _ P), Y. cbn [fst].
  rewrite run_cons. cbn [snd]. apply in_or_app. right. cbn [act].
  rewrite (alone_step t _ (set_pc w t (U2 i)) (U2 i)) by (cbn; rewrite Nat.eqb_refl; reflexivity). cbn [w_store w_clients set_pc]. rewrite L, Z. cbn [fst].
  rewrite run_cons. cbn [snd]. apply in_or_app. left. cbn [act].
  erewrite (alone_step t _ _ (U3 i)) by (cbn; rewrite Nat.eqb_refl; reflexivity). cbn. auto.
Qed.
Lemma call_served : forall l t, no_exit l -> w_pcs (fst (run l start)) t = Idle -> w_mutex (fst (run l start)) = None ->
  In (Served t) (snd (run (Begin t :: repeat (Step t Succeeds) 11) (fst (run l start)))).
Proof.
  intros l t N P M. pose proof (calm_run l start calm_start N) as C. revert P M C. generalize (fst (run l start)) as w. intros w P M C.
  assert (G : forall a l w, a <> Exit -> calm w -> (calm (fst (act a w)) -> In (Served t) (snd (run l (fst (act a w))))) -> In (Served t) (snd (run (a :: l) w))).
  { intros a l0 v A B D. rewrite run_cons. cbn [snd]. apply in_or_app. right. apply D. apply calm_act; auto. }
  assert (St : Step t Succeeds <> Exit) by discriminate.
  apply G; [discriminate|auto|]. cbn [act]. rewrite P. cbn [fst]. intros C1.
  destruct (w_session w) as [i|] eqn:S.
  - cbn [repeat]. apply G; auto. cbn [act]. rewrite (alone_step t _ _ S1) by (cbn; rewrite Nat.eqb_refl; reflexivity).
    cbn [w_session set_pc]. rewrite S. cbn [fst]. intros C2. apply (use_served t _ i 7); [auto|cbn; rewrite Nat.eqb_refl; reflexivity].
  - cbn [repeat]. apply G; auto. cbn [act]. rewrite (alone_step t _ _ S1) by (cbn; rewrite Nat.eqb_refl; reflexivity).
    cbn [w_session set_pc]. rewrite S. cbn [fst]. intros C2.
    apply G; auto. cbn [act]. rewrite (alone_step t _ _ S2) by (cbn; rewrite Nat.eqb_refl; reflexivity).
    cbn [w_mutex set_pc]. rewrite M. cbn [fst]. intros C3.
    apply G; auto. cbn [act]. rewrite (alone_step t _ _ S3) by (cbn; rewrite Nat.eqb_refl; reflexivity).
    cbn [w_session set_pc set_mutex]. rewrite S. cbn [fst]. intros C4.
    apply G; auto. cbn [act]. rewrite (alone_step t _ _ S4) by (cbn; rewrite Nat.eqb_refl; reflexivity).
    unfold open_session. match type of C4 with calm ?v => destruct (calm_make_store v C4) as (A & B & D & E) end.
    rewrite B. cbn [fst]. intros C5.
    match goal with |- In _ (snd (run _ (set_pc _ _ (S5 ?n)))) => set (i := n) in * end.
    apply G; auto. cbn [act]. rewrite (alone_step t _ _ (S5 i)) by (cbn; rewrite Nat.eqb_refl; reflexivity). cbn [fst]. intros C6.
    apply G; auto. cbn [act]. rewrite (alone_step t _ _ S6) by (cbn; rewrite Nat.eqb_refl; reflexivity). cbn [fst]. intros C7.
    match type of C7 with calm (set_pc ?v _ _) => set (v7 := v) in * end.
    assert (S7' : w_session v7 = Some i) by (unfold v7; match goal with |- w_session (if ?b then _ else _) = _ => destruct b end; reflexivity).
    apply G; auto. cbn [act]. rewrite (alone_step t _ _ S7) by (cbn; rewrite Nat.eqb_refl; reflexivity). cbn [fst]. intros C8.
    apply G; auto. cbn [act]. rewrite (alone_step t _ _ S8) by (cbn; rewrite Nat.eqb_refl; reflexivity).
    cbn [w_session set_pc set_mutex]. rewrite S7'. cbn [fst]. intros C9.
    apply (use_served t _ i 0); [auto|cbn; rewrite Nat.eqb_refl; reflexivity].
Qed.

(** With exit() at any moment: calls at work are not disturbed. *)
Record firm (w : world) : Prop := {
  f_users : forall t i, In (t, i) (w_users w) <-> w_pcs w t = U3 i;
  f_work : forall t i, w_pcs w t = U3 i -> w_clients w i = true /\ (w_store w = Live \/ w_store w = Closing);
  f_phase : match w_exit w with XStore1 => w_store w = Live | XStore2 => w_store w = Closing | XStore3 => w_store w = Destroyed
            | _ => w_store w = Absent \/ w_store w = Live \/ w_store w = Shut end;
  f_nodup : NoDup (w_handlers w);
  f_hstore : In CloseStore (w_handlers w) -> w_store w = Live /\ w_exit w <> XStore1;
  f_hsess : In CloseSession (w_handlers w) -> w_once w = true
}.
Lemma firm_start : firm start.
Proof.
  constructor; cbn; auto; try tauto; try (intros; discriminate).
  - intros; split; [tauto|discriminate].
  - constructor.
Qed.
Lemma firm_move : forall w t p, firm w -> (forall i, p <> U3 i) -> (forall i, w_pcs w t <> U3 i) -> firm (set_pc w t p).
Proof.
  intros w t p H A B. destruct H. constructor; cbn -[Nat.eqb]; auto.
  - intros s i. rewrite f_users0. pcs s t; [split; intros X; exfalso; [eapply B|eapply A]; eauto|reflexivity].
  - intros s i; pcs s t; intros X; [exfalso; eapply A; eauto|eauto].
Qed.
Lemma firm_same : forall w v, firm w -> w_users v = w_users w -> w_pcs v = w_pcs w -> w_clients v = w_clients w -> w_store v = w_store w ->
  w_exit v = w_exit w -> w_handlers v = w_handlers w -> w_once v = w_once w -> firm v.
Proof. intros w v H A B C D E F G. destruct H. constructor; rewrite ?A, ?B, ?C, ?D, ?E, ?F, ?G; auto. Qed.
Lemma firm_make_store : forall w, firm w -> firm (make_store w) /\ w_pcs (make_store w) = w_pcs w /\
  w_store (make_store w) <> Absent.
Proof.
  intros w H. unfold make_store. destruct (w_store w) eqn:E; cbn; try (split; [exact H|split; [reflexivity|rewrite E; discriminate]]).
  split; [|split; [reflexivity|discriminate]]. destruct H. constructor; cbn; auto.
  - intros t i X. apply f_work0 in X. intuition.
  - rewrite E in f_phase0. destruct (w_exit w); auto; try discriminate f_phase0.
  - constructor; [|auto]. intros X. apply f_hstore0 in X. destruct X; congruence.
  - intros _. split; [reflexivity|]. intros X. rewrite X in f_phase0. congruence.
  - intros [X|X]; [discriminate|auto].
Qed.
Lemma firm_open : forall w, firm w -> firm (open w).
Proof.
  intros w H. destruct H. constructor; cbn; auto.
  intros t i X. unfold flip. destruct (Nat.eqb i (w_next w)); [|eauto]. split; [reflexivity|]. eapply f_work0; eauto.
Qed.

Lemma firm_step : forall t k w, firm w -> firm (fst (thread_step t k w)).
Proof.
  intros t k w H. unfold thread_step. destruct (w_pcs w t) eqn:P.
  - exact H.
  - destruct (w_session w); cbn [fst]; apply firm_move; side P.
  - destruct (w_mutex w); cbn [fst]; [exact H|]. apply firm_move; side P. apply (firm_same w); auto. cbn. side P.
  - destruct (w_session w); cbn [fst]; apply firm_move; side P.
  - destruct (firm_make_store w H) as (A & B & C). unfold open_session. destruct k; cbn [fst].
    + destruct (w_store (make_store w)) eqn:E; cbn [fst].
      * apply firm_move; [auto|discriminate|rewrite B, P; discriminate].
      * apply firm_move; [apply firm_open; auto|discriminate|]. cbn. rewrite B, P. discriminate.
      * apply firm_move; [auto|discriminate|rewrite B, P; discriminate].
      * apply firm_move; [apply (firm_same (make_store w)); auto|discriminate|]. cbn. rewrite B, P. discriminate.
      * apply firm_move; [auto|discriminate|rewrite B, P; discriminate].
    + apply firm_move; side P.
    + assert (G : firm (set_pc (make_store w) t S7)) by (apply firm_move; rewrite ?B; side P).
      destruct (w_store w) eqn:E; try exact G. apply firm_move; [apply (firm_same w); auto|discriminate|]. cbn. rewrite P. discriminate.
  - cbn [fst]. apply firm_move; [apply (firm_same w); auto|discriminate|cbn; rewrite P; discriminate].
  - cbn [fst]. destruct (w_once w) eqn:O; [apply firm_move; side P|]. apply firm_move; [|discriminate|cbn; rewrite P; discriminate].
    destruct H. constructor; cbn; auto.
    + constructor; [|auto]. intros X. apply f_hsess0 in X. congruence.
    + intros [X|X]; [discriminate|auto].
  - cbn [fst]. apply firm_move; [apply (firm_same w); auto|discriminate|cbn; rewrite P; discriminate].
  - destruct (w_session w); cbn [fst]; apply firm_move; side P.
  - destruct (w_ctxs w i); cbn [fst]; (apply firm_move; [|discriminate|cbn; rewrite P; discriminate]); [auto|apply (firm_same w); auto].
  - destruct (w_store w) eqn:L; cbn [fst];
      try (apply firm_move; [|discriminate|cbn; rewrite P; discriminate]; first [exact H|apply (firm_same w); auto]; fail).
    destruct (w_clients w i) eqn:C; cbn [fst]; [|apply firm_move; [auto|discriminate|rewrite P; discriminate]].
    destruct H. constructor; cbn -[Nat.eqb]; auto.
    + intros s j. rewrite f_users0. pcs s t.
      * rewrite P. split; [intros [X|X]; [congruence|discriminate]|intros X; left; congruence].
      * apply Nat.eqb_neq in Heqb. split; [intros [X|X]; [congruence|auto]|auto].
    + intros s j. pcs s t; intros X; [injection X as <-; auto|eauto].
  - cbn [fst]. destruct H. constructor; cbn -[Nat.eqb]; auto.
    + intros s j. rewrite filter_In, f_users0. cbn -[Nat.eqb]. pcs s t; [split; [intros [_ X]; discriminate|discriminate]|cbn; intuition].
    + intros s j. pcs s t; [discriminate|eauto].
Qed.
Lemma firm_exit : forall w, firm w -> firm (exit_step w).
Proof.
  intros w H. unfold exit_step. destruct (w_exit w) eqn:X; try exact H.
  - destruct (w_handlers w) as [|[|] l] eqn:L.
    + destruct H. constructor; cbn; auto. { rewrite X in f_phase0. auto. } { intros Y; split; [apply f_hstore0; auto|discriminate]. }
    + destruct H. rewrite L in *. inversion f_nodup0; subst. constructor; cbn; auto.
      * rewrite X in f_phase0. auto.
      * intros Y. split; [apply f_hstore0; cbn; auto|discriminate].
    + destruct H. rewrite L in *. inversion f_nodup0; subst. constructor; cbn; auto.
      * apply f_hstore0. cbn; auto.
      * intros Y. contradiction.
      * intros Y. apply f_hsess0. cbn; auto.
  - assert (K : forall w' x, firm w' -> w_exit w' = XClose1 -> (x = XNext \/ x = XClose2) -> firm (set_exit w' x)).
    { intros w' x F E Y. destruct F. constructor; cbn; auto.
      - rewrite E in f_phase0. destruct Y; subst x; auto.
      - intros Z. split; [apply f_hstore0; auto|destruct Y; subst x; discriminate]. }
    destruct (w_session w) as [i|]; [|apply K; auto].
    destruct (w_store w) eqn:L.
    + apply K; auto. apply (firm_same w); auto.
    + destruct (existsb _ _) eqn:E; [exact H|]. apply K; cbn; auto. destruct H. constructor; cbn; auto; rewrite ?X; auto.
      * intros t j Y. unfold flip. destruct (Nat.eqb j i) eqn:J; [|eauto]. exfalso.
        apply f_users0 in Y.
        assert (Z : existsb (fun u => Nat.eqb (snd u) i) (w_users w) = true) by (apply existsb_exists; exists (t, j); auto). congruence.
    + apply K; auto. apply (firm_same w); auto.
    + apply (firm_same w); auto.
    + apply K; auto. apply (firm_same w); auto.
  - destruct H. constructor; cbn; auto. { rewrite X in f_phase0; auto. } { intros Y; apply f_hstore0 in Y; split; [apply Y|discriminate]. }
  - destruct H. rewrite X in *. constructor; cbn; auto.
    + intros t i Y. apply f_work0 in Y. intuition.
    + intros Y. apply f_hstore0 in Y. destruct Y as [_ Y]; congruence.
  - destruct (w_users w) eqn:U; [|exact H]. destruct H. rewrite X in *. constructor; cbn; auto.
    + intros t i Y. apply f_users0 in Y. rewrite U in Y. destruct Y.
    + intros Y. apply f_hstore0 in Y. destruct Y as [Y _]. congruence.
  - destruct H. rewrite X in *. constructor; cbn; auto.
    + intros t i Y. apply f_work0 in Y. destruct Y as [_ [Y|Y]]; congruence.
    + intros Y. apply f_hstore0 in Y. destruct Y as [Y _]. congruence.
Qed.
Lemma firm_act : forall a w, firm w -> firm (fst (act a w)).
Proof.
  intros [t|t k| |] w H; cbn [act].
  - destruct (w_pcs w t) eqn:P; try exact H. apply firm_move; side P.
  - apply firm_step; auto.
  - destruct (w_exit w) eqn:X; try exact H. cbn [fst]. destruct H. constructor; cbn; auto.
    + rewrite X in f_phase0; auto.
    + intros Y. apply f_hstore0 in Y. split; [apply Y|discriminate].
  - apply firm_exit; auto.
Qed.
Lemma firm_run : forall l w, firm w -> firm (fst (run l w)).
Proof. induction l as [|a l IH]; intros w H; [exact H|]. rewrite run_cons. cbn [fst]. apply IH. apply firm_act; auto. Qed.

Lemma work_undisturbed : forall l t i, at_work (fst (run l start)) t i ->
  w_clients (fst (run l start)) i = true /\ (w_store (fst (run l start)) = Live \/ w_store (fst (run l start)) = Closing) /\
  forall k, snd (act (Step t k) (fst (run l start))) = [Served t] /\ w_bad (fst (act (Step t k) (fst (run l start)))) = w_bad (fst (run l start)).
Proof.
  intros l t i W. pose proof (firm_run l start firm_start) as F. destruct (f_work _ F _ _ W) as [A B].
  split; [auto|]. split; [auto|]. intros k. cbn [act]. unfold at_work in W. rewrite (alone_step t k _ _ W). cbn. auto.
Qed.
Lemma exit_waits_for_work_only : forall l, w_exit (fst (run l start)) <> Running -> w_exit (fst (run l start)) <> XDone ->
  (forall t i, ~ at_work (fst (run l start)) t i) ->
  w_exit (exit_step (fst (run l start))) <> w_exit (fst (run l start)).
Proof.
  intros l. pose proof (firm_run l start firm_start) as F. revert F. generalize (fst (run l start)) as w. intros w F A B W.
  assert (U : w_users w = []).
  { destruct (w_users w) as [|[t i] u] eqn:E; [reflexivity|]. exfalso. apply (W t i). apply (f_users _ F). rewrite E. left; reflexivity. }
  pose proof (f_phase w F) as P. unfold exit_step. destruct (w_exit w) eqn:X; try congruence.
  - destruct (w_handlers w) as [|[|] ?]; cbn; discriminate.
  - destruct (w_session w); [|cbn; discriminate]. destruct (w_store w) eqn:L; cbn; try discriminate.
    + rewrite U. cbn. discriminate.
    + intuition congruence.
  - cbn; discriminate.
  - cbn; discriminate.
  - rewrite U. cbn. discriminate.
  - cbn; discriminate.
Qed.
