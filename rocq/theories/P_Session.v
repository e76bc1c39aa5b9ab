(** Proofs about sessions and the end of the process. *)
From Verif Require Import Base M_Session S_Session.

Definition inside (p : pc) : bool := match p with S3 | S4 | S5 _ | S6 | S7 => true | _ => false end.
Definition making (p : pc) : bool := match p with S4 | S5 _ => true | _ => false end.
Definition uses (p : pc) (i : nat) : bool := match p with U1 j | U2 j | U3 j => Nat.eqb j i | _ => false end.

(** While exit() was not called. *)
Record calm (w : world) : Prop := {
  c_exit : w_exit w = Running;
  c_bad : w_bad w = false;
  c_lock : forall t, inside (w_pcs w t) = true -> w_mutex w = Some t;
  c_held : forall t, w_mutex w = Some t -> inside (w_pcs w t) = true;
  c_sess : forall i, w_session w = Some i -> w_ctxs w i = true /\ w_clients w i = true /\ w_store w = Live;
  c_make : forall t, making (w_pcs w t) = true -> w_session w = None;
  c_s5 : forall t i, w_pcs w t = S5 i -> w_ctxs w i = true /\ w_clients w i = true /\ w_store w = Live;
  c_ctx : forall i, w_ctxs w i = true -> w_session w = Some i \/ exists t, w_pcs w t = S5 i;
  c_new : forall i, w_ctxs w i = true -> (i < w_next w)%nat;
  c_cli : forall i, w_clients w i = true -> w_ctxs w i = true;
  c_s6 : forall t, w_pcs w t = S6 -> w_session w <> None;
  c_use : forall t i, uses (w_pcs w t) i = true -> w_session w = Some i;
  c_store : w_store w = Live \/ w_store w = Absent;
  c_once : w_once w = true -> w_session w <> None;
  c_handlers : w_handlers w = (if w_once w then [CloseSession] else []) ++ (match w_store w with Live => [CloseStore] | _ => [] end);
  c_reg : w_session w <> None -> w_once w = true \/ exists t, w_pcs w t = S6;
  c_users : forall t i, In (t, i) (w_users w) <-> w_pcs w t = U3 i
}.

Lemma calm_start : calm start.
Proof.
  constructor; cbn; try tauto; try discriminate; try (intros; discriminate); try reflexivity; auto.
  intros; split; [tauto|discriminate].
Qed.

Ltac pcs x t := destruct (Nat.eqb x t) eqn:?; [ match goal with E : Nat.eqb x t = true |- _ => apply Nat.eqb_eq in E; subst x end |].
(** Only thread [t]'s place changes. *)
Lemma calm_move : forall w t p, calm w ->
  inside p = inside (w_pcs w t) ->
  (making p = true -> w_session w = None) ->
  (forall i, p <> S5 i) -> (forall i, w_pcs w t <> S5 i) ->
  (p = S6 -> w_session w <> None) ->
  (w_pcs w t = S6 -> w_once w = true) ->
  (forall i, uses p i = true -> w_session w = Some i) ->
  (forall i, p <> U3 i) -> (forall i, w_pcs w t <> U3 i) ->
  calm (set_pc w t p).
Proof.
  intros w t p H A B C D F G U V W. destruct H. constructor; cbn -[Nat.eqb]; auto.
  - intros s; pcs s t; [rewrite A|]; auto.
  - intros s; pcs s t; [rewrite A|]; auto.
  - intros s; pcs s t; eauto.
  - intros s i; pcs s t; [intros X; congruence|]; eauto.
  - intros i X. destruct (c_ctx0 _ X) as [Y|[s Y]]; [auto|right; exists s]. pcs s t; [congruence|auto].
  - intros s; pcs s t; eauto.
  - intros s i; pcs s t; eauto.
  - intros X. destruct (c_reg0 X) as [Y|[s Y]]; [auto|]. destruct (Nat.eq_dec s t); [subst; left; auto|].
    right; exists s. pcs s t; [congruence|auto].
  - intros s i. rewrite c_users0. pcs s t; [split; intros X; exfalso; [eapply W|eapply V]; eauto|reflexivity].
Qed.

Lemma calm_locks : forall w t, calm w -> w_mutex w = None -> w_pcs w t = S2 ->
  calm (set_pc (set_mutex w (Some t)) t S3).
Proof.
  intros w t H M P. destruct H. constructor; cbn -[Nat.eqb]; auto.
  - intros s; pcs s t; intros X; [auto|]. apply c_lock0 in X. congruence.
  - intros s X. injection X as <-. rewrite Nat.eqb_refl. reflexivity.
  - intros s; pcs s t; cbn; [discriminate|eauto].
  - intros s i; pcs s t; cbn; [discriminate|eauto].
  - intros i X. destruct (c_ctx0 _ X) as [Y|[s Y]]; [auto|right; exists s]. pcs s t; [congruence|auto].
  - intros s; pcs s t; [discriminate|eauto].
  - intros s i; pcs s t; [discriminate|eauto].
  - intros X. destruct (c_reg0 X) as [Y|[s Y]]; [auto|]. right; exists s. pcs s t; [congruence|auto].
  - intros s i. rewrite c_users0. pcs s t; [rewrite P; split; discriminate|reflexivity].
Qed.

Lemma calm_unlocks : forall w t, calm w -> w_pcs w t = S7 -> calm (set_pc (set_mutex w None) t S8).
Proof.
  intros w t H P. destruct H. constructor; cbn -[Nat.eqb]; auto.
  - intros s; pcs s t; cbn; intros X; [discriminate|]. apply c_lock0 in X.
    assert (Y : w_mutex w = Some t) by (apply c_lock0; rewrite P; reflexivity).
    apply Nat.eqb_neq in Heqb. congruence.
  - discriminate.
  - intros s; pcs s t; cbn; [discriminate|eauto].
  - intros s i; pcs s t; cbn; [discriminate|eauto].
  - intros i X. destruct (c_ctx0 _ X) as [Y|[s Y]]; [auto|right; exists s]. pcs s t; [congruence|auto].
  - intros s; pcs s t; [discriminate|eauto].
  - intros s i; pcs s t; [discriminate|eauto].
  - intros X. destruct (c_reg0 X) as [Y|[s Y]]; [auto|]. right; exists s. pcs s t; [congruence|auto].
  - intros s i. rewrite c_users0. pcs s t; [rewrite P; split; discriminate|reflexivity].
Qed.

Lemma calm_make_store : forall w, calm w -> calm (make_store w) /\ w_store (make_store w) = Live /\
  w_pcs (make_store w) = w_pcs w /\ w_session (make_store w) = w_session w.
Proof.
  intros w H. unfold make_store. destruct (w_store w) eqn:E; cbn.
  - split; [|auto]. destruct H. constructor; cbn; auto.
    + intros i X. apply c_sess0 in X. rewrite E in X. intuition.
    + intros t i X. apply c_s7 in X. rewrite E in X. intuition.
    + rewrite c_handlers0, E. destruct (w_once w) eqn:O; [exfalso|reflexivity].
      specialize (c_once0 eq_refl). destruct (w_session w) eqn:S; [|congruence]. destruct (c_sess0 _ eq_refl) as (_ & _ & Y). congruence.
  - auto.
  - destruct H; destruct c_store0; congruence.
  - destruct H; destruct c_store0; congruence.
  - destruct H; destruct c_store0; congruence.
Qed.
Lemma no_one_else : forall w t s, calm w -> inside (w_pcs w t) = true -> s <> t -> inside (w_pcs w s) = false.
Proof.
  intros w t s H A N. destruct (inside (w_pcs w s)) eqn:E; [|reflexivity].
  apply (c_lock w H) in A. apply (c_lock w H) in E. congruence.
Qed.
Lemma calm_opens : forall w t, calm w -> w_pcs w t = S4 -> w_store w = Live -> calm (set_pc (open w) t (S5 (w_next w))).
Proof.
  intros w t H P L.
  assert (NS : w_session w = None) by (apply (c_make w H t); rewrite P; reflexivity).
  assert (NE : forall s, s <> t -> inside (w_pcs w s) = false) by (intros s; apply no_one_else; [auto|rewrite P; reflexivity]).
  destruct H. constructor; cbn -[Nat.eqb]; auto; try (rewrite NS; intros; discriminate); unfold flip.
  - intros s; pcs s t; intros X; [apply c_lock0; rewrite P; reflexivity|auto].
  - intros s; pcs s t; intros X; [reflexivity|auto].
  - intros s i; pcs s t; intros X.
    + injection X as <-. rewrite Nat.eqb_refl. auto.
    + apply Nat.eqb_neq in Heqb. specialize (NE _ Heqb). rewrite X in NE. discriminate.
  - intros i. destruct (Nat.eqb i (w_next w)) eqn:E; intros X.
    + apply Nat.eqb_eq in E; subst i. right; exists t. rewrite Nat.eqb_refl. reflexivity.
    + destruct (c_ctx0 _ X) as [Y|[s Y]]; [auto|right; exists s]. pcs s t; [congruence|auto].
  - intros i. destruct (Nat.eqb i (w_next w)) eqn:E; intros X.
    + apply Nat.eqb_eq in E; lia.
    + apply c_new0 in X. lia.
  - intros i. destruct (Nat.eqb i (w_next w)); auto.
  - intros s; pcs s t; [discriminate|eauto].
  - intros s i; pcs s t; [discriminate|eauto].
  - intros s i. rewrite c_users0. pcs s t; [rewrite P; split; discriminate|reflexivity].
Qed.
Lemma calm_sets : forall w t i, calm w -> w_pcs w t = S5 i -> calm (set_pc (set_session w (Some i)) t S6).
Proof.
  intros w t i H P.
  assert (NS : w_session w = None) by (apply (c_make w H t); rewrite P; reflexivity).
  assert (NE : forall s, s <> t -> inside (w_pcs w s) = false) by (intros s; apply no_one_else; [auto|rewrite P; reflexivity]).
  destruct H. constructor; cbn -[Nat.eqb]; auto; try (rewrite NS; intros; discriminate); try discriminate.
  - intros s; pcs s t; intros X; [apply c_lock0; rewrite P; reflexivity|auto].
  - intros s; pcs s t; intros X; [reflexivity|auto].
  - intros j X. injection X as <-. eauto.
  - intros s; pcs s t; cbn; intros X; [discriminate|]. apply Nat.eqb_neq in Heqb. specialize (NE _ Heqb).
    destruct (w_pcs w s); discriminate.
  - intros s j; pcs s t; intros X; [discriminate|eauto].
  - intros j X. destruct (c_ctx0 _ X) as [Y|[s Y]]; [congruence|left].
    destruct (Nat.eq_dec s t) as [->|N]; [congruence|]. specialize (NE _ N). rewrite Y in NE. discriminate.
  - intros s j; pcs s t; intros X; [discriminate|]. apply c_use0 in X. congruence.
  - intros _. right. exists t. rewrite Nat.eqb_refl. reflexivity.
  - intros s j. rewrite c_users0. pcs s t; [rewrite P; split; discriminate|reflexivity].
Qed.
Lemma calm_registers : forall w, calm w -> w_session w <> None -> w_once w = false ->
  calm (set_once (set_handlers w (CloseSession :: w_handlers w))).
Proof.
  intros w H N O. destruct H. constructor; cbn; auto.
  rewrite c_handlers0, O. reflexivity.
Qed.
Lemma calm_takes : forall w t i, calm w -> w_pcs w t = U2 i -> calm (set_pc (set_users w ((t, i) :: w_users w)) t (U3 i)).
Proof.
  intros w t i H P. destruct H. constructor; cbn -[Nat.eqb]; auto.
  - intros s; pcs s t; cbn; [discriminate|auto].
  - intros s X. apply c_held0 in X. pcs s t; [rewrite P in X; discriminate|auto].
  - intros s; pcs s t; cbn; [discriminate|eauto].
  - intros s j; pcs s t; cbn; [discriminate|eauto].
  - intros j X. destruct (c_ctx0 _ X) as [Y|[s Y]]; [auto|right; exists s]. pcs s t; [congruence|auto].
  - intros s; pcs s t; [discriminate|eauto].
  - intros s j; pcs s t; intros X; [apply (c_use0 t); rewrite P; exact X|eauto].
  - intros X. destruct (c_reg0 X) as [Y|[s Y]]; [auto|]. right; exists s. pcs s t; [congruence|auto].
  - intros s j. rewrite c_users0. pcs s t.
    + rewrite P. split; [intros [X|X]; [congruence|discriminate]|intros X; left; congruence].
    + apply Nat.eqb_neq in Heqb. split; [intros [X|X]; [congruence|auto]|auto].
Qed.
Lemma calm_gives : forall w t i, calm w -> w_pcs w t = U3 i ->
  calm (set_pc (set_users w (filter (fun u => negb (Nat.eqb (fst u) t)) (w_users w))) t Idle).
Proof.
  intros w t i H P. destruct H. constructor; cbn -[Nat.eqb]; auto.
  - intros s; pcs s t; cbn; [discriminate|auto].
  - intros s X. apply c_held0 in X. pcs s t; [rewrite P in X; discriminate|auto].
  - intros s; pcs s t; cbn; [discriminate|eauto].
  - intros s j; pcs s t; cbn; [discriminate|eauto].
  - intros j X. destruct (c_ctx0 _ X) as [Y|[s Y]]; [auto|right; exists s]. pcs s t; [congruence|auto].
  - intros s; pcs s t; [discriminate|eauto].
  - intros s j; pcs s t; [discriminate|eauto].
  - intros X. destruct (c_reg0 X) as [Y|[s Y]]; [auto|]. right; exists s. pcs s t; [congruence|auto].
  - intros s j. rewrite filter_In, c_users0. cbn -[Nat.eqb]. pcs s t.
    + split; [intros [_ X]; discriminate|discriminate].
    + cbn. intuition.
Qed.

Ltac side P := try rewrite P; try (intros; discriminate); try reflexivity; auto.
Lemma calm_step : forall t k w, calm w -> calm (fst (thread_step t k w)).
Proof.
  intros t k w H. unfold thread_step.
  destruct (w_pcs w t) eqn:P.
  - exact H.
  - destruct (w_session w) eqn:E; cbn [fst]; apply calm_move; side P.
    cbn. intros i X. apply Nat.eqb_eq in X. congruence.
  - destruct (w_mutex w) eqn:E; cbn [fst]; [exact H|apply calm_locks; auto].
  - destruct (w_session w) eqn:E; cbn [fst]; apply calm_move; side P.
  - unfold open_session. destruct (calm_make_store w H) as (A & B & C & D). destruct k; cbn [fst].
    + rewrite B. cbn [fst]. apply calm_opens; [auto|rewrite C; auto|auto].
    + apply calm_move; side P.
    + assert (G : calm (set_pc (make_store w) t S7)) by (apply calm_move; rewrite ?C; side P).
      destruct (w_store w) eqn:E; try exact G. destruct (c_store w H); congruence.
  - apply calm_sets; auto.
  - cbn [fst]. assert (N : w_session w <> None) by (apply (c_s6 w H t); auto).
    destruct (w_once w) eqn:O; [apply calm_move; side P|].
    apply calm_move; [apply calm_registers; auto|..]; cbn; side P.
  - apply calm_unlocks; auto.
  - destruct (w_session w) eqn:E; cbn [fst]; apply calm_move; side P.
    cbn. intros i X. apply Nat.eqb_eq in X. congruence.
  - assert (X : w_session w = Some i) by (apply (c_use w H t); rewrite P; apply Nat.eqb_refl).
    destruct (c_sess w H _ X) as (Y & _). rewrite Y. cbn [fst]. apply calm_move; side P.
    cbn. intros j Z. apply Nat.eqb_eq in Z. congruence.
  - assert (X : w_session w = Some i) by (apply (c_use w H t); rewrite P; apply Nat.eqb_refl).
    destruct (c_sess w H _ X) as (_ & Y & Z). rewrite Y, Z. cbn [fst]. apply calm_takes; auto.
  - cbn [fst]. apply (calm_gives w t i); auto.
Qed.

Lemma calm_act : forall a w, calm w -> a <> Exit -> calm (fst (act a w)).
Proof.
  intros [t|t k| |] w H N; cbn [act].
  - destruct (w_pcs w t) eqn:P; try exact H. cbn [fst]. apply calm_move; side P.
  - apply calm_step; auto.
  - congruence.
  - cbn [fst]. unfold exit_step. rewrite (c_exit w H). exact H.
Qed.
Lemma session_stays : forall a w i, calm w -> a <> Exit -> w_session w = Some i -> w_session (fst (act a w)) = Some i.
Proof.
  intros [t|t k| |] w i H N S; cbn [act].
  - destruct (w_pcs w t); exact S.
  - unfold thread_step. destruct (w_pcs w t) eqn:P.
    + exact S.
    + rewrite S; exact S.
    + destruct (w_mutex w); exact S.
    + rewrite S; exact S.
    + exfalso. assert (X : w_session w = None) by (apply (c_make w H t); rewrite P; reflexivity). congruence.
    + exfalso. assert (X : w_session w = None) by (apply (c_make w H t); rewrite P; reflexivity). congruence.
    + destruct (w_once w); exact S.
    + exact S.
    + rewrite S; exact S.
    + destruct (w_ctxs w i0); exact S.
    + destruct (w_store w); try exact S. destruct (w_clients w i0); exact S.
    + exact S.
  - congruence.
  - unfold exit_step. rewrite (c_exit w H). exact S.
Qed.
Lemma got_session : forall a w t i, calm w -> a <> Exit -> In (Got t i) (snd (act a w)) -> w_session w = Some i.
Proof.
  intros [s|s k| |] w t i H N; cbn [act].
  - destruct (w_pcs w s); cbn; tauto.
  - unfold thread_step. destruct (w_pcs w s) eqn:P; cbn; try tauto.
    + destruct (w_session w); cbn; [intros [X|[]]; congruence|tauto].
    + destruct (w_mutex w); cbn; tauto.
    + destruct (w_session w); cbn; tauto.
    + unfold open_session. destruct k; cbn; try tauto. destruct (w_store (make_store w)); cbn; tauto.
    + destruct (w_session w); cbn; [intros [X|[]]; congruence|intros [X|[]]; congruence].
    + destruct (w_ctxs w i0); cbn; tauto.
    + destruct (w_store w); cbn; try (intros [X|[]]; congruence); try tauto.
      destruct (w_clients w i0); cbn; [tauto|intros [X|[]]; congruence].
    + intros [X|[]]; congruence.
  - congruence.
  - cbn. tauto.
Qed.
Lemma run_cons : forall a l w, run (a :: l) w =
  (fst (run l (fst (act a w))), snd (act a w) ++ snd (run l (fst (act a w)))).
Proof. intros. cbn [run]. destruct (act a w) as [w1 e]. cbn [fst snd]. destruct (run l w1). reflexivity. Qed.
Lemma run_app : forall l1 l2 w, run (l1 ++ l2) w =
  (fst (run l2 (fst (run l1 w))), snd (run l1 w) ++ snd (run l2 (fst (run l1 w)))).
Proof.
  induction l1 as [|a l1 IH]; intros.
  - cbn. destruct (run l2 w); reflexivity.
  - rewrite <- app_comm_cons, !run_cons, IH. cbn [fst snd]. now rewrite app_assoc.
Qed.
Lemma calm_run : forall l w, calm w -> no_exit l -> calm (fst (run l w)).
Proof.
  induction l as [|a l IH]; intros w H N; [exact H|]. rewrite run_cons. cbn [fst]. apply IH.
  - apply calm_act; [auto|]. intros ->. apply N. left; reflexivity.
  - intros X. apply N. right; exact X.
Qed.
Lemma session_run : forall l w i, calm w -> no_exit l -> w_session w = Some i -> w_session (fst (run l w)) = Some i.
Proof.
  induction l as [|a l IH]; intros w i H N S; [exact S|]. rewrite run_cons. cbn [fst].
  assert (A : a <> Exit) by (intros ->; apply N; left; reflexivity). apply IH.
  - apply calm_act; auto.
  - intros X. apply N. right; exact X.
  - apply session_stays; auto.
Qed.
Lemma got_run : forall l w t i, calm w -> no_exit l -> In (Got t i) (snd (run l w)) -> w_session (fst (run l w)) = Some i.
Proof.
  induction l as [|a l IH]; intros w t i H N G; [destruct G|]. rewrite run_cons in *. cbn [fst snd] in *.
  assert (A : a <> Exit) by (intros ->; apply N; left; reflexivity).
  assert (B : no_exit l) by (intros X; apply N; right; exact X).
  apply in_app_or in G. destruct G as [G|G].
  - apply session_run; [apply calm_act; auto|auto|]. apply session_stays; auto. eapply got_session; eauto.
  - eapply IH; [apply calm_act; auto|auto|exact G].
Qed.

Lemma one_session : forall l, no_exit l ->
  let '(w, e) := run l start in
  w_bad w = false /\
  (forall t i, In (Got t i) e -> w_session w = Some i /\ w_ctxs w i = true /\ w_clients w i = true /\ w_store w = Live) /\
  (forall t s i j, In (Got t i) e -> In (Got s j) e -> i = j) /\
  (forall i j, w_ctxs w i = true -> w_ctxs w j = true -> i = j).
Proof.
  intros l N. pose proof (calm_run l start calm_start N) as C.
  assert (G : forall t i, In (Got t i) (snd (run l start)) -> w_session (fst (run l start)) = Some i)
    by (intros t i; apply got_run; [apply calm_start|auto]).
  destruct (run l start) as [w e]. cbn [fst snd] in *. split; [apply C|]. split.
  - intros t i X. apply G in X. split; [auto|]. apply (c_sess w C); auto.
  - split.
    + intros t s i j X Y. apply G in X. apply G in Y. congruence.
    + intros i j X Y. destruct (c_ctx w C _ X) as [A|[t A]], (c_ctx w C _ Y) as [B|[s B]].
      * congruence.
      * exfalso. assert (Z : w_session w = None) by (apply (c_make w C s); rewrite B; reflexivity). congruence.
      * exfalso. assert (Z : w_session w = None) by (apply (c_make w C t); rewrite A; reflexivity). congruence.
      * assert (E : Some t = Some s) by (rewrite <- (c_lock w C t), <- (c_lock w C s); rewrite ?A, ?B; reflexivity).
        injection E as <-. congruence.
Qed.

Definition done_ok (w : world) : Prop := forall t, w_pcs w t = S7 \/ w_pcs w t = S8 -> w_session w <> None.
Lemma done_step : forall a w, calm w -> done_ok w -> a <> Exit -> (forall t k, a = Step t k -> k = Succeeds) ->
  done_ok (fst (act a w)) /\ forall t, ~ In (Refused t) (snd (act a w)).
Proof.
  intros a w H D N L.
  assert (K : forall w' t p, w_session w' = w_session w -> (forall s, s <> t -> w_pcs w' s = w_pcs w s) ->
    (p = S7 \/ p = S8 -> w_session w <> None) -> done_ok (set_pc w' t p)).
  { intros w' t p X Y Z s. cbn. rewrite X. destruct (Nat.eqb s t) eqn:E; [auto|]. rewrite Y by (apply Nat.eqb_neq; auto). apply D. }
  destruct a as [t|t k| |]; cbn [act].
  - destruct (w_pcs w t) eqn:P; cbn [fst snd]; (split; [|intros ? []]); auto.
    apply K; auto. intros [X|X]; discriminate.
  - rewrite (L t k eq_refl). unfold thread_step. destruct (w_pcs w t) eqn:P.
    + split; [auto|intros ? []].
    + destruct (w_session w) eqn:S; cbn [fst snd]; (split; [apply K; auto; intros [X|X]; discriminate|]); intros s; cbn; intuition congruence.
    + destruct (w_mutex w) eqn:S; cbn [fst snd]; (split; [|intros s []]); auto. apply K; auto. intros [X|X]; discriminate.
    + destruct (w_session w) eqn:S; cbn [fst snd]; (split; [apply K; auto|intros s []]).
      * intros _. congruence.
      * intros [X|X]; discriminate.
    + unfold open_session. destruct (calm_make_store w H) as (A & B & C & E). rewrite B. cbn [fst snd]. split; [|intros s []].
      apply K; cbn; [congruence|intros; rewrite C; auto|]. intros [X|X]; discriminate.
    + cbn [fst snd]. split; [|intros s []]. intros s. cbn. intros _ X. discriminate.
    + cbn [fst snd]. split; [|intros s []]. apply K; [destruct (w_once w); auto|destruct (w_once w); auto|].
      intros _. apply (c_s6 w H t P).
    + cbn [fst snd]. split; [|intros s []]. apply K; [auto|auto|]. intros _. apply (D t). auto.
    + assert (X : w_session w <> None) by (apply (D t); auto). destruct (w_session w) eqn:S; [|congruence]. cbn [fst snd].
      split; [apply K; auto; intros [Y|Y]; discriminate|]. intros s; cbn; intuition congruence.
    + assert (X : w_session w = Some i) by (apply (c_use w H t); rewrite P; apply Nat.eqb_refl).
      destruct (c_sess w H _ X) as (Y & _). rewrite Y. cbn [fst snd]. split; [|intros s []]. apply K; auto. intros [Z|Z]; discriminate.
    + assert (X : w_session w = Some i) by (apply (c_use w H t); rewrite P; apply Nat.eqb_refl).
      destruct (c_sess w H _ X) as (_ & Y & Z). rewrite Y, Z. cbn [fst snd]. split; [|intros s []]. apply K; auto. intros [Q|Q]; discriminate.
    + cbn [fst snd]. split; [apply K; auto; intros [Z|Z]; discriminate|]. intros s; cbn; intuition congruence.
  - congruence.
  - cbn [fst snd]. unfold exit_step. rewrite (c_exit w H). split; [auto|intros ? []].
Qed.
Lemma never_refused : forall l, no_exit l -> all_succeed l -> forall t, ~ In (Refused t) (snd (run l start)).
Proof.
  intros l. assert (G : forall w, calm w -> done_ok w -> no_exit l -> all_succeed l -> forall t, ~ In (Refused t) (snd (run l w))).
  { induction l as [|a l IH]; intros w H D N L t X; [destruct X|]. rewrite run_cons in X. cbn [snd] in X.
    assert (A : a <> Exit) by (intros ->; apply N; left; reflexivity).
    destruct (done_step a w H D A) as [E F].
    { intros s k ->. apply (L s k). left; reflexivity. }
    apply in_app_or in X. destruct X as [X|X]; [exact (F t X)|]. revert X. apply IH; auto.
    - apply calm_act; auto.
    - intros Y; apply N; right; exact Y.
    - intros s k Y. apply (L s k). right; exact Y. }
  intros N L t. apply G; auto; [apply calm_start|]. intros s [X|X]; discriminate X.
Qed.
