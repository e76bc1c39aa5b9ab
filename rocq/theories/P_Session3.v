(** What exit() leaves. *)
From Verif Require Import Base M_Session S_Session P_Session P_Session2.

Definition nocli (w : world) : Prop := forall i, w_clients w i = false.
Definition noctx (w : world) : Prop := forall i, w_ctxs w i = false.
Definition only (w : world) : Prop := exists i, w_session w = Some i /\ forall j, w_ctxs w j = true -> j = i.
Definition over (w : world) : Prop :=
  (w_store w = Shut \/ w_store w = Absent) /\ w_session w = None /\ noctx w /\ nocli w /\ w_users w = [].
Definition phase (w : world) : Prop :=
  match w_exit w with
  | Running => False
  | XNext => match w_handlers w with
             | [CloseSession; CloseStore] => w_store w = Live /\ only w
             | [CloseStore] => w_store w = Live /\ w_session w = None /\ noctx w
             | [] => over w
             | _ => False
             end
  | XClose1 => w_handlers w = [CloseStore] /\ w_store w = Live /\ only w
  | XClose2 => w_handlers w = [CloseStore] /\ w_store w = Live /\ noctx w
  | XStore1 => w_handlers w = [] /\ w_store w = Live /\ w_session w = None /\ noctx w
  | XStore2 => w_handlers w = [] /\ w_store w = Closing /\ w_session w = None /\ noctx w
  | XStore3 => w_handlers w = [] /\ w_store w = Destroyed /\ w_session w = None /\ noctx w /\ nocli w /\ w_users w = []
  | XDone => w_handlers w = [] /\ over w
  end.
Record leaving (w : world) : Prop := {
  l_pcs : forall t, w_pcs w t = Idle \/ exists i, w_pcs w t = U3 i;
  l_bad : w_bad w = false;
  l_phase : phase w
}.
Lemma leaving_step : forall t k w, leaving w -> leaving (fst (thread_step t k w)).
Proof.
  intros t k w H. unfold thread_step. destruct (l_pcs w H t) as [P|[i P]]; rewrite P; [exact H|]. cbn [fst].
  destruct H. constructor; cbn -[Nat.eqb]; auto.
  - intros s; pcs s t; auto.
  - revert l_phase0. unfold phase. cbn.
    destruct (w_exit w); auto.
    + destruct (w_handlers w) as [|[|] [|[|] [|]]]; auto. unfold over, noctx, nocli. cbn. intros (A & B & C & D & E). rewrite E. cbn. auto.
    + unfold noctx, nocli. cbn. intros (A & B & C & D & E & F). rewrite F. cbn. auto 7.
    + unfold over, noctx, nocli. cbn. intros (F & A & B & C & D & E). rewrite E. cbn. auto 7.
Qed.
Lemma leaving_exit : forall w, leaving w -> leaving (exit_step w).
Proof.
  intros w H. pose proof H as H0. destruct H. unfold exit_step. unfold phase in l_phase0. destruct (w_exit w) eqn:X; try exact H0.
  - destruct (w_handlers w) as [|h l] eqn:L.
    + constructor; auto. cbn. auto.
    + destruct h; destruct l as [|[|] [|]]; try contradiction; constructor; auto; cbn; auto.
  - destruct l_phase0 as (A & B & i & C & D). rewrite C, B. destruct (existsb _ _); [exact H0|].
    constructor; auto. cbn. split; [auto|split; [auto|]]. intros j. cbn. unfold flip.
    destruct (Nat.eqb j i) eqn:J; [reflexivity|]. destruct (w_ctxs w j) eqn:K; [|reflexivity]. apply D in K. subst. rewrite Nat.eqb_refl in J. discriminate.
  - destruct l_phase0 as (A & B & C). constructor; auto. cbn. rewrite A. auto.
  - destruct l_phase0 as (A & B & C & D). constructor; auto. cbn. auto.
  - destruct l_phase0 as (A & B & C & D). destruct (w_users w) eqn:U; [|exact H0]. constructor; auto. cbn. unfold nocli. cbn. auto 7.
  - destruct l_phase0 as (A & B & C & D & E & F). constructor; auto. cbn. rewrite A. unfold over. cbn. auto 7.
Qed.
Lemma leaving_run : forall l w, leaving w -> (forall t, ~ In (Begin t) l) -> leaving (fst (run l w)).
Proof.
  induction l as [|a l IH]; intros w H N; [exact H|]. rewrite run_cons. cbn [fst]. apply IH.
  - destruct a as [t|t k| |]; cbn [act].
    + exfalso. apply (N t). left; reflexivity.
    + apply leaving_step; auto.
    + pose proof (l_phase w H) as P. unfold phase in P. destruct (w_exit w); try exact H; contradiction.
    + apply leaving_exit; auto.
  - intros t X. apply (N t). right; exact X.
Qed.
Lemma leaving_begins : forall w, calm w -> (forall t, w_pcs w t = Idle \/ exists i, w_pcs w t = U3 i) -> leaving (set_exit w XNext).
Proof.
  intros w C P. pose proof C as D0. destruct C. constructor; auto. cbn. rewrite c_handlers.
  assert (N5 : forall t i, w_pcs w t <> S5 i) by (intros t i E; destruct (P t) as [Q|[j Q]]; congruence).
  assert (N6 : forall t, w_pcs w t <> S6) by (intros t E; destruct (P t) as [Q|[j Q]]; congruence).
  assert (X : forall i, w_ctxs w i = true -> w_session w = Some i) by (intros i Y; destruct (c_ctx _ Y) as [Z|[t Z]]; [auto|exfalso; eapply N5; eauto]).
  destruct (w_session w) as [i|] eqn:S.
  - destruct (c_sess _ eq_refl) as (_ & _ & L). rewrite L.
    assert (O : w_once w = true) by (destruct c_reg as [Y|[t Y]]; [discriminate|auto|exfalso; eapply N6; eauto]).
    rewrite O. cbn. split; [auto|]. exists i. split; [auto|]. intros j Y. apply X in Y. congruence.
  - assert (O : w_once w = false) by (destruct (w_once w) eqn:O; [exfalso; apply c_once; auto|reflexivity]).
    assert (NC : forall i, w_ctxs w i = false) by (intros i; destruct (w_ctxs w i) eqn:Y; [apply X in Y; discriminate|reflexivity]).
    rewrite O. destruct c_store as [L|L]; rewrite L; cbn [app].
    + cbn. auto.
    + unfold over. cbn. split; [auto|]. split; [auto|]. split; [exact NC|]. split.
      * intros i. cbn. destruct (w_clients w i) eqn:Y; [|reflexivity]. apply c_cli in Y. rewrite NC in Y. discriminate.
      * destruct (w_users w) as [|[t i] u] eqn:U; [reflexivity|]. exfalso.
        assert (Z : w_pcs w t = U3 i) by (apply c_users; rewrite ?U; left; reflexivity).
        assert (Q : w_session w = Some i) by (rewrite S; apply (c_use t i); rewrite Z; apply Nat.eqb_refl). congruence.
Qed.

Lemma exit_clean : forall l l2, no_exit l -> (forall t, w_pcs (fst (run l start)) t = Idle \/ exists i, at_work (fst (run l start)) t i) ->
  (forall t, ~ In (Begin t) l2) ->
  let w := fst (run l2 (fst (run (l ++ [Exit]) start))) in
  w_bad w = false /\ (w_exit w = XDone -> nothing_left w).
Proof.
  intros l l2 N P B. rewrite run_app. cbn [fst run].
  pose proof (calm_run l start calm_start N) as C. revert P C. generalize (fst (run l start)) as w. intros w P C.
  cbn [act]. rewrite (c_exit w C). cbn [fst].
  pose proof (leaving_run l2 _ (leaving_begins w C P) B) as L. cbv zeta.
  set (v := fst (run l2 _)) in *. split; [apply L|]. intros X. pose proof (l_phase v L) as Q. unfold phase in Q. rewrite X in Q.
  destruct Q as (A & D & E & F & G & H). unfold nothing_left. auto 8.
Qed.

Lemma exit_steps_idle : forall n w, (forall t, w_pcs w t = Idle) -> forall t, w_pcs (fst (run (repeat ExitStep n) w)) t = Idle.
Proof.
  induction n as [|n IH]; intros w H; [exact H|]. cbn [repeat]. intros t. rewrite run_cons. cbn [fst act]. apply IH.
  intros s. unfold exit_step. destruct (w_exit w); try exact (H s).
  - destruct (w_handlers w) as [|[|] ?]; exact (H s).
  - destruct (w_session w); [|exact (H s)]. destruct (w_store w); try exact (H s). destruct (existsb _ _); exact (H s).
  - destruct (w_users w); exact (H s).
Qed.
Lemma quiet_done : forall w, calm w -> all_idle w -> w_exit (fst (run (repeat ExitStep 8) (set_exit w XNext))) = XDone.
Proof.
  intros w C I. pose proof (leaving_begins w C (fun t => or_introl (I t))) as L.
  assert (U : w_users w = []).
  { destruct (w_users w) as [|[t i] u] eqn:U; [reflexivity|]. exfalso.
    assert (Z : w_pcs w t = U3 i) by (apply (c_users w C); rewrite U; left; reflexivity). rewrite I in Z. discriminate. }
  destruct w as [se ct cl ne st us mu on ha ex pc ba]. cbn in U. subst us.
  pose proof (l_phase _ L) as P. unfold phase in P. cbn in P.
  destruct ha as [|[|] [|[|] [|]]]; try contradiction.
  - reflexivity.
  - destruct P as (A & i & B & D). cbn in A, B. subst st se. reflexivity.
  - destruct P as (A & B & D). cbn in A, B. subst st se. reflexivity.
Qed.
Lemma exit_quiet : forall l, no_exit l -> all_idle (fst (run l start)) ->
  let w := fst (run (l ++ Exit :: repeat ExitStep 8) start) in
  w_exit w = XDone /\ nothing_left w /\ w_bad w = false.
Proof.
  intros l N I.
  pose proof (exit_clean l (repeat ExitStep 8) N (fun t => or_introl (I t))) as E.
  specialize (E (fun t X => ltac:(apply repeat_spec in X; discriminate X))).
  change (Exit :: repeat ExitStep 8) with ([Exit] ++ repeat ExitStep 8). rewrite app_assoc, run_app. cbn [fst] in *.
  cbv zeta in *.
  assert (D : w_exit (fst (run (repeat ExitStep 8) (fst (run (l ++ [Exit]) start)))) = XDone).
  { rewrite run_app. cbn [fst]. pose proof (calm_run l start calm_start N) as C.
    change (fst (run [Exit] (fst (run l start)))) with (fst (act Exit (fst (run l start)))) || idtac.
    rewrite run_cons. cbn [fst run act]. rewrite (c_exit _ C). cbn [fst]. apply quiet_done; auto. }
  destruct E as [A B]. auto.
Qed.

(** Calls after that are refused. *)
Record closed (w : world) : Prop := {
  x_exit : w_exit w = XDone;
  x_bad : w_bad w = false;
  x_store : w_store w = Shut;
  x_sess : w_session w = None;
  x_ctx : noctx w;
  x_cli : nocli w;
  x_users : w_users w = [];
  x_handlers : w_handlers w = [];
  x_pcs : forall t, match w_pcs w t with Idle | S1 | S2 | S3 | S4 | S7 | S8 => True | _ => False end
}.
Lemma closed_move : forall w t p, closed w -> match p with Idle | S1 | S2 | S3 | S4 | S7 | S8 => True | _ => False end -> closed (set_pc w t p).
Proof. intros w t p H A. destruct H. constructor; auto. intros s. cbn. destruct (Nat.eqb s t); [exact A|apply x_pcs0]. Qed.
Lemma closed_mutex : forall w m, closed w -> closed (set_mutex w m).
Proof. intros w m H. destruct H. constructor; auto. Qed.
Lemma closed_act : forall a w, closed w -> closed (fst (act a w)) /\
  forall e, In e (snd (act a w)) -> exists t, e = Refused t.
Proof.
  intros [t|t k| |] w H; cbn [act].
  - destruct (w_pcs w t) eqn:P; (split; [|intros e []]); try exact H. apply closed_move; auto.
  - pose proof (x_pcs w H t) as Q. unfold thread_step. destruct (w_pcs w t) eqn:P; try contradiction.
    + split; [auto|intros e []].
    + rewrite (x_sess w H). split; [apply closed_move; auto|intros e []].
    + destruct (w_mutex w); (split; [|intros e []]); [auto|]. apply closed_move; [apply closed_mutex; auto|auto].
    + rewrite (x_sess w H). split; [apply closed_move; auto|intros e []].
    + unfold open_session, make_store. rewrite (x_store w H). destruct k; cbn [fst snd].
      * rewrite (x_store w H). split; [apply closed_move; auto|intros e []].
      * split; [apply closed_move; auto|intros e []].
      * split; [apply closed_move; auto|intros e []].
    + split; [|intros e []]. apply closed_move; [apply closed_mutex; auto|auto].
    + rewrite (x_sess w H). split; [apply closed_move; auto|]. intros e [<-|[]]. eauto.
  - rewrite (x_exit w H). split; [auto|intros e []].
  - unfold exit_step. rewrite (x_exit w H). split; [auto|intros e []].
Qed.
Lemma closed_run : forall l w, closed w -> closed (fst (run l w)) /\ forall e, In e (snd (run l w)) -> exists t, e = Refused t.
Proof.
  induction l as [|a l IH]; intros w H; [split; [auto|intros e []]|]. rewrite run_cons. cbn [fst snd].
  destruct (closed_act a w H) as [A B]. destruct (IH _ A) as [C D]. split; [auto|]. intros e X. apply in_app_or in X. destruct X; eauto.
Qed.
Lemma store_stays : forall l w, calm w -> no_exit l -> w_store w = Live -> w_store (fst (run l w)) = Live.
Proof.
  induction l as [|a l IH]; intros w C N L; [exact L|]. rewrite run_cons. cbn [fst].
  assert (A : a <> Exit) by (intros ->; apply N; left; reflexivity).
  apply IH; [apply calm_act; auto|intros X; apply N; right; exact X|].
  destruct a as [t|t k| |]; cbn [act].
  - destruct (w_pcs w t); exact L.
  - unfold thread_step. destruct (w_pcs w t); try exact L.
    + destruct (w_session w); exact L.
    + destruct (w_mutex w); exact L.
    + destruct (w_session w); exact L.
    + unfold open_session, make_store. rewrite L. destruct k; cbn; rewrite ?L; auto.
    + destruct (w_once w); exact L.
    + destruct (w_session w); exact L.
    + destruct (w_ctxs w i); exact L.
    + rewrite L. destruct (w_clients w i); exact L.
  - congruence.
  - unfold exit_step. rewrite (c_exit w C). exact L.
Qed.
Lemma refused_after_exit : forall l l2, no_exit l -> all_idle (fst (run l start)) -> w_store (fst (run l start)) = Live ->
  let w := fst (run (l ++ Exit :: repeat ExitStep 8) start) in
  w_bad (fst (run l2 w)) = false /\ (forall i, w_ctxs (fst (run l2 w)) i = false) /\ (forall e, In e (snd (run l2 w)) -> exists t, e = Refused t).
Proof.
  intros l l2 N I L. destruct (exit_quiet l N I) as (A & B & C). cbv zeta.
  assert (X : closed (fst (run (l ++ Exit :: repeat ExitStep 8) start))).
  { destruct B as (B1 & B2 & B3 & B4 & B5 & B6). constructor; auto.
    - destruct B5 as [B5|B5]; [auto|]. exfalso. revert B5. rewrite run_app, run_cons. cbn [fst act].
      pose proof (calm_run l start calm_start N) as K. rewrite (c_exit _ K). cbn [fst].
      revert L. generalize (fst (run l start)) as w. clear. intros w L.
      assert (G : forall n w, w_store w <> Absent -> w_store (fst (run (repeat ExitStep n) w)) <> Absent).
      { induction n as [|n IH]; intros v V; [exact V|]. cbn [repeat]. rewrite run_cons. cbn [fst act]. apply IH.
        unfold exit_step. destruct (w_exit v); try exact V; try (cbn; discriminate).
        - destruct (w_handlers v) as [|[|] ?]; exact V.
        - destruct (w_session v); [|exact V]. destruct (w_store v) eqn:E; cbn; rewrite ?E; try exact V; try discriminate.
          destruct (existsb _ _); cbn; rewrite E; discriminate.
        - destruct (w_users v); [cbn; discriminate|exact V]. }
      apply G. cbn. congruence.
    - intros t. rewrite run_app, run_cons. cbn [fst act].
      pose proof (calm_run l start calm_start N) as K. rewrite (c_exit _ K). cbn [fst].
      rewrite exit_steps_idle; [exact Logic.I|]. exact I. }
  destruct (closed_run l2 _ X) as [D E]. split; [apply D|]. split; [apply D|apply E].
Qed.

(** What goes wrong when threads are in calls. *)
Definition first_call (t : nat) : list action := Begin t :: repeat (Step t Succeeds) 11.
Lemma stale_session : exists l, In (Got 1 0) (snd (run l start)) /\ w_bad (fst (run l start)) = false /\
  w_bad (fst (run (l ++ [Step 1 Succeeds]) start)) = true.
Proof.
  exists (first_call 0 ++ [Begin 1; Step 1 Succeeds; Exit; ExitStep; ExitStep]). vm_compute. auto 20.
Qed.
Lemma stale_store : exists l, w_pcs (fst (run l start)) 1 = U2 0 /\ w_store (fst (run l start)) = Destroyed /\ w_bad (fst (run l start)) = false /\
  w_bad (fst (run (l ++ [Step 1 Succeeds]) start)) = true.
Proof.
  exists (first_call 0 ++ [Begin 1; Step 1 Succeeds; Step 1 Succeeds; Exit] ++ repeat ExitStep 6). vm_compute. auto 20.
Qed.
Lemma session_left : exists l, let w := fst (run l start) in
  all_idle w /\ w_exit w = XDone /\ w_bad w = false /\ w_session w = Some 1%nat /\ w_ctxs w 1 = true.
Proof.
  exists (first_call 0 ++ Exit :: repeat ExitStep 3 ++ first_call 1 ++ repeat ExitStep 5). cbv zeta. split.
  - intros t. do 2 (destruct t as [|t]; [reflexivity|]). reflexivity.
  - vm_compute. auto.
Qed.
Lemma store_closed_first : exists l, let w := fst (run l start) in
  w_exit w = XClose1 /\ w_store w = Shut /\ w_session w <> None.
Proof.
  exists (Begin 0 :: repeat (Step 0 Succeeds) 5 ++ Exit :: repeat ExitStep 4 ++ [Step 0 Succeeds; ExitStep]). vm_compute. repeat split; discriminate.
Qed.
