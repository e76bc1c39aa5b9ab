(** No circle of waiting calls, and no endless call. *)
From Verif Require Import Base M_Slots M_ObjectStore S_ObjectStore P_ObjectStore M_Rights S_Rights P_Rights M_Svp M_Prog
  M_ApiKey M_ApiCipher M_ApiMac M_ApiSvp M_Api S_Api M_World S_World P_Prog P_ApiGuard P_ApiAccount P_Api P_Birth P_WorldReach P_WorldBirth
  S_Safe P_Accounts P_Safe P_Safe2 P_Safe3 P_Safe4 P_Safe5 S_Progress.

(** ** At most one call holds the lock of an object *)
Definition exclusive (ts : list thread) : Prop := forall p i j ti tj, nth_error ts i = Some ti -> nth_error ts j = Some tj ->
  1 <= locks (t_hist ti) p -> 1 <= locks (t_hist tj) p -> i = j.
Lemma locks_cons c r h p : (forall q, c <> CLock q) -> locks (event c r :: h) p <= locks h p.
Proof.
  intros N. destruct c; cbn [event locks]; try destruct r; try lia; try (exfalso; now apply (N p0)).
  pose proof (hit_range Z.eq_dec p0 p). lia.
Qed.
Lemma exclusive_reaches sy : reaches sy -> calm_system sy -> exclusive (s_threads sy).
Proof.
  induction 1 as [|sy k slot u H IH|sy i ch sy' H IH Ru]; intros C.
  - intros p [|i] j ti tj Ti; discriminate.
  - apply calm_started in C. specialize (IH C). intros p a b ta tb Ta Tb La Lb. cbn [s_threads] in *.
    apply nth_app_one in Ta as [Ta|[_ ->]]; [|cbn in La; lia]. apply nth_app_one in Tb as [Tb|[_ ->]]; [|cbn in Lb; lia].
    eapply IH; eauto.
  - unfold run_step in Ru. destruct (nth_error (s_threads sy) i) as [t|] eqn:T; [|discriminate].
    destruct (t_prog t) as [|c k] eqn:P; [discriminate|].
    destruct (serve (s_world sy) i ch c) as [w r| |] eqn:Se; try discriminate. injection Ru as <-.
    pose proof (calm_before _ _ _ _ _ _ T C) as C0. specialize (IH C0). pose proof (safe_reaches _ H C0) as S.
    assert (i < length (s_threads sy))%nat as Li by (apply nth_error_Some; congruence).
    assert (forall p, 1 <= locks (event c r :: t_hist t) p -> locks (t_hist t) p <= 0 ->
            forall j tj, nth_error (s_threads sy) j = Some tj -> j <> i -> locks (t_hist tj) p <= 0) as New.
    { intros p L1 L2 j tj Tj Nj. destruct (Z_le_gt_dec (locks (t_hist tj) p) 0) as [|Lj]; [assumption|exfalso].
      destruct c; try (match type of L1 with context [event ?c ?r] => pose proof (locks_cons c r (t_hist t) p ltac:(discriminate)); lia end).
      cbn [event locks] in L1. unfold hit in L1. destruct (Z.eq_dec p0 p) as [->|]; [|lia].
      cbn [serve] in Se. destruct (w_heap (s_world sy) p); [|discriminate].
      destruct (locked_by_other (s_world sy) p i) eqn:Ol; [discriminate|].
      assert (locked_by_other (s_world sy) p i = true); [|congruence].
      pose proof (sf_locks _ _ S p j) as E. rewrite Tj in E. clear -E Lj Nj. unfold locked_by_other.
      assert (1 <= lock_count p j (w_mutex (s_world sy))) as L by lia. clear E Lj.
      induction (w_mutex (s_world sy)) as [|e l IH]; cbn in L |- *; [lia|].
      destruct (fst e =? p); cbn in *; [|now apply IH]. destruct (Nat.eqb (snd e) j) eqn:Ee.
      - apply Nat.eqb_eq in Ee as ->. apply Nat.eqb_neq in Nj. now rewrite Nj.
      - rewrite IH by exact L. apply orb_true_r. }
    intros p a b ta tb Ta Tb La Lb. cbn [s_threads] in *.
    destruct (Nat.eq_dec a i) as [->|Na], (Nat.eq_dec b i) as [->|Nb]; [reflexivity|..].
    + rewrite nth_error_update_eq in Ta by exact Li. injection Ta as <-. cbn [t_hist] in La.
      rewrite nth_error_update_neq in Tb by congruence.
      destruct (Z_le_gt_dec (locks (t_hist t) p) 0) as [L|L]; [specialize (New p La L b tb Tb Nb); lia|].
      apply (IH p i b t tb); auto; lia.
    + rewrite nth_error_update_eq in Tb by exact Li. injection Tb as <-. cbn [t_hist] in Lb.
      rewrite nth_error_update_neq in Ta by congruence.
      destruct (Z_le_gt_dec (locks (t_hist t) p) 0) as [L|L]; [specialize (New p Lb L a ta Ta Na); lia|].
      apply (IH p a i ta t); auto; lia.
    + rewrite nth_error_update_neq in Ta, Tb by congruence. eapply IH; eauto.
Qed.

(** ** Who waits for whom *)
Section Order.
Variables (ord : Z -> nat) (sy : system).
Hypotheses (R : reaches sy) (C : calm_system sy) (O : buffers_in_order ord sy).
Notation w := (s_world sy).
Notation ts := (s_threads sy).
Let S : safe w ts := safe_reaches _ R C.
Lemma one_name i j ti tj s x s' x' p : nth_error ts i = Some ti -> nth_error ts j = Some tj ->
  1 <= refs (t_hist ti) s x p -> 1 <= refs (t_hist tj) s' x' p -> s = s'.
Proof.
  intros Ti Tj Hi Hj. destruct (held_stands _ _ S _ _ _ _ _ Ti Hi) as (n&Hn&_). destruct (held_stands _ _ S _ _ _ _ _ Tj Hj) as (m&Hm&_).
  refine (proj1 (m_handles _ _ (sf_mem _ _ S) s x s' x' p _ _)); eapply stands_belongs; try exact (sf_mem _ _ S);
    [now exists (t_user ti), n|now exists (t_user tj), m].
Qed.
Lemma user_unfinished i t s x p : nth_error ts i = Some t -> 1 <= refs (t_hist t) s x p -> exists c k, t_prog t = Do c k.
Proof.
  intros T H. destruct (t_prog t) as [st|c k] eqn:P; [|eauto]. exfalso. destruct (reaches_paths sy R) as [_ On].
  destruct (final_state (t_call t) (t_slot t) (t_user t) (t_hist t) st) as [(Q&_) _]; [|exact (C _ _ T)|rewrite Q in H; lia].
  unfold returns. pose proof (On _ _ T) as G. unfold on_path in G. rewrite P in G. exact G.
Qed.
(** How far in the order of waiting a call stands. *)
Inductive stage (t : thread) : Z -> Prop :=
| removing s x v k : t_prog t = Do (CRemove s x v) k -> stage t (2 * rank s)
| locking_ s x p k : t_prog t = Do (CLock p) k -> 1 <= refs (t_hist t) s x p ->
    (forall s' x' p', 1 <= refs (t_hist t) s' x' p' -> rank s' < rank s \/ p' = p \/ (rank s = 3 /\ rank s' = 3)) ->
    stage t (if rank s =? 3 then 7 + Z.of_nat (ord p) else 2 * rank s + 1).
Lemma rank_range s : 0 <= rank s <= 3.
Proof. destruct s; cbn; lia. Qed.
Definition limit (t : thread) : Z := match t_prog t with Do (CLock p) _ => 7 + Z.of_nat (ord p) | _ => 7 end.
Lemma stage_limit t n : stage t n -> n <= limit t.
Proof.
  intros [s x v k E|s x p k E _ _]; unfold limit; rewrite E; pose proof (rank_range s); [lia|]. destruct (rank s =? 3); lia.
Qed.
Lemma stage_of i t ch : nth_error ts i = Some t -> run_step sy i ch = RunBlocked -> exists n, stage t n.
Proof.
  intros T B. unfold run_step in B. rewrite T in B. destruct (t_prog t) as [|c k] eqn:P; [discriminate|].
  destruct (reaches_paths sy R) as [_ On].
  assert (issues (t_call t) (t_slot t) (t_user t) c (t_hist t)) as Is.
  { exists k. rewrite <- P. exact (On _ _ T). }
  pose proof (wait_steps _ _ _ _ _ Is (C _ _ T)) as Wt.
  pose proof (P_Safe5.goes_on sy i t ch R C S T c k P) as Go.
  destruct (serve w i ch c) as [| |] eqn:Se; try discriminate. clear B.
  destruct Go as (j&tj&_&D). destruct c; try contradiction; cbn [waits] in Wt.
  - eexists. eapply removing. exact P.
  - destruct Wt as (s&x&H1&H2). eexists. eapply locking_; eauto.
Qed.
(** A call that waits waits for a call that is not finished and that, if it waits too, stands
    further on. *)
Lemma waits_for i t ch n : nth_error ts i = Some t -> run_step sy i ch = RunBlocked -> stage t n ->
  exists j tj c k, nth_error ts j = Some tj /\ t_prog tj = Do c k /\
    forall ch', run_step sy j ch' = RunBlocked -> exists m, stage tj m /\ n < m.
Proof.
  intros T B St. pose proof B as B0. unfold run_step in B. rewrite T in B. destruct (t_prog t) as [|c k] eqn:P; [discriminate|].
  pose proof (P_Safe5.goes_on sy i t ch R C S T c k P) as Go.
  destruct (serve w i ch c) as [| |] eqn:Se; try discriminate. clear B.
  destruct Go as (j&tj&Tj&D). destruct St as [s x v k' E|s x p k' E Hr Hall]; rewrite P in E; injection E as -> _.
  - destruct D as [p D]. destruct (user_unfinished _ _ _ _ _ Tj D) as (c'&k''&P'). exists j, tj, c', k''.
    split; [exact Tj|]. split; [exact P'|]. intros ch' B'. destruct (stage_of _ _ _ Tj B') as [m Sm]. exists m. split; [exact Sm|].
    destruct Sm as [s' x' v' k3 E|s' x' p' k3 E Hr' Hall'].
    + destruct (reaches_paths sy R) as [_ On].
      assert (issues (t_call tj) (t_slot tj) (t_user tj) (CRemove s' x' v') (t_hist tj)) as Is.
      { exists k3. rewrite <- E. exact (On _ _ Tj). }
      pose proof (wait_steps _ _ _ _ _ Is (C _ _ Tj)) as Wt. cbn [waits] in Wt. specialize (Wt _ _ _ D). lia.
    + pose proof (rank_range s). pose proof (rank_range s').
      destruct (Hall' _ _ _ D) as [L|[Ep|[L1 L2] ] ].
      * destruct (rank s' =? 3) eqn:E3; [|lia]. lia.
      * subst p'. assert (s = s') as -> by exact (one_name j j tj tj s x s' x' p Tj Tj D Hr'). destruct (rank s' =? 3) eqn:E3; lia.
      * rewrite L1. cbn. lia.
  - destruct D as [Nj Lj]. pose proof (td_locks _ (sf_tidy _ _ S _ _ Tj) p) as Tl.
    destruct (refs_on_named (t_hist tj) p) as (s2&x2&H2); [lia|].
    assert (s2 = s) as -> by exact (one_name j i tj t s2 x2 s x p Tj T H2 Hr).
    destruct (user_unfinished _ _ _ _ _ Tj H2) as (c'&k''&P'). exists j, tj, c', k''.
    split; [exact Tj|]. split; [exact P'|]. intros ch' B'. destruct (stage_of _ _ _ Tj B') as [m Sm]. exists m. split; [exact Sm|].
    pose proof (rank_range s).
    destruct Sm as [s' x' v' k3 E|s' x' p' k3 E Hr' Hall']; pose proof (rank_range s').
    + destruct (reaches_paths sy R) as [_ On].
      assert (issues (t_call tj) (t_slot tj) (t_user tj) (CRemove s' x' v') (t_hist tj)) as Is.
      { exists k3. rewrite <- E. exact (On _ _ Tj). }
      pose proof (wait_steps _ _ _ _ _ Is (C _ _ Tj)) as Wt. cbn [waits] in Wt. specialize (Wt _ _ _ H2).
      destruct (rank s =? 3) eqn:E3; lia.
    + destruct (Z.eq_dec p' p) as [->|Np].
      { exfalso. unfold run_step in B'. rewrite Tj, E in B'.
        pose proof (P_Safe5.goes_on sy j tj ch' R C S Tj _ _ E) as Go'.
        destruct (serve w j ch' (CLock p)) as [| |] eqn:Se'; try discriminate.
        destruct Go' as (a&ta&Ta&Na&La). apply Na. exact (exclusive_reaches sy R C p a j ta tj Ta Tj La Lj). }
      destruct (Hall' _ _ _ H2) as [L|[Ep|[L1 L2] ] ]; [|congruence|].
      * destruct (rank s =? 3) eqn:E3, (rank s' =? 3) eqn:E4; lia.
      * rewrite L1, L2. cbn. assert (exists c0, s = SSvps c0) as [c0 ->] by (destruct s; cbn in L2; try lia; eauto).
        pose proof (O j tj p p' c0 x2 k3 Tj E H2 (fun e => Np (eq_sym e))). lia.
Qed.
Lemma blocked_always i ch ch' : run_step sy i ch = RunBlocked -> run_step sy i ch' = RunBlocked.
Proof.
  intros B. pose proof B as B0. unfold run_step in *. destruct (nth_error ts i) as [t|] eqn:T; [|discriminate].
  destruct (t_prog t) as [|c k] eqn:P; [discriminate|].
  pose proof (P_Safe5.goes_on sy i t ch R C S T c k P) as Go.
  destruct (serve w i ch c) as [| |] eqn:Se; try discriminate. destruct Go as (j&tj&_&D).
  destruct c; try contradiction; cbn [serve] in *; now rewrite Se.
Qed.
Lemma limits (l0 : list thread) : exists B, forall i t, nth_error l0 i = Some t -> limit t <= B.
Proof.
  clear. induction l0 as [|t l [B IH] ]; [exists 0; intros [|i] t; discriminate|]. exists (Z.max (limit t) B).
  intros [|i] t' H; cbn in H; [injection H as <-; lia|]. apply IH in H. lia.
Qed.
Lemma someone_goes i t c k : nth_error ts i = Some t -> t_prog t = Do c k -> S_Progress.goes_on sy.
Proof.
  destruct (limits ts) as [B HB].
  assert (forall d n i t c k, (Z.to_nat (B - n) <= d)%nat -> nth_error ts i = Some t -> t_prog t = Do c k ->
            (forall ch, run_step sy i ch = RunBlocked -> exists m, stage t m /\ n < m) -> S_Progress.goes_on sy) as Main.
  { induction d as [|d IH]; intros n i0 t0 c0 k0 Hd T P St.
    - exists i0. intros ch. destruct (run_step sy i0 ch) as [sy'| | |] eqn:Ru; [eauto|..].
      + exfalso. destruct (St _ Ru) as (m&Sm&Lm). apply stage_limit in Sm. apply HB in T. lia.
      + exfalso. unfold run_step in Ru. rewrite T, P in Ru. destruct (serve w i0 ch c0); discriminate.
      + exfalso. exact (never_crashes _ _ _ R C Ru).
    - destruct (run_step sy i0 (MkChoice 0 None false (MkAns OK 0 []))) as [sy'| | |] eqn:Ru.
      + exists i0. intros ch. destruct (run_step sy i0 ch) as [sy2| | |] eqn:Ru2; [eauto|..].
        * rewrite (blocked_always _ _ _ Ru2) in Ru. discriminate.
        * exfalso. unfold run_step in Ru2. rewrite T, P in Ru2. destruct (serve w i0 ch c0); discriminate.
        * exfalso. exact (never_crashes _ _ _ R C Ru2).
      + destruct (St _ Ru) as (m&Sm&Lm). destruct (waits_for _ _ _ _ T Ru Sm) as (j&tj&c1&k1&Tj&Pj&Hj).
        pose proof (stage_limit _ _ Sm). pose proof (HB _ _ T).
        eapply (IH m j tj c1 k1); eauto. lia.
      + exfalso. unfold run_step in Ru. rewrite T, P in Ru. destruct (serve w i0 _ c0); discriminate.
      + exfalso. exact (never_crashes _ _ _ R C Ru). }
  intros T P. eapply (Main _ (-1) i t c k); eauto. intros ch Bk. destruct (stage_of _ _ _ T Bk) as [m Sm]. exists m.
  split; [exact Sm|]. destruct Sm as [s x v k0 E|s x p k0 E _ _]; pose proof (rank_range s); [lia|]. destruct (rank s =? 3); lia.
Qed.
End Order.

Lemma at_rest_dec sy : at_rest sy \/ exists i t c k, nth_error (s_threads sy) i = Some t /\ t_prog t = Do c k.
Proof.
  unfold at_rest. induction (s_threads sy) as [|t l [IH|(i&t'&c&k&T&P)] ].
  - left. intros [|i] t; discriminate.
  - destruct (t_prog t) as [s|c k] eqn:P; [left|right].
    + intros [|i] t' H; [injection H as <-; eauto|eauto].
    + now exists 0%nat, t, c, k.
  - right. now exists (Datatypes.S i), t', c, k.
Qed.
Lemma some_call_goes_on ord sy : reaches sy -> calm_system sy -> buffers_in_order ord sy -> ~ at_rest sy -> goes_on sy.
Proof.
  intros R C O N. destruct (at_rest_dec sy) as [Q|(i&t&c&k&T&P)]; [contradiction|]. eapply someone_goes; eauto.
Qed.

(** ** Every call ends *)
Definition shorter (q p : prog status) : Prop := match p with Ret _ => False | Do c k => exists r, q = k r end.
Lemma shorter_wf p : Acc shorter p.
Proof.
  induction p as [a|c k IH]; constructor; intros q H; [destruct H|]. destruct H as [r ->]. apply IH.
Qed.
Definition some_shorter (l' l : list (prog status)) : Prop :=
  exists i p p', nth_error l i = Some p /\ shorter p' p /\ l' = update i p' l.
Lemma some_shorter_wf l : Acc some_shorter l.
Proof.
  induction l as [|p l IH].
  - constructor. intros l' ([|i]&p&p'&H&_); discriminate.
  - revert l IH. induction (shorter_wf p) as [p _ IHp]. intros l IHl. induction IHl as [l Hl IHl].
    constructor. intros l' ([|i]&q&q'&H&Hs&->); cbn in H.
    + injection H as ->. cbn. apply IHp; [exact Hs|]. constructor. exact Hl.
    + cbn. apply IHl. exists i, q, q'. auto.
Qed.
Lemma map_update {A B} (f : A -> B) i a l : map f (update i a l) = update i (f a) (map f l).
Proof. revert i. induction l as [|b l IH]; intros [|i]; cbn; congruence. Qed.
Lemma step_shorter sy i ch sy' : run_step sy i ch = RunTo sy' ->
  some_shorter (map t_prog (s_threads sy')) (map t_prog (s_threads sy)).
Proof.
  unfold run_step. destruct (nth_error (s_threads sy) i) as [t|] eqn:T; [|discriminate].
  destruct (t_prog t) as [|c k] eqn:P; [discriminate|].
  destruct (serve (s_world sy) i ch c) as [w r| |]; try discriminate. intros E. injection E as <-.
  exists i, (Do c k), (k r). cbn [s_threads]. rewrite map_update. split; [|split; [now exists r|reflexivity]].
  rewrite <- P. now apply map_nth_error.
Qed.
(** There is no endless run without new calls. *)
Lemma no_endless_run (f : nat -> system) : ~ forall n, exists i ch, run_step (f n) i ch = RunTo (f (Datatypes.S n)).
Proof.
  intros H. set (g := fun n => map t_prog (s_threads (f n))).
  assert (forall l, Acc some_shorter l -> forall n, g n = l -> False) as Main.
  { induction 1 as [l _ IH]. intros n <-. destruct (H n) as (i&ch&E). apply step_shorter in E.
    exact (IH _ E (Datatypes.S n) eq_refl). }
  exact (Main _ (some_shorter_wf _) 0%nat eq_refl).
Qed.
Lemma all_calls_return ord sy : reaches sy -> calm_system sy -> buffers_in_order ord sy ->
  all_return (fun sy => calm_system sy /\ buffers_in_order ord sy) sy.
Proof.
  assert (forall l, Acc some_shorter l -> forall sy, map t_prog (s_threads sy) = l -> reaches sy -> calm_system sy ->
           buffers_in_order ord sy -> all_return (fun sy => calm_system sy /\ buffers_in_order ord sy) sy) as Main.
  { induction 1 as [l _ IH]. intros sy0 <- R C O. destruct (at_rest_dec sy0) as [Q|(i&t&c&k&T&P)]; [now apply returned|].
    apply later; [eapply someone_goes; eauto|]. intros j ch sy' Ru [C' O']. 
    eapply (IH _ (step_shorter _ _ _ _ Ru) sy' eq_refl); auto. eapply by_run; eauto. }
  intros. eapply Main; eauto using some_shorter_wf.
Qed.
