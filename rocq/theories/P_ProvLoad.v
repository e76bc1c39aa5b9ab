From Verif Require Import Base M_ProvLoad S_ProvLoad.

Definition place_of w t := t_place (w_threads w t).
Lemma upd_same f t x : upd f t x t = x. Proof. unfold upd. rewrite Nat.eqb_refl. reflexivity. Qed.
Lemma upd_other f t x u : u <> t -> upd f t x u = f u. Proof. intros N. unfold upd. rewrite (proj2 (Nat.eqb_neq u t) N). reflexivity. Qed.
Lemma run_app l1 l2 w : run (l1 ++ l2) w = run l2 (run l1 w).
Proof. revert w. induction l1 as [|[t ok] l1 IH]; intros w; [reflexivity|]. cbn. apply IH. Qed.

(** Whatever fails: one context at most. *)
Definition One (w : world) : Prop :=
  ((w_made w = 0%nat /\ w_ctx w = None) \/ (w_made w = 1%nat /\ w_ctx w = Some 0%nat)) /\
  (forall t a, In a (t_answers (w_threads w t)) -> a_ctx a = None \/ a_ctx a = Some 0%nat) /\
  (forall t, place_of w t = Load1 \/ place_of w t = Load2 -> w_once w = Busy t /\ w_made w = 0%nat) /\
  (forall t, place_of w t = Load3 \/ place_of w t = Load4 \/ place_of w t = Load5 \/ place_of w t = Load6 -> w_once w = Busy t) /\
  (w_once w = NotRun -> w_made w = 0%nat).
Lemma one_start todo : One (start todo).
Proof. unfold One, place_of. cbn. repeat split; auto; try contradiction; intros; destruct H as [?|?]; try discriminate; repeat destruct H as [?|H]; discriminate. Qed.
Ltac split_threads t := 
  repeat match goal with
  | |- forall u, _ => let u := fresh "u" in intros u; destruct (Nat.eqb_spec u t) as [->|]; [rewrite ?Nat.eqb_refl|]
  end.
Ltac fin := try reflexivity; auto; try discriminate; try congruence; try (let H := fresh in intros H; repeat destruct H as [H|H]; discriminate).
Lemma one_step w t ok : One w -> One (step t ok w).
Proof.
  intros (A & B & C & D & E). unfold step. pose proof (C t) as Ct. pose proof (D t) as Dt. unfold place_of in *.
  assert (KEEP : forall p x ans w', (forall u, w_threads w' u = upd (w_threads w) t (MkThread p x ans) u) ->
    (forall a, In a ans -> a_ctx a = None \/ a_ctx a = Some 0%nat) ->
    ((w_made w' = 0%nat /\ w_ctx w' = None) \/ (w_made w' = 1%nat /\ w_ctx w' = Some 0%nat)) ->
    (p = Load1 \/ p = Load2 -> w_once w' = Busy t /\ w_made w' = 0%nat) ->
    (p = Load3 \/ p = Load4 \/ p = Load5 \/ p = Load6 -> w_once w' = Busy t) ->
    (w_once w' = NotRun -> w_made w' = 0%nat) ->
    (w_once w' = w_once w /\ w_made w' = w_made w \/ w_once w = Busy t \/ w_once w = NotRun) -> One w').
  { intros p x ans w' TH BB AA CC DD EE SAME. unfold One, place_of. split; [exact AA|]. split; [|split; [|split; [|exact EE]]].
    - intros u a. rewrite TH. unfold upd. destruct (Nat.eqb_spec u t) as [->|]; [apply BB|apply B].
    - intros u. rewrite TH. unfold upd. destruct (Nat.eqb_spec u t) as [->|N]; [exact CC|]. intros P. destruct (C u P) as [Q1 Q2].
      destruct SAME as [[S1 S2]|[S1|S1]]; [rewrite S1, S2; auto|congruence|congruence].
    - intros u. rewrite TH. unfold upd. destruct (Nat.eqb_spec u t) as [->|N]; [exact DD|]. intros P. specialize (D u P).
      destruct SAME as [[S1 S2]|[S1|S1]]; [rewrite S1; auto|congruence|congruence]. }
  assert (ANS : forall a, In a (t_answers (w_threads w t)) -> a_ctx a = None \/ a_ctx a = Some 0%nat) by (intros a; apply B).
  destruct (t_place (w_threads w t)) eqn:P.
  - destruct (t_todo (w_threads w t)) as [|n]; [unfold One, place_of; auto|]. eapply KEEP; cbn; [reflexivity|..]; fin.
  - destruct (w_once w) eqn:O.
    + eapply KEEP; cbn; [reflexivity|..]; fin.
    + unfold One, place_of. rewrite O. auto.
    + eapply KEEP; cbn; [reflexivity|..]; fin.
  - destruct (Ct (or_introl eq_refl)) as [O MA]. unfold locking. destruct (lock t (w_mutex w)); [|unfold One, place_of; auto].
    eapply KEEP; cbn; [reflexivity|..]; fin.
  - destruct (Ct (or_intror eq_refl)) as [O MA]. destruct ok.
    + eapply KEEP; cbn; [reflexivity|..]; rewrite ?MA; fin.
    + eapply KEEP; cbn; [reflexivity|..]; fin.
  - pose proof (Dt ltac:(tauto)) as O. destruct ok; (eapply KEEP; cbn; [reflexivity|..]; fin).
  - pose proof (Dt ltac:(tauto)) as O. destruct ok; (eapply KEEP; cbn; [reflexivity|..]; fin).
  - pose proof (Dt ltac:(tauto)) as O. destruct ok; (eapply KEEP; cbn; [reflexivity|..]; fin).
  - pose proof (Dt ltac:(tauto)) as O. eapply KEEP; cbn; [reflexivity|..]; fin.
  - unfold locking. destruct (lock t (w_mutex w)); [|unfold One, place_of; auto]. eapply KEEP; cbn; [reflexivity|..]; fin.
  - eapply KEEP; cbn; [reflexivity|..]; fin. intros a [<-|H]; [cbn; destruct A as [[_ A]|[_ A]]; auto|auto].
Qed.
Theorem one_context : forall todo l, (w_made (run l (start todo)) <= 1)%nat /\
  forall t u a b x y, obtained (run l (start todo)) t a -> obtained (run l (start todo)) u b -> a_ctx a = Some x -> a_ctx b = Some y -> x = y.
Proof.
  intros todo l. assert (O : One (run l (start todo))).
  { generalize (one_start todo). generalize (start todo). induction l as [|[t ok] l IH]; intros w O; [exact O|]. cbn. apply IH, one_step, O. }
  destruct O as (A & B & _). split; [destruct A as [[-> _]|[-> _]]; lia|]. intros t u a b x y X Y P Q. destruct (B _ _ X), (B _ _ Y); congruence.
Qed.

(** Nothing fails *)
Inductive stage (w : world) : Prop :=
| Before : w_once w = NotRun -> w_mutex w = None -> w_made w = 0%nat -> (forall t, place_of w t = Idle \/ place_of w t = Once) -> (forall t, t_answers (w_threads w t) = []) -> stage w
| During u : w_once w = Busy u -> (forall t, t <> u -> place_of w t = Idle \/ place_of w t = Once) -> (forall t, t_answers (w_threads w t) = []) ->
    ((place_of w u = Load1 /\ w_mutex w = None /\ w_made w = 0%nat) \/ (place_of w u = Load2 /\ w_mutex w = Some (u, 1%nat) /\ w_made w = 0%nat) \/
     ((place_of w u = Load3 \/ place_of w u = Load4 \/ place_of w u = Load5) /\ w_mutex w = Some (u, 1%nat) /\ w_ctx w = Some 0%nat) \/
     (place_of w u = Load6 /\ w_mutex w = Some (u, 1%nat) /\ w_ctx w = Some 0%nat /\ w_loaded w = true)) -> stage w
| After : w_once w = Over -> w_ctx w = Some 0%nat -> w_loaded w = true ->
    (forall t, place_of w t = Idle \/ place_of w t = Once \/ place_of w t = Locking \/ (place_of w t = Reading /\ w_mutex w = Some (t, 1%nat))) ->
    (w_mutex w = None \/ exists u, w_mutex w = Some (u, 1%nat) /\ place_of w u = Reading) ->
    (forall t a, In a (t_answers (w_threads w t)) -> a = Got (Some 0%nat) true) -> stage w.
Lemma stage_start todo : stage (start todo).
Proof. apply Before; cbn; auto. Qed.
Ltac th u t := unfold place_of; cbn; unfold upd; destruct (Nat.eqb_spec u t) as [->|]; cbn; auto.
Ltac me := unfold place_of; cbn; rewrite upd_same; cbn; auto.
Lemma stage_step w t : stage w -> stage (step t true w).
Proof.
  intros S. destruct S as [O M K P A|u O P A U|O X L P MU A].
  - unfold step. fold (place_of w t). destruct (P t) as [Q|Q]; rewrite Q.
    + destruct (t_todo (w_threads w t)); [apply Before; auto|]. apply Before; cbn; auto; intros u; th u t; apply P.
    + rewrite O. apply (During _ t); cbn; auto.
      * intros u N. th u t; [contradiction|apply P].
      * intros u. th u t.
      * left. split; [|auto]. me.
  - unfold step. fold (place_of w t). destruct (Nat.eq_dec t u) as [->|N].
    + destruct U as [(Q & M & K)|[(Q & M & K)|[([Q|[Q|Q]] & M & K)|(Q & M & K & LD)]]]; rewrite Q.
      * unfold locking. rewrite M. cbn [lock]. apply (During _ u); cbn; auto.
        -- intros v N. th v u; [contradiction|apply P; auto].
        -- intros v. th v u.
        -- right; left. split; [me|auto].
      * apply (During _ u); cbn; auto.
        -- intros v N. th v u; [contradiction|apply P; auto].
        -- intros v. th v u.
        -- right; right; left. split; [left; me|]. rewrite K. auto.
      * apply (During _ u); cbn; auto.
        -- intros v N. th v u; [contradiction|apply P; auto].
        -- intros v. th v u.
        -- right; right; left. split; [right; left; me|auto].
      * apply (During _ u); cbn; auto.
        -- intros v N. th v u; [contradiction|apply P; auto].
        -- intros v. th v u.
        -- right; right; left. split; [right; right; me|auto].
      * apply (During _ u); cbn; auto.
        -- intros v N. th v u; [contradiction|apply P; auto].
        -- intros v. th v u.
        -- right; right; right. split; [me|auto].
      * rewrite M. cbn [unlock]. rewrite Nat.eqb_refl. apply After; cbn; auto.
        -- intros v. th v u. destruct (P v); auto.
        -- intros v a. unfold upd. destruct (Nat.eqb_spec v u) as [->|]; cbn; rewrite A; contradiction.
    + destruct (P t N) as [Q|Q]; rewrite Q.
      * assert (US : forall x n, w_threads (MkWorld (upd (w_threads w) t (MkThread x n (t_answers (w_threads w t)))) (w_once w) (w_mutex w) (w_ctx w) (w_loaded w) (w_made w)) u = w_threads w u)
          by (intros; cbn; apply upd_other; auto).
        destruct (t_todo (w_threads w t)) as [|n]; [apply (During _ u); auto|]. apply (During _ u); unfold place_of in *; rewrite ?US; auto.
        -- intros v NV. th v t; apply (P v NV).
        -- intros v. th v t.
      * rewrite O. apply (During _ u); auto.
  - unfold step. fold (place_of w t). pose proof (P t) as PT. destruct PT as [Q|[Q|[Q|[Q M]]]]; rewrite Q.
    + destruct (t_todo (w_threads w t)) as [|n]; [apply After; auto|]. apply After; cbn; auto.
      * intros v. th v t; apply (P v).
      * destruct MU as [MU|(v & MU & R)]; [auto|]. right. exists v. split; [exact MU|]. th v t. unfold place_of in *. congruence.
      * intros v a. unfold upd. destruct (Nat.eqb_spec v t) as [->|]; cbn; apply A.
    + rewrite O. apply After; cbn; auto.
      * intros v. th v t; apply (P v).
      * destruct MU as [MU|(v & MU & R)]; [auto|]. right. exists v. split; [exact MU|]. th v t. unfold place_of in *. congruence.
      * intros v a. unfold upd. destruct (Nat.eqb_spec v t) as [->|]; cbn; apply A.
    + unfold locking. destruct MU as [MU|(v & MU & R)]; rewrite MU; cbn [lock].
      * apply After; cbn; auto.
        -- intros v. th v t; try (right; right; right; split; reflexivity). destruct (P v) as [H|[H|[H|[H1 H2]]]]; auto. congruence.
        -- right. exists t. split; [reflexivity|]. me.
        -- intros v a. unfold upd. destruct (Nat.eqb_spec v t) as [->|]; cbn; apply A.
      * destruct (Nat.eqb_spec v t) as [->|NV]; [congruence|]. apply After; auto. right. eauto.
    + rewrite M. cbn [unlock]. rewrite Nat.eqb_refl. apply After; cbn; auto.
      * intros v. th v t. destruct (P v) as [H|[H|[H|[H1 H2]]]]; auto. congruence.
      * intros v a. unfold upd. destruct (Nat.eqb_spec v t) as [->|]; cbn; [|apply A]. intros [<-|H]; [congruence|apply (A t a H)].
Qed.
Lemma stage_run l : forall w, works l -> stage w -> stage (run l w).
Proof. induction l as [|[t ok] l IH]; intros w W S; [exact S|]. inversion W; subst. cbn in *. subst ok. apply IH; auto. apply stage_step, S. Qed.
Theorem all_usable : forall todo l t a, works l -> obtained (run l (start todo)) t a -> a = Got (Some 0%nat) true.
Proof.
  intros todo l t a W H. pose proof (stage_run l _ W (stage_start todo)) as S. unfold obtained in H. destruct S as [_ _ _ _ A|u _ _ A _|_ _ _ _ _ A]; [rewrite A in H; contradiction..|exact (A t a H)].
Qed.

(** From every stage, a waiting thread can still be answered. *)
Definition leads (w w' : world) : Prop := exists l, works l /\ run l w = w'.
Lemma leads_refl w : leads w w. Proof. exists []. split; [constructor|reflexivity]. Qed.
Lemma leads_step w t w' : leads (step t true w) w' -> leads w w'.
Proof. intros (l & W & R). exists ((t, true) :: l). split; [constructor; auto|exact R]. Qed.
Lemma leads_trans a b c : leads a b -> leads b c -> leads a c.
Proof. intros (l1 & W1 & R1) (l2 & W2 & R2). exists (l1 ++ l2). split; [apply Forall_app; auto|]. rewrite run_app, R1. exact R2. Qed.
Lemma idle_go w t n : place_of w t = Idle -> t_todo (w_threads w t) = S n -> place_of (step t true w) t = Once /\ t_answers (w_threads (step t true w) t) = t_answers (w_threads w t) /\ w_once (step t true w) = w_once w.
Proof. intros P T. unfold step, place_of in *. rewrite P, T. cbn. rewrite upd_same. auto. Qed.
(** The loader gets through; the others stay where they are. *)
Lemma load_through w u : stage w -> w_once w = Busy u -> exists w', leads w w' /\ w_once w' = Over /\ (forall t, t <> u -> w_threads w' t = w_threads w t) /\
  place_of w' u = Locking /\ t_answers (w_threads w' u) = t_answers (w_threads w u).
Proof.
  assert (STEP : forall k w, stage w -> w_once w = Busy u -> (match place_of w u with Load6 => 1 | Load5 => 2 | Load4 => 3 | Load3 => 4 | Load2 => 5 | _ => 6 end <= k)%nat ->
    exists w', leads w w' /\ w_once w' = Over /\ (forall t, t <> u -> w_threads w' t = w_threads w t) /\ place_of w' u = Locking /\ t_answers (w_threads w' u) = t_answers (w_threads w u)).
  { clear w. induction k as [|k IH]; intros w S O K; [destruct (place_of w u); lia|]. pose proof (stage_step w u S) as S1.
    assert (NEXT : forall p, w_once (step u true w) = Busy u -> (forall t, t <> u -> w_threads (step u true w) t = w_threads w t) -> place_of (step u true w) u = p ->
       t_answers (w_threads (step u true w) u) = t_answers (w_threads w u) -> (match p with Load6 => 1 | Load5 => 2 | Load4 => 3 | Load3 => 4 | Load2 => 5 | _ => 6 end <= k)%nat ->
       exists w', leads w w' /\ w_once w' = Over /\ (forall t, t <> u -> w_threads w' t = w_threads w t) /\ place_of w' u = Locking /\ t_answers (w_threads w' u) = t_answers (w_threads w u)).
    { intros p O1 TH P1 AN LE. subst p. destruct (IH _ S1 O1 LE) as (w' & A & B & C & D & E). exists w'. split; [apply (leads_step _ u), A|]. split; [exact B|]. split; [|split; [exact D|congruence]].
      intros t N. rewrite C, TH; auto. }
    destruct S as [O' _ _ _ _|v O' P A U|O' _ _ _ _ _]; [congruence| |congruence]. assert (v = u) by congruence. subst v.
    unfold place_of in *. destruct U as [(Q & M & _)|[(Q & M & _)|[([Q|[Q|Q]] & M & _)|(Q & M & _)]]]; rewrite Q in K.
    - apply (NEXT Load2); unfold step, place_of, locking; rewrite ?Q, ?M; cbn; rewrite ?upd_same; auto; try (intros; apply upd_other; assumption); lia.
    - apply (NEXT Load3); unfold step, place_of, locking; rewrite ?Q, ?M; cbn; rewrite ?upd_same; auto; try (intros; apply upd_other; assumption); lia.
    - apply (NEXT Load4); unfold step, place_of, locking; rewrite ?Q, ?M; cbn; rewrite ?upd_same; auto; try (intros; apply upd_other; assumption); lia.
    - apply (NEXT Load5); unfold step, place_of, locking; rewrite ?Q, ?M; cbn; rewrite ?upd_same; auto; try (intros; apply upd_other; assumption); lia.
    - apply (NEXT Load6); unfold step, place_of, locking; rewrite ?Q, ?M; cbn; rewrite ?upd_same; auto; try (intros; apply upd_other; assumption); lia.
    - exists (step u true w). split; [apply (leads_step _ u), leads_refl|]. unfold step, place_of. rewrite Q. cbn. rewrite !upd_same. split; [reflexivity|]. split; [|auto]. intros t N. apply upd_other, N. }
  intros S O. exact (STEP 6%nat w S O ltac:(destruct (place_of w u); lia)).
Qed.
Lemma finish w t : stage w -> w_once w = Over -> place_of w t = Once \/ place_of w t = Locking \/ place_of w t = Reading -> exists w', leads w w' /\ answers w' t = Datatypes.S (answers w t).
Proof.
  assert (READ : forall w, stage w -> w_once w = Over -> place_of w t = Reading -> exists w', leads w w' /\ answers w' t = Datatypes.S (answers w t)).
  { intros v S O P. exists (step t true v). split; [apply (leads_step _ t), leads_refl|]. unfold answers, step, place_of in *. rewrite P. cbn. rewrite upd_same. reflexivity. }
  assert (LOCK0 : forall w, stage w -> w_once w = Over -> place_of w t = Locking -> w_mutex w = None -> exists w', leads w w' /\ answers w' t = Datatypes.S (answers w t)).
  { intros v S O P M. pose proof (stage_step v t S) as S1. assert (E : step t true v = go (set_mutex v (Some (t, 1%nat))) t Reading) by (unfold step, place_of, locking in *; rewrite P, M; reflexivity).
    destruct (READ (step t true v) S1) as (w' & A & B); [rewrite E; exact O|rewrite E; unfold place_of; cbn; rewrite upd_same; reflexivity|]. exists w'. split; [apply (leads_step _ t), A|].
    rewrite B. rewrite E. unfold answers. cbn. rewrite upd_same. reflexivity. }
  assert (LOCK : forall w, stage w -> w_once w = Over -> place_of w t = Locking -> exists w', leads w w' /\ answers w' t = Datatypes.S (answers w t)).
  { intros v S O P. destruct (w_mutex v) as [[x n]|] eqn:M; [|exact (LOCK0 v S O P M)]. assert (SV := S). destruct S as [O' _ _ _ _|? O' _ _ _|O' X L PL MU A]; [congruence..|].
    destruct MU as [MU|(u & MU & R)]; [congruence|]. assert (N : t <> u) by congruence.
    assert (E : w_threads (step u true v) t = w_threads v t /\ w_mutex (step u true v) = None /\ w_once (step u true v) = Over).
    { unfold step. unfold place_of in R. rewrite R. cbn. rewrite MU. cbn. rewrite Nat.eqb_refl. split; [apply upd_other, N|auto]. }
    destruct E as (E1 & E2 & E3). destruct (LOCK0 (step u true v) (stage_step v u SV) E3) as (w' & B & C); [unfold place_of in *; rewrite E1; exact P|exact E2|].
    exists w'. split; [apply (leads_step _ u), B|]. rewrite C. unfold answers. rewrite E1. reflexivity. }
  intros S O [P|[P|P]]; [|apply LOCK; auto|apply READ; auto].
  assert (E : step t true w = go w t Locking) by (unfold step, place_of in *; rewrite P, O; reflexivity).
  destruct (LOCK (step t true w) (stage_step w t S)) as (w' & A & B); [rewrite E; exact O|rewrite E; unfold place_of; cbn; rewrite upd_same; reflexivity|].
  exists w'. split; [apply (leads_step _ t), A|]. rewrite B, E. unfold answers. cbn. rewrite upd_same. reflexivity.
Qed.
Lemma from_once w t : stage w -> place_of w t <> Idle -> exists w', leads w w' /\ answers w' t = Datatypes.S (answers w t).
Proof.
  intros S P.
  assert (BUSY : forall w u, stage w -> place_of w t <> Idle -> w_once w = Busy u -> exists w', leads w w' /\ answers w' t = Datatypes.S (answers w t)).
  { clear w S P. intros w u S P O. destruct (load_through w u S O) as (w1 & L1 & O1 & TH & PU & AN).
    assert (S1 : stage w1) by (destruct L1 as (l & W & <-); apply stage_run; auto).
    assert (PW : place_of w1 t = Once \/ place_of w1 t = Locking \/ place_of w1 t = Reading).
    { destruct (Nat.eq_dec t u) as [->|N]; [auto|]. unfold place_of in *. rewrite (TH t N). destruct S as [O' _ _ _ _|v O' PL _ _|O' _ _ _ _ _]; [congruence| |congruence].
      assert (v = u) by congruence. subst v. destruct (PL t N); [contradiction|auto]. }
    destruct (finish w1 t S1 O1 PW) as (w2 & L2 & B). exists w2. split; [eapply leads_trans; eauto|]. rewrite B. unfold answers. destruct (Nat.eq_dec t u) as [->|N]; [rewrite AN|rewrite (TH t N)]; reflexivity. }
  assert (SW := S). destruct S as [O _ _ PL _|u O _ _ _|O _ _ PL _ _].
  - destruct (PL t) as [Q|Q]; [contradiction|]. assert (E : step t true w = go (set_once w (Busy t)) t Load1) by (unfold step, place_of in *; rewrite Q, O; reflexivity).
    destruct (BUSY (step t true w) t (stage_step w t SW)) as (w' & A & B); [rewrite E; unfold place_of; cbn; rewrite upd_same; discriminate|rewrite E; reflexivity|].
    exists w'. split; [apply (leads_step _ t), A|]. rewrite B, E. unfold answers. cbn. rewrite upd_same. reflexivity.
  - exact (BUSY w u SW P O).
  - apply finish; auto. destruct (PL t) as [Q|[Q|[Q|[Q _]]]]; auto. contradiction.
Qed.
Theorem can_finish : forall todo l t, works l -> waits (run l (start todo)) t ->
  exists l', works l' /\ answers (run l' (run l (start todo))) t = Datatypes.S (answers (run l (start todo)) t).
Proof.
  intros todo l t W. pose proof (stage_run l _ W (stage_start todo)) as S. generalize dependent (run l (start todo)). intros w S H.
  assert (R : exists w', leads w w' /\ answers w' t = Datatypes.S (answers w t)).
  { destruct (t_place (w_threads w t)) eqn:P; try (apply from_once; [exact S|unfold place_of; rewrite P; discriminate]). destruct H as [H|H]; [contradiction|].
    destruct (t_todo (w_threads w t)) as [|n] eqn:T; [contradiction|]. destruct (idle_go w t n P T) as (A & B & _).
    destruct (from_once (step t true w) t (stage_step w t S)) as (w' & C & D); [rewrite A; discriminate|]. exists w'. split; [apply (leads_step _ t), C|]. rewrite D. unfold answers. rewrite B. reflexivity. }
  destruct R as (w' & (l' & W' & <-) & E). eauto.
Qed.
(** Failures *)
Definition Stuck (w : world) (a : answer) : Prop :=
  w_once w = Over /\ (exists n, w_mutex w = Some (O, S n)) /\ place_of w O = Idle /\ t_todo (w_threads w O) = O /\ t_answers (w_threads w O) = [a] /\
  t_answers (w_threads w 1%nat) = [] /\ (place_of w 1%nat = Idle /\ t_todo (w_threads w 1%nat) = 1%nat \/ place_of w 1%nat = Once \/ place_of w 1%nat = Locking) /\
  forall t, t <> O -> t <> 1%nat -> place_of w t = Idle /\ t_todo (w_threads w t) = O.
Lemma stuck_step w a t ok : Stuck w a -> Stuck (step t ok w) a.
Proof.
  intros (O & (n & M) & P0 & T0 & A0 & A1 & P1 & R). assert (S0 : Stuck w a) by (unfold Stuck; eauto 12). unfold step. destruct (Nat.eq_dec t 0) as [->|N0].
  - unfold place_of in P0. rewrite P0, T0. exact S0.
  - destruct (Nat.eq_dec t 1) as [->|N1].
    + unfold place_of in P1. destruct P1 as [[P T]|[P|P]]; rewrite P.
      * rewrite T. unfold Stuck, place_of. cbn. split; [exact O|]. split; [eauto|]. repeat (split; [assumption|]). split; [auto|]. intros t X Y. rewrite upd_other by auto. apply R; auto.
      * rewrite O. unfold Stuck, place_of. cbn. split; [exact O|]. split; [eauto|]. repeat (split; [assumption|]). split; [auto|]. intros t X Y. rewrite upd_other by auto. apply R; auto.
      * unfold locking. rewrite M. cbn. exact S0.
    + destruct (R t N0 N1) as [P T]. unfold place_of in P. rewrite P, T. exact S0.
Qed.
Lemma stuck_run l : forall w a, Stuck w a -> Stuck (run l w) a.
Proof. induction l as [|[t ok] l IH]; intros w a S; [exact S|]. cbn. apply IH, stuck_step, S. Qed.
Lemma stuck_after n : (3 <= n <= 6)%nat -> Stuck (run (fails_after n) (start two)) (Got (if Nat.eqb n 3 then None else Some 0%nat) false).
Proof.
  intros H. assert (n = 3 \/ n = 4 \/ n = 5 \/ n = 6)%nat as [-> | [-> | [-> | ->]]] by lia; unfold Stuck; (split; [reflexivity|]); (split; [exists 0%nat; reflexivity|]);
  (split; [reflexivity|]); (split; [reflexivity|]); (split; [reflexivity|]); (split; [reflexivity|]); (split; [left; split; reflexivity|]);
  intros t X Y; destruct t as [|[|t]]; try contradiction; vm_compute; auto.
Qed.
Theorem failure_wrong : forall n l, (3 <= n <= 6)%nat -> let w := run (fails_after n) (start two) in
  t_answers (w_threads w 0%nat) = [Got (if Nat.eqb n 3 then None else Some 0%nat) false] /\ t_answers (w_threads (run l w) 1%nat) = [] /\ waits (run l w) 1%nat.
Proof.
  intros n l H w. pose proof (stuck_after n H) as S. fold w in S. pose proof (stuck_run l w _ S) as S1. split; [apply S|]. split; [apply S1|].
  destruct S1 as (_ & _ & _ & _ & _ & _ & P & _). unfold waits, place_of in *. destruct P as [[P T]|[P|P]]; [right; rewrite T; discriminate|left; rewrite P; discriminate..].
Qed.
Theorem turns_right : works turns /\ t_answers (w_threads (run turns (start two)) 0%nat) = [Got (Some 0%nat) true] /\ t_answers (w_threads (run turns (start two)) 1%nat) = [Got (Some 0%nat) true] /\
  waits (run (firstn 9 turns) (start two)) 1%nat /\ w_made (run turns (start two)) = 1%nat.
Proof. split; [repeat constructor|]. vm_compute. repeat split; auto. left. discriminate. Qed.
