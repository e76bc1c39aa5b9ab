(** Proofs: a program with one thread, and runs that go wrong. *)
From Verif Require Import Base M_EngThreads S_EngThreads P_EngThreads P_EngThreads2.

Definition left_at (p : place) : nat :=
  match p with
  | Idle => 0 | Engine1 => 6 | Engine2 => 5 | Engine3 => 4 | Engine4 => 3 | Engine5 _ => 2 | Engine6 _ => 1
  | Table1 _ _ => 4 | Table2 _ _ => 3 | Table3 _ _ => 2 | Table4 _ _ => 1 | Free1 _ => 3 | Free2 _ => 2 | Free3 _ => 1
  end.
Definition todo_left (w : world) : nat := (8 * length (t_todo (w_threads w O)) + left_at (place_of w O))%nat.
Definition well (w : world) : Prop :=
  (w_mutex w = None \/ exists n, w_mutex w = Some (O, n)) /\
  match place_of w O with
  | Engine4 => w_engine w <> None
  | Engine5 e | Engine6 e => e <> None
  | Table4 s false => w_slots w s <> None
  | Free3 s => w_slots w s <> None
  | _ => True
  end /\ Forall (fun x => served (fst x) (snd x)) (t_answers (w_threads w O)).

Lemma unlock_own n : unlock O (Some (O, n)) = None \/ exists k, unlock O (Some (O, n)) = Some (O, k).
Proof. destruct n as [|[|n]]; cbn; eauto. Qed.
Lemma well_step w : well w -> well (step O true w) /\ (todo_left (step O true w) = todo_left w - 1 \/ todo_left (step O true w) < todo_left w - 1)%nat.
Proof.
  intros (M & P & A). unfold step. change (t_place (w_threads w O)) with (place_of w O).
  assert (UM : w_mutex w = None \/ (exists n, w_mutex w = Some (O, n)) -> unlock O (w_mutex w) = None \/ exists n, unlock O (w_mutex w) = Some (O, n)).
  { intros [->|(n & ->)]; [left; reflexivity|apply unlock_own]. }
  specialize (UM M). assert (LM : exists n, lock O (w_mutex w) = Some (Some (O, n))) by (destruct M as [->|(n & ->)]; cbn; eauto).
  destruct LM as (n & LM).
  destruct (place_of w O) as [| | | | |e|e|s b|s b|s b|s b|s|s|s] eqn:PL.
  - destruct (t_todo (w_threads w O)) as [|c rest] eqn:TD.
    + split; [split; [exact M|]; rewrite PL; auto|]. unfold todo_left. rewrite TD, PL. cbn. lia.
    + destruct c as [|[]| | | |]; (split; [split; [exact M|]; unfold place_of, go, reply; cbn [w_threads]; rewrite ?upd_same; cbn [t_place t_answers]; rewrite ?upd_same; cbn [t_answers];
        split; [exact Logic.I|first [exact A|constructor; [reflexivity|exact A]]]
        |unfold todo_left, place_of, go, reply; cbn [w_threads]; rewrite TD, ?PL, ?upd_same; cbn [t_place t_todo]; rewrite ?upd_same; change (t_place (w_threads w 0%nat)) with (place_of w O); rewrite ?PL; cbn [length left_at t_todo]; lia]).
  - unfold locking. rewrite LM. split; [split; [right; eexists; reflexivity|]; unfold place_of, go, set_mutex; cbn [w_threads]; rewrite ?upd_same; cbn; auto
      |unfold todo_left at 1 3; unfold place_of, go, set_mutex; cbn [w_threads]; rewrite ?upd_same; cbn [t_place t_todo left_at]; unfold todo_left; rewrite PL; cbn [left_at]; lia].
  - destruct (w_engine w) eqn:EN; (split; [split; [exact M|]; unfold place_of, go, set_mutex; cbn [w_threads]; rewrite ?upd_same; cbn [t_place t_answers]; split; [first [exact Logic.I|discriminate]|exact A]
      |unfold todo_left at 1 3; unfold place_of, go, set_mutex; cbn [w_threads]; rewrite ?upd_same; cbn [t_place t_todo left_at]; unfold todo_left; rewrite PL; cbn [left_at]; lia]).
  - split; [split; [exact M|]; unfold place_of, go, set_mutex; cbn [w_threads w_engine]; rewrite ?upd_same; cbn [t_place t_answers]; split; [discriminate|exact A]
      |unfold todo_left at 1 3; unfold place_of, go, set_mutex; cbn [w_threads]; rewrite ?upd_same; cbn [t_place t_todo left_at]; unfold todo_left; rewrite PL; cbn [left_at]; lia].
  - rewrite LM. unfold set_mutex. cbn [w_slots]. destruct (w_slots w Asn1); cbn [w_engine w_threads w_slots w_mutex];
      (split; [split; [right; eexists; reflexivity|]; unfold place_of, go, set_mutex; cbn [w_threads w_engine]; rewrite ?upd_same; cbn [t_place t_answers]; split; [exact P|exact A]
      |unfold todo_left at 1 3; unfold place_of, go, set_mutex; cbn [w_threads]; rewrite ?upd_same; cbn [t_place t_todo left_at]; unfold todo_left; rewrite PL; cbn [left_at]; lia]).
  - destruct e as [e|]; [|contradiction].
    split; [split; [exact M|]; unfold place_of, go, set_mutex; cbn [w_threads w_engine]; rewrite ?upd_same; cbn [t_place t_answers]; split; [discriminate|exact A]
      |unfold todo_left at 1 3; unfold place_of, go, set_mutex; cbn [w_threads]; rewrite ?upd_same; cbn [t_place t_todo left_at]; unfold todo_left; rewrite PL; cbn [left_at]; lia].
  - split; [split; [exact UM|]; unfold place_of, reply, set_mutex; cbn [w_threads w_engine]; rewrite ?upd_same; cbn [t_place t_answers]; split; [exact Logic.I|]
      |unfold todo_left at 1 3; unfold place_of, reply, set_mutex; cbn [w_threads]; rewrite ?upd_same; cbn [t_place t_todo left_at]; unfold todo_left; rewrite PL; cbn [left_at]; lia].
    constructor; [|exact A]. cbn. destruct e as [e|]; [eauto|contradiction].
  - unfold locking. rewrite LM. split; [split; [right; eexists; reflexivity|]; unfold place_of, go, set_mutex; cbn [w_threads]; rewrite ?upd_same; cbn; auto
      |unfold todo_left at 1 3; unfold place_of, go, set_mutex; cbn [w_threads]; rewrite ?upd_same; cbn [t_place t_todo left_at]; unfold todo_left; rewrite PL; cbn [left_at]; lia].
  - destruct (w_slots w s) eqn:SX; (split; [split; [exact M|]; unfold place_of, go, set_mutex; cbn [w_threads w_slots]; rewrite ?upd_same; cbn [t_place t_answers]; split; [first [exact Logic.I|destruct b; [exact Logic.I|rewrite SX; discriminate]]|exact A]
      |unfold todo_left at 1 3; unfold place_of, go, set_mutex; cbn [w_threads]; rewrite ?upd_same; cbn [t_place t_todo left_at]; unfold todo_left; rewrite PL; cbn [left_at]; lia]).
  - split; [split; [exact M|]; unfold place_of, go, set_mutex; cbn [w_threads w_slots]; rewrite ?upd_same; cbn [t_place t_answers]; split; [destruct b; [exact Logic.I|rewrite fill_same; discriminate]|exact A]
      |unfold todo_left at 1 3; unfold place_of, go, set_mutex; cbn [w_threads]; rewrite ?upd_same; cbn [t_place t_todo left_at]; unfold todo_left; rewrite PL; cbn [left_at]; lia].
  - destruct b.
    + split; [split; [exact M|]; unfold place_of, reply, set_mutex; cbn [w_threads w_engine]; rewrite ?upd_same; cbn [t_place t_answers]; split; [exact Logic.I|constructor; [reflexivity|exact A]]
      |unfold todo_left at 1 3; unfold place_of, reply, set_mutex; cbn [w_threads]; rewrite ?upd_same; cbn [t_place t_todo left_at]; unfold todo_left; rewrite PL; cbn [left_at]; lia].
    + split; [split; [exact UM|]; unfold place_of, reply, set_mutex; cbn [w_threads w_engine]; rewrite ?upd_same; cbn [t_place t_answers]; split; [exact Logic.I|constructor; [|exact A]]
      |unfold todo_left at 1 3; unfold place_of, reply, set_mutex; cbn [w_threads]; rewrite ?upd_same; cbn [t_place t_todo left_at]; unfold todo_left; rewrite PL; cbn [left_at]; lia].
      cbn. destruct (w_slots w s); [eauto|contradiction].
  - destruct (w_slots w s) eqn:SX; (split; [split; [exact M|]; unfold place_of, go, set_mutex; cbn [w_threads w_slots]; rewrite ?upd_same; cbn [t_place t_answers]; split; [first [exact Logic.I|rewrite SX; discriminate]|exact A]
      |unfold todo_left at 1 3; unfold place_of, go, set_mutex; cbn [w_threads]; rewrite ?upd_same; cbn [t_place t_todo left_at]; unfold todo_left; rewrite PL; cbn [left_at]; lia]).
  - split; [split; [exact M|]; unfold place_of, go, set_mutex; cbn [w_threads w_slots]; rewrite ?upd_same; cbn [t_place t_answers]; split; [rewrite fill_same; discriminate|exact A]
      |unfold todo_left at 1 3; unfold place_of, go, set_mutex; cbn [w_threads]; rewrite ?upd_same; cbn [t_place t_todo left_at]; unfold todo_left; rewrite PL; cbn [left_at]; lia].
  - split; [split; [exact M|]; unfold place_of, reply, set_mutex; cbn [w_threads w_engine]; rewrite ?upd_same; cbn [t_place t_answers]; split; [exact Logic.I|constructor; [|exact A]]
      |unfold todo_left at 1 3; unfold place_of, reply, set_mutex; cbn [w_threads]; rewrite ?upd_same; cbn [t_place t_todo left_at]; unfold todo_left; rewrite PL; cbn [left_at]; lia].
    cbn. destruct (w_slots w s); [eauto|contradiction].
Qed.
Lemma well_run n : forall w, well w -> well (run (alone n) w) /\ (todo_left (run (alone n) w) <= todo_left w - n)%nat.
Proof.
  induction n as [|n IH]; intros w W; cbn [alone repeat run]; [split; [exact W|lia]|]. change (repeat (0%nat, true) n) with (alone n).
  destruct (well_step w W) as (W1 & L1). destruct (IH _ W1) as (W2 & L2). split; [exact W2|]. lia.
Qed.
Lemma alone_served calls todo n : todo O = calls -> (8 * length calls <= n)%nat ->
  let w := run (alone n) (start todo) in
  completed w O /\ map fst (t_answers (w_threads w O)) = rev calls /\ Forall (fun x => served (fst x) (snd x)) (t_answers (w_threads w O)).
Proof.
  intros T N w. destruct (well_run n (start todo)) as (W & L). { split; [left; reflexivity|]. split; [exact Logic.I|constructor]. }
  assert (C : completed w O).
  { unfold todo_left in L at 2. cbn [start w_threads t_todo place_of t_place left_at] in L. rewrite T in L.
    change (place_of (start todo) O) with Idle in L. cbn [left_at] in L. assert (Z0 : todo_left w = O) by (unfold w; lia).
    unfold todo_left in Z0. split.
    - change (t_place (w_threads w 0%nat)) with (place_of w O). destruct (place_of w O); cbn [left_at] in Z0; try lia. reflexivity.
    - destruct (t_todo (w_threads w O)); [reflexivity|]. cbn [length] in Z0. lia. }
  split; [exact C|]. split; [|apply W]. unfold w. rewrite completed_all by exact C. rewrite T. reflexivity.
Qed.

(** A failure below: the lock is not given back. *)
Lemma kept_run l : forall w v, kept w v -> kept (run l w) v.
Proof. induction l as [|(t, ok) l IH]; intros w v K; cbn [run]; [exact K|]. apply IH, kept_step, K. Qed.
Definition a_failure : list (nat * bool) := [(O, true); (O, true); (O, true); (O, false); (O, true)].
Lemma failure_keeps_lock : let w := run a_failure (start two_threads) in
  t_answers (w_threads w O) = [(GetEngine, Got None)] /\ completed w O /\ forall l, ~ completed (run l w) 1 /\ t_answers (w_threads (run l w) 1) = [].
Proof.
  cbn zeta. split; [reflexivity|]. split; [split; reflexivity|]. intros l. set (w := run a_failure (start two_threads)).
  assert (K : kept w O). { exists 1%nat. split; [reflexivity|]. split; [cbn; lia|]. intros [|[|u]] N; [contradiction|reflexivity|reflexivity]. }
  destruct (reach two_threads a_failure) as (leak & I). fold w in I.
  assert (L : locked_answers (run l w) 1 = []).
  { assert (G : forall l w leak, Inv w leak -> kept w O -> locked_answers (run l w) 1 = locked_answers w 1).
    { clear. induction l as [|(x, ok) l IH]; intros w leak I K; cbn [run]; [reflexivity|].
      destruct (step_Inv w leak x ok I) as (leak' & I'). rewrite (IH _ leak' I' (kept_step x ok w O K)).
      apply (locked_step x ok w O 1%nat K ltac:(discriminate) (i_digest _ _ I)). }
    rewrite (G l w leak I K). reflexivity. }
  assert (AC : account (run l w) 1 = [GetEngine]) by (rewrite account_run; reflexivity).
  assert (NA : t_answers (w_threads (run l w) 1%nat) = []).
  { unfold account in AC. unfold locked_answers in L. destruct (t_answers (w_threads (run l w) 1%nat)) as [|(c, a) r]; [reflexivity|].
    exfalso. assert (IN : In c [GetEngine]). { rewrite <- AC. apply in_or_app. left. apply -> in_rev. left. reflexivity. }
    destruct IN as [<-|[]]. discriminate L. }
  split; [|exact NA]. intros (P & T). unfold account in AC. change (place_of (run l w) 1) with (t_place (w_threads (run l w) 1%nat)) in AC.
  rewrite P, T, NA in AC. discriminate AC.
Qed.
Lemma digests_differ : exists l o1 o2, let w := run l (start two_digests) in
  obtained w 0 (Get (Digest 672)) o1 /\ obtained w 1 (Get (Digest 672)) o2 /\ o1 <> o2.
Proof.
  exists [(O, true); (O, true); (1%nat, true); (1%nat, true); (O, true); (O, true); (1%nat, true); (1%nat, true)], O, 1%nat.
  cbn. unfold obtained. cbn. repeat split; auto.
Qed.
