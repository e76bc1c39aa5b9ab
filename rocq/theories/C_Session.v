(** C75: a process has one session with the trusted application, and leaves nothing of it when it ends. *)
From Verif Require Import Base M_Session S_Session P_Session P_Session2 P_Session3.

(** Until exit() all threads that get a session get the same one, it is there, and there is never a second. *)
Theorem C75_one_session_partial : forall l, no_exit l ->
  let '(w, e) := run l start in
  w_bad w = false /\
  (forall t i, In (Got t i) e -> w_session w = Some i /\ w_ctxs w i = true /\ w_clients w i = true /\ w_store w = Live) /\
  (forall t s i j, In (Got t i) e -> In (Got s j) e -> i = j) /\
  (forall i j, w_ctxs w i = true -> w_ctxs w j = true -> i = j).
Proof. exact one_session. Qed.
Print Assumptions C75_one_session_partial.

(** If opening a session does not fail, no call is refused. *)
Theorem C75_never_refused_partial : forall l, no_exit l -> all_succeed l -> forall t, ~ In (Refused t) (snd (run l start)).
Proof. exact never_refused. Qed.
Print Assumptions C75_never_refused_partial.

(** The thread that holds the lock can always go on, and a call that then runs alone is served, also after failures. *)
Theorem C75_holder_moves : forall l, no_exit l ->
  forall t k, holds_lock (fst (run l start)) t ->
  w_pcs (fst (thread_step t k (fst (run l start)))) t <> w_pcs (fst (run l start)) t.
Proof. exact holder_moves. Qed.
Print Assumptions C75_holder_moves.
Theorem C75_call_served : forall l t, no_exit l -> w_pcs (fst (run l start)) t = Idle -> w_mutex (fst (run l start)) = None ->
  In (Served t) (snd (run (Begin t :: repeat (Step t Succeeds) 11) (fst (run l start)))).
Proof. exact call_served. Qed.
Print Assumptions C75_call_served.

(** Whenever exit() is called, a call that is at work keeps its client and its store, and is served. *)
Theorem C75_work_undisturbed : forall l t i, at_work (fst (run l start)) t i ->
  w_clients (fst (run l start)) i = true /\ (w_store (fst (run l start)) = Live \/ w_store (fst (run l start)) = Closing) /\
  forall k, snd (act (Step t k) (fst (run l start))) = [Served t] /\ w_bad (fst (act (Step t k) (fst (run l start)))) = w_bad (fst (run l start)).
Proof. exact work_undisturbed. Qed.
Print Assumptions C75_work_undisturbed.
(** exit() waits for such calls and for nothing else. *)
Theorem C75_exit_waits_for_work_only : forall l, w_exit (fst (run l start)) <> Running -> w_exit (fst (run l start)) <> XDone ->
  (forall t i, ~ at_work (fst (run l start)) t i) ->
  w_exit (exit_step (fst (run l start))) <> w_exit (fst (run l start)).
Proof. exact exit_waits_for_work_only. Qed.
Print Assumptions C75_exit_waits_for_work_only.

(** If at exit() every thread is outside the library or at work, and none begins a call, nothing freed is used and nothing is left. *)
Theorem C75_exit_clean_partial : forall l l2, no_exit l ->
  (forall t, w_pcs (fst (run l start)) t = Idle \/ exists i, at_work (fst (run l start)) t i) ->
  (forall t, ~ In (Begin t) l2) ->
  let w := fst (run l2 (fst (run (l ++ [Exit]) start))) in
  w_bad w = false /\ (w_exit w = XDone -> nothing_left w).
Proof. exact exit_clean. Qed.
Print Assumptions C75_exit_clean_partial.
(** With all threads outside it ends in at most eight steps. *)
Theorem C75_exit_quiet : forall l, no_exit l -> all_idle (fst (run l start)) ->
  let w := fst (run (l ++ Exit :: repeat ExitStep 8) start) in
  w_exit w = XDone /\ nothing_left w /\ w_bad w = false.
Proof. exact exit_quiet. Qed.
Print Assumptions C75_exit_quiet.
(** Whatever is called after that is refused. *)
Theorem C75_refused_after_exit : forall l l2, no_exit l -> all_idle (fst (run l start)) -> w_store (fst (run l start)) = Live ->
  let w := fst (run (l ++ Exit :: repeat ExitStep 8) start) in
  w_bad (fst (run l2 w)) = false /\ (forall i, w_ctxs (fst (run l2 w)) i = false) /\ (forall e, In e (snd (run l2 w)) -> exists t, e = Refused t).
Proof. exact refused_after_exit. Qed.
Print Assumptions C75_refused_after_exit.

(** But a thread that has the session and is not yet at work when exit() runs uses a session that was freed, *)
Theorem C75_stale_session_refuted : exists l, In (Got 1 0) (snd (run l start)) /\ w_bad (fst (run l start)) = false /\
  w_bad (fst (run (l ++ [Step 1 Succeeds]) start)) = true.
Proof. exact stale_session. Qed.
Print Assumptions C75_stale_session_refuted.
(** or a store that was freed, *)
Theorem C75_stale_store_refuted : exists l, w_pcs (fst (run l start)) 1 = U2 0 /\ w_store (fst (run l start)) = Destroyed /\ w_bad (fst (run l start)) = false /\
  w_bad (fst (run (l ++ [Step 1 Succeeds]) start)) = true.
Proof. exact stale_store. Qed.
Print Assumptions C75_stale_store_refuted.
(** a call between the end of the session and the end of the store opens a session that is never closed, *)
Theorem C75_session_left_refuted : exists l, let w := fst (run l start) in
  all_idle w /\ w_exit w = XDone /\ w_bad w = false /\ w_session w = Some 1%nat /\ w_ctxs w 1 = true.
Proof. exact session_left. Qed.
Print Assumptions C75_session_left_refuted.
(** and a first call during exit() has its session closed after the store. *)
Theorem C75_store_closed_first_refuted : exists l, let w := fst (run l start) in
  w_exit w = XClose1 /\ w_store w = Shut /\ w_session w <> None.
Proof. exact store_closed_first. Qed.
Print Assumptions C75_store_closed_first_refuted.

(** Two threads race for the first session: both get session 0, both are served, and exit() while the second is still at
    work waits for it and leaves nothing. *)
Example C75_example :
  let l := [Begin 0; Begin 1; Step 0 Succeeds; Step 1 Succeeds] ++ repeat (Step 1 Succeeds) 10 ++ repeat (Step 0 Succeeds) 8 in
  no_exit l /\ all_succeed l /\
  In (Got 0 0) (snd (run l start)) /\ In (Got 1 0) (snd (run l start)) /\ In (Served 1) (snd (run l start)) /\
  all_idle (fst (run l start)) /\ w_store (fst (run l start)) = Live /\
  (let l' := l ++ [Begin 1] ++ repeat (Step 1 Succeeds) 3 in
   at_work (fst (run l' start)) 1 0 /\
   w_exit (fst (run (l' ++ Exit :: repeat ExitStep 20) start)) = XClose1 /\
   w_exit (fst (run (l' ++ Exit :: repeat ExitStep 20 ++ Step 1 Succeeds :: repeat ExitStep 7) start)) = XDone).
Proof.
  cbv zeta. split; [|split].
  - intros X. vm_compute in X. repeat (destruct X as [X|X]; [discriminate X|]). destruct X.
  - intros t k X. vm_compute in X. repeat (destruct X as [X|X]; [congruence|]). destruct X.
  - split; [vm_compute; tauto|]. split; [vm_compute; tauto|]. split; [vm_compute; tauto|]. split.
    + intros t. do 2 (destruct t as [|t]; [reflexivity|]). reflexivity.
    + vm_compute. auto.
Qed.
