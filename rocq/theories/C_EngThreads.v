(** C71: the engine among threads. *)
From Verif Require Import Base M_EngThreads S_EngThreads P_EngThreads3 P_EngThreads2.

(** Whatever the schedule and the failures below, one engine is added at most. *)
Theorem C71_one_engine : forall todo l, (w_added (run l (start todo)) <= 1)%nat.
Proof. exact one_engine. Qed.
Print Assumptions C71_one_engine.

(** All threads that get the method of a cipher or of a key type get the same one. *)
Theorem C71_same_method : forall todo l s t1 t2 o1 o2, guarded s ->
  obtained (run l (start todo)) t1 (Get s) o1 -> obtained (run l (start todo)) t2 (Get s) o2 -> o1 = o2.
Proof. exact same_method. Qed.
Print Assumptions C71_same_method.

(** A program with one thread: every call returns within eight steps, in order, with what was asked for. *)
Theorem C71_alone_partial : forall calls todo n, todo O = calls -> (8 * length calls <= n)%nat ->
  let w := run (alone n) (start todo) in
  completed w O /\ map fst (t_answers (w_threads w O)) = rev calls /\ Forall (fun x => served (fst x) (snd x)) (t_answers (w_threads w O)).
Proof. exact alone_served. Qed.
Print Assumptions C71_alone_partial.

(** A thread that is done was answered each call it made, once and in order, under every schedule. *)
Theorem C71_answers_in_order : forall todo l u, completed (run l (start todo)) u ->
  map fst (t_answers (w_threads (run l (start todo)) u)) = rev (todo u).
Proof. exact completed_all. Qed.
Print Assumptions C71_answers_in_order.

(** False: that threads can share the engine. Only one thread ever gets it, under every schedule. *)
Theorem C71_engine_for_one_thread_refuted : forall todo l t1 t2 e1 e2,
  obtained (run l (start todo)) t1 GetEngine e1 -> obtained (run l (start todo)) t2 GetEngine e2 -> t1 = t2 /\ e1 = e2.
Proof. exact engine_for_one_thread. Qed.
Print Assumptions C71_engine_for_one_thread_refuted.

(** Once a thread has it, no call of any other thread that needs the lock returns, whatever happens then. *)
Theorem C71_others_blocked_refuted : forall todo l l' t e u, let w := run l (start todo) in obtained w t GetEngine e -> u <> t ->
  locked_answers (run l' w) u = locked_answers w u.
Proof. exact never_answered. Qed.
Print Assumptions C71_others_blocked_refuted.
Theorem C71_others_never_return_refuted : forall todo l l' t e u c, let w := run l (start todo) in obtained w t GetEngine e -> u <> t ->
  locked c = true -> In c (todo u) -> ~ answered w u c -> ~ answered (run l' w) u c /\ ~ completed (run l' w) u.
Proof. exact never_returns. Qed.
Print Assumptions C71_others_never_return_refuted.

(** A failure below keeps the lock: the caller is told, and no other thread ever gets an answer. *)
Theorem C71_failure_keeps_lock_refuted : let w := run a_failure (start two_threads) in
  t_answers (w_threads w O) = [(GetEngine, Got None)] /\ completed w O /\
  forall l, ~ completed (run l w) 1 /\ t_answers (w_threads (run l w) 1) = [].
Proof. exact failure_keeps_lock. Qed.
Print Assumptions C71_failure_keeps_lock_refuted.

(** False for digests: two threads can get different methods. *)
Theorem C71_digest_method_refuted : exists l o1 o2, let w := run l (start two_digests) in
  obtained w 0 (Get (Digest 672)) o1 /\ obtained w 1 (Get (Digest 672)) o2 /\ o1 <> o2.
Proof. exact digests_differ. Qed.
Print Assumptions C71_digest_method_refuted.

(** Two threads, each with a cipher to get, one of them with the engine: the first gets everything, the second what it asked for before. *)
Example C71_example :
  let w := run (repeat (1%nat, true) 5 ++ repeat (O, true) 30 ++ repeat (1%nat, true) 30) (start an_example) in
  t_answers (w_threads w O) = [(Get (Digest 672), Got (Some 3%nat)); (ListAsn1, Listed); (Get (Cipher 419), Got (Some O)); (GetEngine, Got (Some 1%nat))] /\
  t_answers (w_threads w 1%nat) = [(Get (Cipher 419), Got (Some O))] /\
  t_place (w_threads w O) = Idle /\ t_place (w_threads w 1%nat) = Engine1 /\ w_added w = 1%nat /\ w_mutex w = Some (O, 2%nat).
Proof. vm_compute. repeat split. Qed.
