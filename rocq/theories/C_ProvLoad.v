(** C82: the provider among threads. *)
From Verif Require Import Base M_ProvLoad S_ProvLoad P_ProvLoad.

(** For every schedule and every failure: one library context at most is made, and no two calls, of whatever threads, are
    given different ones. *)
Theorem C82_one_context : forall todo l, (w_made (run l (start todo)) <= 1)%nat /\
  forall t u a b x y, obtained (run l (start todo)) t a -> obtained (run l (start todo)) u b -> a_ctx a = Some x -> a_ctx b = Some y -> x = y.
Proof. exact one_context. Qed.
Print Assumptions C82_one_context.
Example C82_case : works turns /\ t_answers (w_threads (run turns (start two)) 0%nat) = [Got (Some 0%nat) true] /\ t_answers (w_threads (run turns (start two)) 1%nat) = [Got (Some 0%nat) true] /\
  waits (run (firstn 9 turns) (start two)) 1%nat /\ w_made (run turns (start two)) = 1%nat.
Proof. exact turns_right. Qed.

(** If nothing fails below, for every schedule, every call is given the context, with the provider loaded into it: no thread
    comes to see one half made.  Missing: loads that fail, see the refutation. *)
Theorem C82_usable_partial : forall todo l t a, works l -> obtained (run l (start todo)) t a -> a = Got (Some 0%nat) true.
Proof. exact all_usable. Qed.
Print Assumptions C82_usable_partial.

(** And no thread is stuck: wherever a schedule has left the threads, it can go on so that a waiting one gets its answer. *)
Theorem C82_can_finish_partial : forall todo l t, works l -> waits (run l (start todo)) t ->
  exists l', works l' /\ answers (run l' (run l (start todo))) t = S (answers (run l (start todo)) t).
Proof. exact can_finish. Qed.
Print Assumptions C82_can_finish_partial.

(** If one of the four calls that load it fails, the loading thread keeps the mutex. It is itself given a context without the
    provider, unless none was made; the other thread waits for ever, whatever the schedule. *)
Theorem C82_failure_refuted : forall n l, (3 <= n <= 6)%nat -> let w := run (fails_after n) (start two) in
  t_answers (w_threads w 0%nat) = [Got (if Nat.eqb n 3 then None else Some 0%nat) false] /\ t_answers (w_threads (run l w) 1%nat) = [] /\ waits (run l w) 1%nat.
Proof. exact failure_wrong. Qed.
Print Assumptions C82_failure_refuted.
