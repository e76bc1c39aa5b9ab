(** C04, C05, C07, C37: concurrent use, destruction, shutdown and waiting.
    [reachable count c] ranges over every interleaving of any number of calls on a
    store of [count] slots (M_StoreConc.v); [lruns P ts] over every interleaving of
    calls that satisfy [P] (M_Locks.v). *)
From Verif Require Import Base M_Slots M_ObjectStore M_StoreConc P_StoreConc P_StoreConc3 M_Locks P_Locks.
From Coq Require Import Permutation.

(** C04: while a call holds an object, the object is neither destroyed nor about to
    be, its handle still designates it, and giving it back succeeds. *)
Theorem C04_no_destroy_while_in_use : forall count c h o u,
  0 <= count < INVALID_HANDLE -> reachable count c -> In (AUse h o u) (c_acts c) ->
  ~ being_destroyed c o /\ designated (c_store c) h = Some o /\
  exists st', store_release (c_store c) h o u = (st', OK).
Proof. exact no_destroy_in_use. Qed.
Print Assumptions C04_no_destroy_while_in_use.

(** C04: once destroyed, no later call ever gets the object. *)
Theorem C04_destroyed_never_used_again : forall count c c' o h u,
  0 <= count < INVALID_HANDLE -> reachable count c ->
  In o (c_dead c) -> csteps c c' -> ~ In (AUse h o u) (c_acts c').
Proof. exact destroyed_never_used_again. Qed.
Print Assumptions C04_destroyed_never_used_again.

(** C04: every object is destroyed at most once, and only objects that were stored. *)
Theorem C04_destroyed_at_most_once : forall count c,
  0 <= count < INVALID_HANDLE -> reachable count c ->
  NoDup (c_dead c) /\ incl (c_dead c) (c_made c).
Proof. exact destroyed_once. Qed.
Print Assumptions C04_destroyed_at_most_once.

Example C04_case : exists c, reachable 256 c /\ c_acts c = [ARem1 31 7 (Some 1); AUse 31 1 7] /\
  c_phase c = PWait /\ c_made c = [2; 1] /\ c_dead c = [] /\ c_uaf c = false.
Proof. exact busy_config. Qed.

(** C05: after shutdown has begun nothing new is created or used. *)
Theorem C05_refused_after_shutdown : forall count c u h o s st',
  0 <= count < INVALID_HANDLE -> reachable count c -> c_phase c <> PUp ->
  (store_add (c_store c) o u = (st', s, h) -> s = INTERNAL_ERROR /\ h = INVALID_HANDLE /\ st' = c_store c) /\
  (forall r, 0 <= h -> store_acquire (c_store c) h u = (st', s, r) -> s <> OK /\ r = None /\ st' = c_store c).
Proof. exact refused_after_shutdown. Qed.
Print Assumptions C05_refused_after_shutdown.

(** C05: when shutdown has finished, no call holds an object and every object ever
    stored has been destroyed, except those a release call took out and is about to
    destroy itself. *)
Theorem C05_shutdown_complete : forall count c,
  0 <= count < INVALID_HANDLE -> reachable count c -> c_phase c = PGone ->
  (forall h o u, ~ In (AUse h o u) (c_acts c)) /\
  (forall o, In o (c_made c) -> In o (c_dead c) \/ exists t, In (ARem3 (Some o) t) (c_acts c)).
Proof. exact shutdown_complete. Qed.
Print Assumptions C05_shutdown_complete.

(** C05: with no call left in flight, the objects destroyed are exactly those stored,
    each once. *)
Theorem C05_every_object_destroyed_once : forall count c,
  0 <= count < INVALID_HANDLE -> reachable count c ->
  c_phase c = PGone -> c_acts c = [] -> Permutation (c_made c) (c_dead c).
Proof. exact idle_shutdown_destroys_all. Qed.
Print Assumptions C05_every_object_destroyed_once.

(** C05: shutdown never gets into a state it cannot finish from: whatever is in
    flight, letting the calls in flight run lets it complete. *)
Theorem C05_shutdown_can_finish : forall count c,
  0 <= count < INVALID_HANDLE -> reachable count c -> c_uaf c = false -> c_phase c <> PUp ->
  exists c', csteps c c' /\ c_phase c' = PGone /\ c_uaf c' = false.
Proof. exact shutdown_can_finish. Qed.
Print Assumptions C05_shutdown_can_finish.

Example C05_case : exists c, reachable 256 c /\ c_acts c = [] /\
  c_phase c = PGone /\ c_made c = [2; 1] /\ c_dead c = [2; 1] /\ c_uaf c = false.
Proof. exact finished_config. Qed.

(** C05 fails for release calls that overlap shutdown: the call gives back its release
    count (object_store.c:233-235) before it uses [store->object_free] (238-240), so
    shutdown may free the store in between.  The access is to freed memory and the
    object has not been destroyed. *)
Theorem C05_store_freed_under_release_refuted : exists c, reachable 256 c /\
  c_acts c = [ARem3 (Some 1) (Some 1)] /\ c_phase c = PGone /\ c_made c = [1] /\ c_dead c = [] /\ c_uaf c = true.
Proof. exact store_use_after_free. Qed.
Print Assumptions C05_store_freed_under_release_refuted.

(** C07 is false: two copies between the same two SVP buffers in opposite directions
    block each other for ever. *)
Theorem C07_svp_copy_deadlock_refuted : lruns copies_only stuck_state /\ deadlocked stuck_state.
Proof. exact (conj stuck_reachable stuck_deadlocked). Qed.
Print Assumptions C07_svp_copy_deadlock_refuted.

(** C07, the part that holds: if the calls made can be ordered so that each one's second
    SVP buffer is its first or comes later, no set of calls ever blocks for good. *)
Theorem C07_no_deadlock_in_order_partial : forall ord ts,
  lruns (respects ord) ts -> ~ deadlocked ts.
Proof. exact no_deadlock. Qed.
Print Assumptions C07_no_deadlock_in_order_partial.

(** C07: in particular when every call uses at most one SVP buffer. *)
Theorem C07_no_deadlock_single_buffer_partial : forall ts,
  lruns single_buffer ts -> ~ deadlocked ts.
Proof. exact no_deadlock_single. Qed.
Print Assumptions C07_no_deadlock_single_buffer_partial.

Example C07_case :
  lruns (respects (fun b => Z.to_nat (10 - b)))
    (map (fun c => MkThread [] [] (ops c))
       [CallClose 0; CallSvpRelease 0 3; CallSvpCopy 0 3 1; CallSvpCopy 0 3 2; CallSvpCopy 0 2 1]).
Proof. exact ordered_case. Qed.

(** C37 is false: of two release calls for the same handle (object 1), the second
    takes out object 2, created under the reused handle while that call waited. *)
Theorem C37_release_destroys_other_object_refuted : exists c, reachable 256 c /\
  c_acts c = [ARem3 (Some 2) (Some 1); ARem2 (Some 1) (Some 1)] /\ c_phase c = PUp /\
  c_made c = [2; 1] /\ c_dead c = [] /\ c_uaf c = false.
Proof. exact release_hits_new_object. Qed.
Print Assumptions C37_release_destroys_other_object_refuted.
