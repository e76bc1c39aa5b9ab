(** Memory in the whole system: any number of calls in flight, in every interleaving.
    [calm_system] excludes the situations in which the code is known to lose or repeat a
    step (S_Api.v, [calm]); the refuted theorems show what happens in them. *)
From Verif Require Import Base M_ObjectStore P_ObjectStore M_Rights M_Svp M_Prog M_ApiKey M_ApiCipher M_Api S_Api M_World S_World S_Safe
  P_Safe5 P_SafeRuns P_ApiRuns P_Accounts.

(** C40.  No step of any call, whatever the other calls have done and whatever is chosen, is
    undefined: no object is read, written, locked or freed that is not there, is of another
    kind, or is locked when freed.  Missing: what the refuted theorems show. *)
Theorem C40_nothing_undefined_partial : forall sy i ch, reaches sy -> calm_system sy -> run_step sy i ch <> RunCrash.
Proof. exact never_crashes. Qed.
Print Assumptions C40_nothing_undefined_partial.
Theorem C40_freed_twice_refuted : exists sy i, reaches sy /\ forall ch, run_step sy i ch = RunCrash.
Proof. exact freed_twice. Qed.
Print Assumptions C40_freed_twice_refuted.

(** C40.  What a call has acquired and not given back is still the object of that handle and
    still there. *)
Theorem C40_held_objects_stay_partial : forall sy i t s x p, reaches sy -> calm_system sy ->
  nth_error (s_threads sy) i = Some t -> 1 <= refs (t_hist t) s x p ->
  (exists n, handle (s_world sy) s x = Some (p, t_user t, n) /\ 1 <= n) /\ w_heap (s_world sy) p <> None.
Proof. exact held_stays. Qed.
Print Assumptions C40_held_objects_stay_partial.
Example C40_held_case : exists sy i t, reaches sy /\ calm_system sy /\ nth_error (s_threads sy) i = Some t /\
  1 <= refs (t_hist t) (SCiphers 1) 31 6.
Proof. exact held_case. Qed.

(** C63.  Everything allocated belongs either to one call, which has neither freed it nor
    handed it over, or to one handle. *)
Theorem C63_one_owner_partial : forall sy p, reaches sy -> calm_system sy -> w_heap (s_world sy) p <> None ->
  (exists i, keeps (s_threads sy) i p /\ (forall j, keeps (s_threads sy) j p -> j = i) /\
             forall s x, ~ belongs (s_world sy) s x p) \/
  (exists s x, belongs (s_world sy) s x p /\ (forall s' x', belongs (s_world sy) s' x' p -> s' = s /\ x' = x) /\
               forall i, ~ keeps (s_threads sy) i p).
Proof. exact owned_by_one. Qed.
Print Assumptions C63_one_owner_partial.
Example C63_one_owner_case : exists sy, reaches sy /\ calm_system sy /\ keeps (s_threads sy) 2 6 /\
  belongs (s_world sy) (SKeys 1) 31 3 /\ w_heap (s_world sy) 3 <> None /\ w_heap (s_world sy) 6 <> None.
Proof. exact making_case. Qed.

(** C63.  What a call owns, what a handle stands for and what is inside it is there. *)
Theorem C63_nothing_dangles_partial : forall sy p, reaches sy -> calm_system sy ->
  (exists i, keeps (s_threads sy) i p) \/ (exists s x u n, handle (s_world sy) s x = Some (p, u, n)) \/
  (exists s x, belongs (s_world sy) s x p) -> w_heap (s_world sy) p <> None.
Proof. exact nothing_dangles. Qed.
Print Assumptions C63_nothing_dangles_partial.

(** C63.  A handle's count is the number of references the calls hold, so an object can be
    destroyed exactly when no call uses it. *)
Theorem C63_counts_add_up_partial : forall sy s x p u n, reaches sy -> calm_system sy ->
  handle (s_world sy) s x = Some (p, u, n) -> n = sum_of (fun t => refs (t_hist t) s x p) (s_threads sy).
Proof. exact counts_add_up. Qed.
Print Assumptions C63_counts_add_up_partial.

(** C63.  The stores of a client are there exactly as long as the client. *)
Theorem C63_stores_of_clients_partial : forall sy s c, reaches sy -> calm_system sy -> client_of s = Some c ->
  (w_stores (s_world sy) s <> None <-> exists x u n, handle (s_world sy) SClients x = Some (c, u, n)).
Proof. exact stores_of_clients. Qed.
Print Assumptions C63_stores_of_clients_partial.

(** C63.  When all calls have returned, nothing is locked, no object is marked as used, and
    everything still allocated belongs to a handle. *)
Theorem C63_at_rest_partial : forall sy, reaches sy -> calm_system sy -> at_rest sy ->
  w_mutex (s_world sy) = [] /\
  (forall s x p u n, handle (s_world sy) s x = Some (p, u, n) -> n = 0) /\
  (forall p, w_heap (s_world sy) p <> None -> exists s x, belongs (s_world sy) s x p).
Proof. exact rest_clean. Qed.
Print Assumptions C63_at_rest_partial.
Example C63_at_rest_case : exists sy, reaches sy /\ calm_system sy /\ at_rest sy /\ length (s_threads sy) = 4%nat /\
  handle (s_world sy) (SCiphers 1) 31 = Some (6, 9, 0) /\ w_heap (s_world sy) 4 <> None /\ belongs (s_world sy) (SCiphers 1) 31 4.
Proof. exact decrypted_case. Qed.

(** C63.  When besides all clients have been closed, nothing is allocated. *)
Theorem C63_all_closed_partial : forall sy, reaches sy -> calm_system sy -> at_rest sy ->
  (forall x, handle (s_world sy) SClients x = None) -> forall p, w_heap (s_world sy) p = None.
Proof. exact rest_empty. Qed.
Print Assumptions C63_all_closed_partial.
Example C63_all_closed_case : exists sy, reaches sy /\ calm_system sy /\ at_rest sy /\ length (s_threads sy) = 5%nat /\
  forall x, handle (s_world sy) SClients x = None.
Proof. exact closed_case. Qed.

(** C63 refuted: a call given a buffer of unknown type returns with a lock and references. *)
Theorem C63_lock_left_refuted : exists sy, reaches sy /\ at_rest sy /\ w_mutex (s_world sy) <> [] /\
  exists s x p u, handle (s_world sy) s x = Some (p, u, 1).
Proof. exact lock_left. Qed.
Print Assumptions C63_lock_left_refuted.
