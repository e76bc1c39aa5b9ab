(** C01, C02, C03: handles.  [transcript count evs] is what a store of [count] slots
    answers to the history [evs] of atomic operations (any interleaving of any
    number of calls).  [ledger] (S_Handles.v) replays questions and answers only.
    Preconditions: the slot count is a multiple of 32 and below INVALID_HANDLE (it
    is 256 in client_store.c:25-29) and handles are unsigned. *)
From Verif Require Import Base M_ObjectStore S_ObjectStore S_Handles P_ObjectStore P_Handles.

(** C01: if two creations are answered with the same handle, the first object was
    destroyed in between, at the request of its creator or by shutdown. *)
Theorem C01_live_handles_unique : forall count evs t1 t2 t3 o1 u1 o2 u2 h,
  0 <= count < INVALID_HANDLE -> count mod 32 = 0 -> Forall event_ok evs ->
  transcript count evs =
    t1 ++ (EAdd o1 u1, AHandle OK h) :: t2 ++ (EAdd o2 u2, AHandle OK h) :: t3 ->
  exists c, In (ERemove h c, ARemoved OK (Some o1)) t2 /\ (c = Some u1 \/ c = None).
Proof. exact unique_handles. Qed.
Print Assumptions C01_live_handles_unique.

Example C01_case : exists t1 t2 t3,
  transcript 256 demo_history =
  t1 ++ (EAdd 100 7, AHandle OK 31) :: t2 ++ (EAdd 102 9, AHandle OK 31) :: t3 /\ length t2 = 8%nat.
Proof. exact demo_reuse. Qed.

(** C01: a creation that succeeds returns a handle that is in range and designates
    nothing; one that fails does so only when every handle is live. *)
Theorem C01_creation_fresh_or_full : forall count evs tr1 tr2 o u a,
  0 <= count < INVALID_HANDLE -> count mod 32 = 0 -> Forall event_ok evs ->
  transcript count evs = tr1 ++ (EAdd o u, a) :: tr2 -> shut tr1 = false ->
  (exists h, a = AHandle OK h /\ 0 <= h < count /\ ledger tr1 h = None) \/
  (a = AHandle NO_AVAILABLE_RESOURCE_SLOT INVALID_HANDLE /\
   forall h, 0 <= h < count -> ledger tr1 h <> None).
Proof. exact add_answer. Qed.
Print Assumptions C01_creation_fresh_or_full.

Example C01_full_case :
  let h := map (fun i => EAdd (Z.of_nat i) 7) (seq 0 257) in
  map snd (skipn 255 (transcript 256 h)) =
  [AHandle OK 224; AHandle NO_AVAILABLE_RESOURCE_SLOT INVALID_HANDLE].
Proof. exact demo_full. Qed.

(** C02: every transcript is one that a partial map from handles to (object, owner,
    outstanding uses) could produce (S_ObjectStore.v). *)
Theorem C02_store_refines_map : forall count evs,
  0 <= count < INVALID_HANDLE -> count mod 32 = 0 -> Forall event_ok evs ->
  accepts count (empty_table, false) (transcript count evs).
Proof. exact transcript_accepted. Qed.
Print Assumptions C02_store_refines_map.

Example C02_case : transcript 256 demo_history =
  [(EAdd 100 7, AHandle OK 31); (EAdd 101 8, AHandle OK 30);
   (EAcquire 31 7, AObject OK (Some 100)); (EAcquire 31 8, AObject OPERATION_NOT_ALLOWED None);
   (ERemove 31 (Some 7), AWaiting); (ERemove 31 (Some 8), ARemoved OPERATION_NOT_ALLOWED None);
   (ERelease 31 100 7, AStatus OK); (ERemove 31 (Some 7), ARemoved OK (Some 100));
   (EAcquire 31 7, AObject INVALID_PARAMETER None); (EAdd 102 9, AHandle OK 31);
   (EAcquire 30 8, AObject OK (Some 101)); (EAcquire 31 9, AObject OK (Some 102))].
Proof. exact demo_transcript. Qed.

(** C02, C03: before shutdown, a use of a handle yields exactly the object it was
    created with, and only to the client that created it. *)
Theorem C03_only_creator_can_use : forall count evs tr1 tr2 h u a,
  0 <= count < INVALID_HANDLE -> count mod 32 = 0 -> Forall event_ok evs ->
  transcript count evs = tr1 ++ (EAcquire h u, a) :: tr2 -> shut tr1 = false ->
  a = match ledger tr1 h with
      | None => AObject INVALID_PARAMETER None
      | Some (o, w, _) => if w =? u then AObject OK (Some o) else AObject OPERATION_NOT_ALLOWED None
      end.
Proof. exact acquire_answer. Qed.
Print Assumptions C03_only_creator_can_use.

(** C03: a destruction succeeds only for the creator (or shutdown, [c = None]) and
    only when no use is outstanding; it yields the object created under the handle. *)
Theorem C03_only_creator_can_destroy : forall count evs tr1 tr2 h c a,
  0 <= count < INVALID_HANDLE -> count mod 32 = 0 -> Forall event_ok evs ->
  transcript count evs = tr1 ++ (ERemove h c, a) :: tr2 ->
  a = match ledger tr1 h with
      | None => ARemoved INVALID_PARAMETER None
      | Some (o, w, n) =>
          if match c with Some u => w =? u | None => true end
          then if n =? 0 then ARemoved OK (Some o) else AWaiting
          else ARemoved OPERATION_NOT_ALLOWED None
      end.
Proof. exact remove_answer. Qed.
Print Assumptions C03_only_creator_can_destroy.

(** C03: a reference is given back only by the owner, for the same object, and only
    if one is outstanding. *)
Theorem C03_release_matches_acquire : forall count evs tr1 tr2 h o u a,
  0 <= count < INVALID_HANDLE -> count mod 32 = 0 -> Forall event_ok evs ->
  transcript count evs = tr1 ++ (ERelease h o u, a) :: tr2 ->
  a = AStatus OK <-> exists n, ledger tr1 h = Some (o, u, n) /\ 0 < n.
Proof. exact release_answer. Qed.
Print Assumptions C03_release_matches_acquire.

Example C03_case : Forall event_ok demo_history.
Proof. exact demo_ok. Qed.
