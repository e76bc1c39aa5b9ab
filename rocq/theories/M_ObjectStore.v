(** Model of taimpl/src/internal/object_store.c.

    Every store access in that file runs between [mtx_lock] and [mtx_unlock] of
    the store's mutex, so each locked region is one atomic event.  A history of
    events is any interleaving of the locked regions of any number of calls from
    any number of threads.  Failures of [mtx_lock] itself are not modelled. *)
From Verif Require Import Base M_Slots.

(** [sa_uuid] is 16 bytes; it is modelled as the number those bytes spell.  The
    comparison [memory_memcmp_constant(a, b, 16) != 0] (porting/memory.c) is then
    inequality of numbers; see M_Memory.v for the byte-level function. *)
Definition uuid := Z.

(** [store_object_t], object_store.c:28-32.  [object] is a pointer: [None] is
    NULL.  [reference_count] is unbounded here (a [size_t] in the code). *)
Record entry := MkEntry { e_object : option Z; e_refs : Z; e_owner : uuid }.

(** [struct object_store_s], object_store.c:34-45, without the mutex, the free
    function and the name. *)
Record store := MkStore {
  st_slots : slots;
  st_objects : list entry;
  st_count : Z;
  st_shutting : bool;
  st_releases : Z
}.

Definition empty_entry : entry := MkEntry None 0 0.

(** [object_store_init], object_store.c:47-115; [objects] is zeroed. *)
Definition store_init (count : Z) : option store :=
  if count mod 32 =? 0 then
    match slots_init count with
    | Some sl => Some (MkStore sl (repeat empty_entry (Z.to_nat count)) count false 0)
    | None => None
    end
  else None.

Definition get_entry (st : store) (slot : Z) : entry :=
  nth (Z.to_nat slot) (st_objects st) empty_entry.
Definition set_entry (st : store) (slot : Z) (e : entry) : store :=
  MkStore (st_slots st) (update (Z.to_nat slot) e (st_objects st)) (st_count st)
          (st_shutting st) (st_releases st).
Definition set_slots (st : store) (sl : slots) : store :=
  MkStore sl (st_objects st) (st_count st) (st_shutting st) (st_releases st).

(** [object_store_add], object_store.c:304-362.  Note that the code leaves
    [reference_count] as it was. *)
Definition store_add (st : store) (object : Z) (caller : uuid) : store * status * Z :=
  if st_shutting st then (st, INTERNAL_ERROR, INVALID_HANDLE)
  else
    let '(sl, slot) := slots_allocate (st_slots st) in
    if slot =? INVALID_HANDLE then (set_slots st sl, NO_AVAILABLE_RESOURCE_SLOT, INVALID_HANDLE)
    else
      let e := get_entry st slot in
      (set_entry (set_slots st sl) slot (MkEntry (Some object) (e_refs e) caller), OK, slot).

(** [object_store_acquire], object_store.c:388-458. *)
Definition store_acquire (st : store) (slot : Z) (caller : uuid) : store * status * option Z :=
  if st_count st <=? slot then (st, INVALID_PARAMETER, None)
  else
    let e := get_entry st slot in
    if st_shutting st then (st, INTERNAL_ERROR, None)
    else match e_object e with
         | None => (st, INVALID_PARAMETER, None)
         | Some o =>
             if negb (e_owner e =? caller) then (st, OPERATION_NOT_ALLOWED, None)
             else (set_entry st slot (MkEntry (e_object e) (e_refs e + 1) (e_owner e)), OK, Some o)
         end.

(** [object_store_release], object_store.c:460-515, for a non-NULL [object]. *)
Definition store_release (st : store) (slot : Z) (object : Z) (caller : uuid) : store * status :=
  if st_count st <=? slot then (st, INVALID_PARAMETER)
  else
    let e := get_entry st slot in
    if negb (e_owner e =? caller) then (st, OPERATION_NOT_ALLOWED)
    else if negb (match e_object e with Some o => o =? object | None => false end)
    then (st, INTERNAL_ERROR)
    else if e_refs e =? 0 then (st, INTERNAL_ERROR)
    else (set_entry st slot (MkEntry (e_object e) (e_refs e - 1) (e_owner e)), OK).

(** [increment_release_count] and [decrement_release_count],
    object_store.c:117-160. *)
Definition increment_release_count (st : store) : store * bool :=
  if st_shutting st then (st, false)
  else (MkStore (st_slots st) (st_objects st) (st_count st) (st_shutting st) (st_releases st + 1), true).
Definition decrement_release_count (st : store) : store :=
  MkStore (st_slots st) (st_objects st) (st_count st) (st_shutting st) (st_releases st - 1).

(** One pass of the loop of [store_remove], object_store.c:187-226.  [caller] is
    [None] for the NULL [caller_uuid] of a shutdown.  [RemRetry] is the pass that
    finds references outstanding, unlocks and sleeps.  The precondition
    [slot < slot_count] is checked at lines 172-175, before the loop. *)
Inductive rem_result :=
| RemRetry
| RemDone (s : status) (object_to_free : option Z).

Definition remove_pass (st : store) (slot : Z) (caller : option uuid) : store * rem_result :=
  let e := get_entry st slot in
  match e_object e with
  | None => (st, RemDone INVALID_PARAMETER None)
  | Some o =>
      if match caller with Some u => negb (e_owner e =? u) | None => false end
      then (st, RemDone OPERATION_NOT_ALLOWED None)
      else if e_refs e =? 0 then
        (set_slots (set_entry st slot (MkEntry None (e_refs e) (e_owner e)))
                   (slots_free (st_slots st) slot),
         RemDone OK (Some o))
      else (st, RemRetry)
  end.

(** The locked region of [object_store_shutdown] that sets the flag,
    object_store.c:258-268. *)
Definition set_shutting (st : store) : store :=
  MkStore (st_slots st) (st_objects st) (st_count st) true (st_releases st).

(** ** Histories of atomic events *)
Inductive event :=
| EAdd (object : Z) (caller : uuid)
| EAcquire (h : Z) (caller : uuid)
| ERelease (h : Z) (object : Z) (caller : uuid)
| ERemove (h : Z) (caller : option uuid)  (* one pass of the remove loop *)
| EIncrement
| EDecrement
| EShutdown.

Inductive answer :=
| AHandle (s : status) (h : Z)
| AObject (s : status) (o : option Z)
| AStatus (s : status)
| ARemoved (s : status) (o : option Z)
| AWaiting
| AFlag (b : bool).

Definition step (st : store) (ev : event) : store * answer :=
  match ev with
  | EAdd o u => let '(st', s, h) := store_add st o u in (st', AHandle s h)
  | EAcquire h u => let '(st', s, o) := store_acquire st h u in (st', AObject s o)
  | ERelease h o u => let '(st', s) := store_release st h o u in (st', AStatus s)
  | ERemove h c =>
      if st_count st <=? h then (st, ARemoved INVALID_PARAMETER None)
      else match remove_pass st h c with
           | (st', RemRetry) => (st', AWaiting)
           | (st', RemDone s o) => (st', ARemoved s o)
           end
  | EIncrement => let '(st', b) := increment_release_count st in (st', AFlag b)
  | EDecrement => (decrement_release_count st, AStatus OK)
  | EShutdown => (set_shutting st, AStatus OK)
  end.

Fixpoint run (st : store) (evs : list event) : list (event * answer) * store :=
  match evs with
  | [] => ([], st)
  | ev :: rest =>
      let '(st1, a) := step st ev in
      let '(tr, st2) := run st1 rest in
      ((ev, a) :: tr, st2)
  end.

(** The transcript a store of [count] slots produces for a history.  Handles are
    unsigned, so histories only contain handles that are not negative. *)
Definition event_ok (ev : event) : Prop :=
  match ev with
  | EAcquire h _ | ERelease h _ _ | ERemove h _ => 0 <= h
  | _ => True
  end.

Definition transcript (count : Z) (evs : list event) : list (event * answer) :=
  match store_init count with
  | Some st => fst (run st evs)
  | None => []
  end.
