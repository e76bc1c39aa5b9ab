(** Specification of a handle table, written without reference to slots, bit
    fields or arrays: a partial map from handles to (object, owner, number of
    references outstanding). *)
From Verif Require Import Base M_ObjectStore.

Definition table := Z -> option (Z * uuid * Z).
Definition empty_table : table := fun _ => None.
Definition tset (t : table) (h : Z) (v : option (Z * uuid * Z)) : table :=
  fun k => if k =? h then v else t k.

(** What a handle table with [count] handles may answer to each event.  [down]
    says whether shutdown has begun.  The state after the event is the last
    argument. *)
Inductive spec_step (count : Z) :
  table * bool -> event -> answer -> table * bool -> Prop :=
| SAddDown t o u :
    spec_step count (t, true) (EAdd o u) (AHandle INTERNAL_ERROR INVALID_HANDLE) (t, true)
| SAddFull t o u :
    (forall h, 0 <= h < count -> t h <> None) ->
    spec_step count (t, false) (EAdd o u)
      (AHandle NO_AVAILABLE_RESOURCE_SLOT INVALID_HANDLE) (t, false)
| SAddNew t o u h :
    0 <= h < count -> t h = None ->
    spec_step count (t, false) (EAdd o u) (AHandle OK h) (tset t h (Some (o, u, 0)), false)
| SAcqDown t h u :
    h < count ->
    spec_step count (t, true) (EAcquire h u) (AObject INTERNAL_ERROR None) (t, true)
| SAcqBad t d h u :
    t h = None -> (h < count -> d = false) ->
    spec_step count (t, d) (EAcquire h u) (AObject INVALID_PARAMETER None) (t, d)
| SAcqForeign t h u o w n :
    t h = Some (o, w, n) -> w <> u ->
    spec_step count (t, false) (EAcquire h u) (AObject OPERATION_NOT_ALLOWED None) (t, false)
| SAcqOk t h u o n :
    t h = Some (o, u, n) ->
    spec_step count (t, false) (EAcquire h u) (AObject OK (Some o))
      (tset t h (Some (o, u, n + 1)), false)
| SRelBad t d h o u s :
    s <> OK ->
    (forall n, t h = Some (o, u, n) -> n = 0) ->
    spec_step count (t, d) (ERelease h o u) (AStatus s) (t, d)
| SRelOk t d h o u n :
    t h = Some (o, u, n) -> 0 < n ->
    spec_step count (t, d) (ERelease h o u) (AStatus OK) (tset t h (Some (o, u, n - 1)), d)
| SRemBad t d h c :
    t h = None ->
    spec_step count (t, d) (ERemove h c) (ARemoved INVALID_PARAMETER None) (t, d)
| SRemForeign t d h u o w n :
    t h = Some (o, w, n) -> w <> u ->
    spec_step count (t, d) (ERemove h (Some u)) (ARemoved OPERATION_NOT_ALLOWED None) (t, d)
| SRemBusy t d h c o w n :
    t h = Some (o, w, n) -> 0 < n -> (c = None \/ c = Some w) ->
    spec_step count (t, d) (ERemove h c) AWaiting (t, d)
| SRemOk t d h c o w :
    t h = Some (o, w, 0) -> (c = None \/ c = Some w) ->
    spec_step count (t, d) (ERemove h c) (ARemoved OK (Some o)) (tset t h None, d)
| SInc t d :
    spec_step count (t, d) EIncrement (AFlag (negb d)) (t, d)
| SDec t d :
    spec_step count (t, d) EDecrement (AStatus OK) (t, d)
| SShutdown t d :
    spec_step count (t, d) EShutdown (AStatus OK) (t, true).

(** A transcript is one a handle table could produce from a given state. *)
Inductive accepts (count : Z) : table * bool -> list (event * answer) -> Prop :=
| acc_nil s : accepts count s []
| acc_cons s s' ev a tr :
    spec_step count s ev a s' -> accepts count s' tr -> accepts count s ((ev, a) :: tr).
