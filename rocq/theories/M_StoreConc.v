(** Concurrency model of one object store: any number of calls in flight, each at
    some point of the code of object_store.c, interleaved at the granularity of the
    locked regions.  Built from the locked regions of M_ObjectStore.v. *)
From Verif Require Import Base M_Slots M_ObjectStore.

(** A call in flight.  [AUse] is a caller between a successful
    [object_store_acquire] and its [object_store_release].  [ARem0]..[ARem3] are the
    points of [store_remove] called by [object_store_remove] (object_store.c:364-386):
    before line 182, in the wait loop, between the loop and line 233, and between
    line 234 and the return.  The last argument is a ghost: the object the handle
    designated when the call was made. *)
Inductive act :=
| AUse (h o : Z) (u : uuid)
| ARem0 (h : Z) (u : uuid) (target : option Z)
| ARem1 (h : Z) (u : uuid) (target : option Z)
| ARem2 (object_to_free : option Z) (target : option Z)
| ARem3 (object_to_free : option Z) (target : option Z).

(** Progress of [object_store_shutdown], object_store.c:253-302: not called, waiting
    for the release count (270-288), before slot [i] of the sweep (291-293), about to
    free the object taken from slot [i], store memory freed (295-301). *)
Inductive phase :=
| PUp
| PWait
| PSweep (i : Z)
| PFree (i : Z) (o : option Z)
| PGone.

Record config := MkConfig {
  c_store : store;
  c_acts : list act;
  c_phase : phase;
  c_made : list Z;   (* objects ever put in the store; the next one is fresh *)
  c_dead : list Z;   (* objects passed to the store's free function *)
  c_uaf : bool       (* some call touched the store after it was freed *)
}.

Definition fresh (made : list Z) : Z := 1 + fold_right Z.max 0 made.

Definition opt_list (o : option Z) : list Z := match o with Some x => [x] | None => [] end.

Definition designated (st : store) (h : Z) : option Z :=
  if h <? st_count st then e_object (get_entry st h) else None.

(** Steps while the store memory exists. *)
Inductive cstep : config -> config -> Prop :=
(* object_store_add, object_store.c:304-362, with a newly allocated object *)
| CAdd st acts ph made dead u st' s h :
    ph <> PGone ->
    store_add st (fresh made) u = (st', s, h) ->
    cstep (MkConfig st acts ph made dead false)
          (MkConfig st' acts ph (if status_eqb s OK then fresh made :: made else made) dead false)
(* object_store_acquire, object_store.c:388-458 *)
| CAcquire st acts ph made dead u h st' s o :
    ph <> PGone -> 0 <= h ->
    store_acquire st h u = (st', s, o) ->
    cstep (MkConfig st acts ph made dead false)
          (MkConfig st' (match o with Some x => AUse h x u :: acts | None => acts end) ph made dead false)
(* object_store_release, object_store.c:460-515, by a caller that holds a reference *)
| CRelease st l1 l2 ph made dead u h o st' s :
    ph <> PGone ->
    store_release st h o u = (st', s) ->
    cstep (MkConfig st (l1 ++ AUse h o u :: l2) ph made dead false)
          (MkConfig st' (l1 ++ l2) ph made dead false)
(* object_store_remove called; slot range check at object_store.c:172-175 *)
| CRemCall st acts ph made dead u h :
    ph <> PGone -> 0 <= h < st_count st ->
    cstep (MkConfig st acts ph made dead false)
          (MkConfig st (ARem0 h u (designated st h) :: acts) ph made dead false)
(* increment_release_count, object_store.c:181-186 *)
| CRemInc st l1 l2 ph made dead u h t st' b :
    ph <> PGone ->
    increment_release_count st = (st', b) ->
    cstep (MkConfig st (l1 ++ ARem0 h u t :: l2) ph made dead false)
          (MkConfig st' (l1 ++ (if b then [ARem1 h u t] else []) ++ l2) ph made dead false)
(* one pass of the loop, object_store.c:187-226 *)
| CRemPass st l1 l2 ph made dead u h t st' r :
    ph <> PGone ->
    remove_pass st h (Some u) = (st', r) ->
    cstep (MkConfig st (l1 ++ ARem1 h u t :: l2) ph made dead false)
          (MkConfig st' (l1 ++ (match r with RemRetry => ARem1 h u t | RemDone _ o => ARem2 o t end) :: l2)
                    ph made dead false)
(* decrement_release_count, object_store.c:233-235 *)
| CRemDec st l1 l2 ph made dead o t :
    ph <> PGone ->
    cstep (MkConfig st (l1 ++ ARem2 o t :: l2) ph made dead false)
          (MkConfig (decrement_release_count st) (l1 ++ ARem3 o t :: l2) ph made dead false)
(* store->object_free(object_to_free), object_store.c:238-240 *)
| CRemFree st l1 l2 ph made dead o t :
    ph <> PGone ->
    cstep (MkConfig st (l1 ++ ARem3 o t :: l2) ph made dead false)
          (MkConfig st (l1 ++ l2) ph made (opt_list o ++ dead) false)
(* object_store_shutdown *)
| CShutFlag st acts made dead :
    cstep (MkConfig st acts PUp made dead false)
          (MkConfig (set_shutting st) acts PWait made dead false)
| CShutWait st acts made dead :
    cstep (MkConfig st acts PWait made dead false)
          (MkConfig st acts (if st_releases st =? 0 then PSweep 0 else PWait) made dead false)
| CShutPass st acts i made dead st' r :
    i < st_count st ->
    remove_pass st i None = (st', r) ->
    cstep (MkConfig st acts (PSweep i) made dead false)
          (MkConfig st' acts (match r with RemRetry => PSweep i | RemDone _ o => PFree i o end)
                    made dead false)
| CShutFree st acts i o made dead :
    cstep (MkConfig st acts (PFree i o) made dead false)
          (MkConfig st acts (PSweep (i + 1)) made (opt_list o ++ dead) false)
| CShutEnd st acts i made dead :
    st_count st <= i ->
    cstep (MkConfig st acts (PSweep i) made dead false)
          (MkConfig st acts PGone made dead false)
(* Any step of a call still in flight after the store is freed touches freed memory:
   all of them go through [store->mutex] or [store->object_free].  A remover whose
   loop found nothing to free ([ARem3 None]) just returns.  What happens after such an
   access is undefined, so the configuration has no further steps. *)
| CUseAfterFree st l1 a l2 made dead :
    (match a with ARem3 None _ => False | _ => True end) ->
    cstep (MkConfig st (l1 ++ a :: l2) PGone made dead false)
          (MkConfig st (l1 ++ a :: l2) PGone made dead true)
| CRemEnd st l1 t l2 made dead :
    cstep (MkConfig st (l1 ++ ARem3 None t :: l2) PGone made dead false)
          (MkConfig st (l1 ++ l2) PGone made dead false).

Inductive csteps : config -> config -> Prop :=
| cs_refl c : csteps c c
| cs_step c1 c2 c3 : csteps c1 c2 -> cstep c2 c3 -> csteps c1 c3.

(** A freshly initialised store of [count] slots. *)
Definition initial (count : Z) (c : config) : Prop :=
  exists st, store_init count = Some st /\ c = MkConfig st [] PUp [] [] false.

Definition reachable (count : Z) (c : config) : Prop :=
  exists c0, initial count c0 /\ csteps c0 c.
