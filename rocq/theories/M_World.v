(** The trusted application as a whole: the object stores, the heap, the mutexes, and any
    number of calls in flight, each a program of M_Api.v.  One step runs one command of one
    call, so every interleaving of the calls' accesses to shared state is covered.

    Simplifications: [object_store_remove] runs in one step once nobody holds the object
    (its inner steps are in M_StoreConc.v), and so does the destruction of a client with
    its four stores (client_store.c:34-133); addresses are never reused; the clock, the
    video outputs, failing allocations and the answers of the cryptographic library are
    chosen freely at each step. *)
From Verif Require Import Base M_ObjectStore M_Rights M_Svp M_Prog M_ApiKey M_Api S_Api.

Definition sid_eqb (a b : sid) : bool := if sid_dec a b then true else false.

Record world := MkWorld {
  w_stores : sid -> option store;   (* None: not created, or freed with its client *)
  w_heap : Z -> option obj;         (* None: not allocated, or freed *)
  w_next : Z;                       (* the next fresh address *)
  w_mutex : list (Z * nat)          (* one entry (object, call) for each lock held *)
}.

(** What is chosen freely in one step. *)
Record choice := MkChoice { ch_now : Z; ch_outputs : option video; ch_alloc : bool; ch_ans : ans }.

Inductive served (A : Type) :=
| Served (w : world) (r : A)
| Blocked            (* the call waits: for a mutex, or for the users of an object *)
| Crash.             (* undefined behaviour *)
Arguments Served {A}. Arguments Blocked {A}. Arguments Crash {A}.

Definition set_store (w : world) (s : sid) (st : option store) : world :=
  MkWorld (fun s' => if sid_eqb s' s then st else w_stores w s') (w_heap w) (w_next w) (w_mutex w).
Definition set_heap (w : world) (p : Z) (o : option obj) : world :=
  MkWorld (w_stores w) (fun q => if q =? p then o else w_heap w q) (w_next w) (w_mutex w).
Definition locked_by (w : world) (p : Z) (i : nat) : bool :=
  existsb (fun e => (fst e =? p) && Nat.eqb (snd e) i) (w_mutex w).
Definition locked_by_other (w : world) (p : Z) (i : nat) : bool :=
  existsb (fun e => (fst e =? p) && negb (Nat.eqb (snd e) i)) (w_mutex w).
Definition locked (w : world) (p : Z) : bool := existsb (fun e => fst e =? p) (w_mutex w).
Fixpoint drop_lock (p : Z) (i : nat) (l : list (Z * nat)) : list (Z * nat) :=
  match l with
  | [] => []
  | e :: l => if (fst e =? p) && Nat.eqb (snd e) i then l else e :: drop_lock p i l
  end.

(** Free the addresses of a list; [None] when one of them is not allocated or its mutex
    is locked. *)
Fixpoint free_all (w : world) (l : list Z) : option world :=
  match l with
  | [] => Some w
  | p :: l => match w_heap w p with
              | Some _ => if locked w p then None else free_all (set_heap w p None) l
              | None => None
              end
  end.
(** The free functions of the stores: an object and what it owns. *)
Definition destroy (w : world) (p : Z) : option world :=
  match w_heap w p with Some o => free_all w (p :: children o) | None => None end.

Definition objects_of (st : store) : list Z :=
  flat_map (fun e => match e_object e with Some p => [p] | None => [] end) (st_objects st).
Fixpoint destroy_all (w : world) (l : list Z) : option world :=
  match l with
  | [] => Some w
  | p :: l => match destroy w p with Some w => destroy_all w l | None => None end
  end.
Definition busy (st : store) : bool := existsb (fun e => negb (e_refs e =? 0)) (st_objects st).

(** The four stores of a client: client_store.c:60-133. *)
Definition client_stores (c : Z) : list sid := [SKeys c; SCiphers c; SMacs c; SSvps c].
Definition init_stores (w : world) (c : Z) : world :=
  fold_left (fun w s => set_store w s (store_init NUM_SLOTS)) (client_stores c) w.
(** Shutdown of one store of a client: [None] if it waits, [Some None] if it crashes. *)
Definition shut_store (w : world) (s : sid) : option (option world) :=
  match w_stores w s with
  | None => Some None
  | Some st => if busy st then None
               else Some (match destroy_all w (objects_of st) with
                          | Some w => Some (set_store w s None)
                          | None => None end)
  end.
Fixpoint shut_stores (w : world) (l : list sid) : option (option world) :=
  match l with
  | [] => Some (Some w)
  | s :: l => match shut_store w s with
              | Some (Some w) => shut_stores w l
              | r => r
              end
  end.

Definition read {A} (w : world) (p : Z) (f : obj -> option A) : option A :=
  match w_heap w p with Some o => f o | None => None end.
Definition or_crash {A} (w : world) (r : option A) : served A :=
  match r with Some r => Served w r | None => Crash end.

(** One command of call [i]. *)
Definition serve (w : world) (i : nat) (ch : choice) (c : cmd) : served (resp c) :=
  match c return served (resp c) with
  | CAcquire s h u =>
      match w_stores w s with
      | None => Crash
      | Some st =>
          if h <? 0 then Served w (Failed INVALID_PARAMETER)
          else match store_acquire st h u with
               | (st', _, Some p) => Served (set_store w s (Some st')) (Got p)
               | (_, e, None) => Served w (Failed e)
               end
      end
  | CRelease s h p u =>
      match w_stores w s with
      | None => Crash
      | Some st => Served (set_store w s (Some (fst (store_release st h p u)))) tt
      end
  | CAdd s p o u =>
      match w_stores w s, w_heap w p with
      | Some st, Some _ =>
          match store_add st p u with
          | (st', OK, h) =>
              let w' := set_store (set_heap w p (Some o)) s (Some st') in
              Served (match s with SClients => init_stores w' p | _ => w' end) (Got h)
          | (st', e, _) => Served w (Failed e)
          end
      | _, _ => Crash
      end
  | CRemove s h u =>
      match w_stores w s with
      | None => Crash
      | Some st =>
          if (h <? 0) || (st_count st <=? h) then Served w INVALID_PARAMETER
          else match remove_pass st h (Some u) with
               | (_, RemRetry) => Blocked
               | (st', RemDone e None) => Served w e
               | (st', RemDone e (Some p)) =>
                   let w := set_store w s (Some st') in
                   match (match s with SClients => shut_stores w (client_stores p) | _ => Some (Some w) end) with
                   | None => Blocked
                   | Some None => Crash
                   | Some (Some w) =>
                       match destroy w p with Some w => Served w e | None => Crash end
                   end
               end
      end
  | CLock p =>
      match w_heap w p with
      | None => Crash
      | Some _ => if locked_by_other w p i then Blocked
                  else Served (MkWorld (w_stores w) (w_heap w) (w_next w) ((p, i) :: w_mutex w)) tt
      end
  | CUnlock p =>
      match w_heap w p with
      | Some _ => if locked_by w p i
                  then Served (MkWorld (w_stores w) (w_heap w) (w_next w) (drop_lock p i (w_mutex w))) tt
                  else Crash
      | None => Crash
      end
  | CNew o =>
      if ch_alloc ch then
        let p := w_next w in
        let w' := set_heap w p (Some o) in
        Served (MkWorld (w_stores w') (w_heap w') (p + 1) (w_mutex w')) (Some p)
      else Served w None
  | CFree p o =>
      match free_all w (p :: children o) with Some w => Served w tt | None => Crash end
  | CGetWrapped p => or_crash w (read w p (fun o => match o with OWrapped k => Some k | _ => None end))
  | CGetKey p => or_crash w (read w p (fun o => match o with OKey k => Some k | _ => None end))
  | CGetCipher p => or_crash w (read w p (fun o => match o with OCipher c => Some c | _ => None end))
  | CGetMac p => or_crash w (read w p (fun o => match o with OMac m => Some m | _ => None end))
  | CGetMacState p => or_crash w (read w p (fun o => match o with OMacState m => Some m | _ => None end))
  | CGetSvp p => or_crash w (read w p (fun o => match o with OSvp b => Some b | _ => None end))
  | CSetObj p o =>
      match w_heap w p with Some _ => Served (set_heap w p (Some o)) tt | None => Crash end
  | CClock => Served w (ch_now ch)
  | CPoll => Served w (ch_outputs ch)
  | CUse p k r src dst =>
      match w_heap w p with
      | Some (OKey _) | Some (OMacState _) => Served w (ch_ans ch)
      | _ => Crash
      end
  | CExt _ => Served w (ch_ans ch)
  | CSetVar _ _ => Served w tt
  | CFault => Crash
  end.

(** A call in flight: what was called, where it stands and what it has done. *)
Record thread := MkThread {
  t_call : call; t_slot : Z; t_user : uuid; t_prog : prog status; t_hist : list ev }.
Record system := MkSystem { s_world : world; s_threads : list thread }.

Definition start (k : call) (slot : Z) (u : uuid) : thread := MkThread k slot u (api k slot u) [].
(** At first there is only the empty client store. *)
Definition boot : system :=
  MkSystem (MkWorld (fun s => match s with SClients => store_init NUM_SLOTS | _ => None end)
                    (fun _ => None) 1 []) [].

(** One step of call [i]. *)
Inductive run_result := RunTo (s : system) | RunBlocked | RunDone | RunCrash.
Definition run_step (sy : system) (i : nat) (ch : choice) : run_result :=
  match nth_error (s_threads sy) i with
  | None => RunDone
  | Some t =>
      match t_prog t with
      | Ret _ => RunDone
      | Do c k =>
          match serve (s_world sy) i ch c with
          | Crash => RunCrash
          | Blocked => RunBlocked
          | Served w r =>
              RunTo (MkSystem w (update i (MkThread (t_call t) (t_slot t) (t_user t) (k r) (event c r :: t_hist t))
                                          (s_threads sy)))
          end
      end
  end.

Inductive reaches : system -> Prop :=
| at_boot : reaches boot
| by_start sy k slot u : reaches sy -> reaches (MkSystem (s_world sy) (s_threads sy ++ [start k slot u]))
| by_run sy i ch sy' : reaches sy -> run_step sy i ch = RunTo sy' -> reaches sy'.

(** ** Executable runs, for examples *)
Fixpoint steps (n : nat) (sy : system) (i : nat) (ch : choice) : option system :=
  match n with
  | O => Some sy
  | S n => match run_step sy i ch with RunTo sy => steps n sy i ch | _ => None end
  end.
(** Run call [i] until it returns. *)
Fixpoint finish (n : nat) (sy : system) (i : nat) (ch : choice) : option system :=
  match run_step sy i ch with
  | RunDone => Some sy
  | RunTo sy => match n with O => None | S n => finish n sy i ch end
  | _ => None
  end.
Inductive act :=
| Start (k : call) (slot : Z) (u : uuid)
| Steps (i n : nat) (ch : choice)
| Finish (i : nat) (ch : choice).
Fixpoint schedule (sy : system) (l : list act) : option system :=
  match l with
  | [] => Some sy
  | Start k slot u :: l => schedule (MkSystem (s_world sy) (s_threads sy ++ [start k slot u])) l
  | Steps i n ch :: l => match steps n sy i ch with Some sy => schedule sy l | None => None end
  | Finish i ch :: l => match finish 1000 sy i ch with Some sy => schedule sy l | None => None end
  end.
