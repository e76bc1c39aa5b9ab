(** Model of the engine's registration and of its tables of methods as threads see them (OpenSSL 1.1.x):
    reference/src/client/src/sa_engine.c, and the getters in sa_engine_cipher.c,
    sa_engine_pkey.c, sa_engine_pkey_asn1_method.c and sa_engine_digest.c.
    [engine_mutex] is recursive (sa_engine.c:47).  A step of a thread is the code between two places
    where another thread can come in between.  Simplifications: one step for the calls to OpenSSL
    inside; mtx_lock does not fail; call_once has been done; the process does not exit; numbers the
    engine does not know are left out.  The boolean of a step says whether the calls below work. *)
From Verif Require Import Base.

(** The tables: one slot for each method, filled when first asked for. *)
Inductive slot := Cipher (nid : Z) | Pkey (nid : Z) | Asn1 | Digest (nid : Z).
Definition slot_eqb (a b : slot) : bool :=
  match a, b with
  | Cipher x, Cipher y | Pkey x, Pkey y | Digest x, Digest y => x =? y
  | Asn1, Asn1 => true
  | _, _ => false
  end.
Inductive call :=
| GetEngine                        (* sa_get_engine *)
| Get (s : slot)                   (* a getter with a number *)
| ListCiphers | ListPkeys | ListDigests | ListAsn1.      (* a getter with a NULL method *)
(** An object or NULL; the list of numbers. *)
Inductive answer := Got (o : option nat) | Listed.

(** Where a thread is. *)
Inductive place :=
| Idle
| Engine1                          (* sa_engine.c:75, at the lock *)
| Engine2                          (* 80-81, holding it: is there an engine? *)
| Engine3                          (* 83-108: there is none *)
| Engine4                          (* 111: added; ENGINE_register_pkey_asn1_meths asks for the list *)
| Engine5 (e : option nat)         (* 125: ENGINE_init *)
| Engine6 (e : option nat)         (* 131: the unlock *)
| Table1 (s : slot) (listed : bool)        (* at the lock of a getter *)
| Table2 (s : slot) (listed : bool)        (* is the slot filled? *)
| Table3 (s : slot) (listed : bool)        (* fill it *)
| Table4 (s : slot) (listed : bool)        (* done with it *)
| Free1 (s : slot)                         (* the digests: no lock *)
| Free2 (s : slot)
| Free3 (s : slot).

Record thread := MkThread { t_place : place; t_todo : list call; t_answers : list (call * answer) }.
Record world := MkWorld {
  w_threads : nat -> thread;
  w_mutex : option (nat * nat);             (* owner and count *)
  w_engine : option nat;                    (* the engine known to OpenSSL under this name *)
  w_added : nat;                            (* how often one was added *)
  w_slots : slot -> option nat;
  w_next : nat                              (* the next object *)
}.
Definition start (todo : nat -> list call) : world :=
  MkWorld (fun t => MkThread Idle (todo t) []) None None 0 (fun _ => None) 0.

Definition upd (f : nat -> thread) (t : nat) (x : thread) : nat -> thread := fun u => if Nat.eqb u t then x else f u.
Definition fill (f : slot -> option nat) (s : slot) (o : option nat) : slot -> option nat := fun r => if slot_eqb r s then o else f r.
Definition go (w : world) (t : nat) (p : place) : world :=
  let x := w_threads w t in
  MkWorld (upd (w_threads w) t (MkThread p (t_todo x) (t_answers x))) (w_mutex w) (w_engine w) (w_added w) (w_slots w) (w_next w).
Definition reply (w : world) (t : nat) (c : call) (a : answer) : world :=
  let x := w_threads w t in
  MkWorld (upd (w_threads w) t (MkThread Idle (t_todo x) ((c, a) :: t_answers x))) (w_mutex w) (w_engine w) (w_added w) (w_slots w) (w_next w).
Definition set_mutex (w : world) m := MkWorld (w_threads w) m (w_engine w) (w_added w) (w_slots w) (w_next w).

(** A recursive mutex. [None]: the thread waits. *)
Definition lock (t : nat) (m : option (nat * nat)) : option (option (nat * nat)) :=
  match m with
  | None => Some (Some (t, 1%nat))
  | Some (u, n) => if Nat.eqb u t then Some (Some (t, S n)) else None
  end.
Definition unlock (t : nat) (m : option (nat * nat)) : option (nat * nat) :=
  match m with
  | Some (u, S (S n)) => if Nat.eqb u t then Some (u, S n) else m
  | Some (u, _) => if Nat.eqb u t then None else m
  | None => None
  end.
Definition locking (w : world) (t : nat) (p : place) : world :=
  match lock t (w_mutex w) with Some m => go (set_mutex w m) t p | None => w end.
Definition the_call (s : slot) (listed : bool) : call := if listed then ListAsn1 else Get s.

Definition step (t : nat) (ok : bool) (w : world) : world :=
  let x := w_threads w t in
  match t_place x with
  | Idle =>
      match t_todo x with
      | [] => w
      | c :: rest =>
          let w := MkWorld (upd (w_threads w) t (MkThread Idle rest (t_answers x))) (w_mutex w) (w_engine w) (w_added w) (w_slots w) (w_next w) in
          match c with
          | GetEngine => go w t Engine1
          | Get (Digest n) => go w t (Free1 (Digest n))            (* sa_engine_digest.c:50-100 *)
          | Get s => go w t (Table1 s false)
          | ListAsn1 => go w t (Table1 Asn1 true)                  (* sa_engine_pkey_asn1_method.c:146: locks first *)
          | c => reply w t c Listed                                (* sa_engine_cipher.c, sa_engine_pkey.c:1331, sa_engine_digest.c:57 *)
          end
      end
  | Engine1 => locking w t Engine2
  | Engine2 => match w_engine w with Some e => go w t (Engine5 (Some e)) | None => go w t Engine3 end
  | Engine3 =>
      if ok then go (MkWorld (w_threads w) (w_mutex w) (Some (w_next w)) (S (w_added w)) (w_slots w) (S (w_next w))) t Engine4
      else go w t (Engine5 None)
  | Engine4 =>
      (* the lock is this thread's; sa_engine_pkey_asn1_method.c:146-160 locks, fills its slot and returns *)
      let w := match lock t (w_mutex w) with Some m => set_mutex w m | None => w end in
      let w := match w_slots w Asn1 with
               | Some _ => w
               | None => MkWorld (w_threads w) (w_mutex w) (w_engine w) (w_added w) (fill (w_slots w) Asn1 (Some (w_next w))) (S (w_next w))
               end in
      go w t (Engine5 (if ok then w_engine w else None))
  | Engine5 e =>
      (* 125-129: ENGINE_init of NULL fails; a failure returns *)
      match e with
      | Some e => if ok then go w t (Engine6 (Some e)) else reply w t GetEngine (Got None)
      | None => reply w t GetEngine (Got None)
      end
  | Engine6 e => reply (set_mutex w (unlock t (w_mutex w))) t GetEngine (Got e)
  | Table1 s b => locking w t (Table2 s b)
  | Table2 s b => match w_slots w s with Some _ => go w t (Table4 s b) | None => go w t (Table3 s b) end
  | Table3 s b =>
      if ok then go (MkWorld (w_threads w) (w_mutex w) (w_engine w) (w_added w) (fill (w_slots w) s (Some (w_next w))) (S (w_next w))) t (Table4 s b)
      else go w t (Table4 s b)
  | Table4 s b =>
      if b then reply w t (the_call s b) Listed                   (* sa_engine_pkey_asn1_method.c:154-160: returns without unlocking *)
      else reply (set_mutex w (unlock t (w_mutex w))) t (the_call s b) (Got (w_slots w s))
  | Free1 s => match w_slots w s with Some _ => go w t (Free3 s) | None => go w t (Free2 s) end
  | Free2 s => go (MkWorld (w_threads w) (w_mutex w) (w_engine w) (w_added w) (fill (w_slots w) s (Some (w_next w))) (S (w_next w))) t (Free3 s)
  | Free3 s => reply w t (Get s) (Got (w_slots w s))
  end.
(** A schedule: which thread makes the next step, and whether the calls below work. *)
Fixpoint run (l : list (nat * bool)) (w : world) : world :=
  match l with [] => w | (t, ok) :: l => run l (step t ok w) end.
