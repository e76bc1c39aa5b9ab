(** The provider as threads get it: client/src/sa_provider.c:234-289 ([sa_provider_load] in call_once, [sa_get_provider]).
    The mutex is recursive (line 235).  A step of a thread is the code between two places where another thread can come in
    between; the boolean of a step says whether the call below works.  Simplified: mtx_init and mtx_lock do not fail, and
    the process does not exit while threads call (sa_provider_shutdown, run by atexit, destroys the mutex). *)
From Verif Require Import Base.

Inductive place :=
| Idle
| Once                       (* 275: call_once *)
| Load1                      (* 235-242: the mutex is made and locked *)
| Load2                      (* 244: OSSL_LIB_CTX_new *)
| Load3                      (* 250: OSSL_PROVIDER_add_builtin *)
| Load4                      (* 255: the base provider *)
| Load5                      (* 261: this provider *)
| Load6                      (* 267-271: atexit and the unlock *)
| Locking                    (* 277 *)
| Reading.                   (* 282-287 *)
Inductive once := NotRun | Busy (t : nat) | Over.
(** What the caller got, and whether it can be used: the provider is loaded into it. *)
Record answer := Got { a_ctx : option nat; a_usable : bool }.
Record thread := MkThread { t_place : place; t_todo : nat; t_answers : list answer }.
Record world := MkWorld {
  w_threads : nat -> thread; w_once : once; w_mutex : option (nat * nat);
  w_ctx : option nat;                (* lib_ctx *)
  w_loaded : bool;                   (* the provider is in it *)
  w_made : nat                       (* contexts made *)
}.
Definition start (todo : nat -> nat) : world := MkWorld (fun t => MkThread Idle (todo t) []) NotRun None None false 0.

Definition upd (f : nat -> thread) (t : nat) (x : thread) : nat -> thread := fun u => if Nat.eqb u t then x else f u.
Definition go (w : world) (t : nat) (p : place) : world :=
  let x := w_threads w t in
  MkWorld (upd (w_threads w) t (MkThread p (t_todo x) (t_answers x))) (w_once w) (w_mutex w) (w_ctx w) (w_loaded w) (w_made w).
Definition set_once (w : world) o := MkWorld (w_threads w) o (w_mutex w) (w_ctx w) (w_loaded w) (w_made w).
Definition set_mutex (w : world) m := MkWorld (w_threads w) (w_once w) m (w_ctx w) (w_loaded w) (w_made w).
(** A recursive mutex. [None]: the thread waits. *)
Definition lock (t : nat) (m : option (nat * nat)) : option (option (nat * nat)) :=
  match m with
  | None => Some (Some (t, 1%nat))
  | Some (u, n) => if Nat.eqb u t then Some (Some (t, S n)) else None
  end.
Definition unlock (t : nat) (m : option (nat * nat)) : option (nat * nat) :=
  match m with
  | Some (u, S (S n)) => if Nat.eqb u t then Some (u, S n) else m
  | Some (u, _) => if Nat.eqb u t then None else m
  | None => None
  end.
Definition locking (w : world) (t : nat) (p : place) : world :=
  match lock t (w_mutex w) with Some m => go (set_mutex w m) t p | None => w end.
(** Lines 245-248 and so on: return, with the mutex locked; call_once is over. *)
Definition give_up (w : world) (t : nat) : world := go (set_once w Over) t Locking.

Definition step (t : nat) (ok : bool) (w : world) : world :=
  let x := w_threads w t in
  match t_place x with
  | Idle =>
      match t_todo x with
      | O => w
      | S n => MkWorld (upd (w_threads w) t (MkThread Once n (t_answers x))) (w_once w) (w_mutex w) (w_ctx w) (w_loaded w) (w_made w)
      end
  | Once =>
      match w_once w with
      | NotRun => go (set_once w (Busy t)) t Load1
      | Busy _ => w
      | Over => go w t Locking
      end
  | Load1 => locking w t Load2
  | Load2 =>
      if ok then go (MkWorld (w_threads w) (w_once w) (w_mutex w) (Some (w_made w)) (w_loaded w) (S (w_made w))) t Load3
      else give_up w t
  | Load3 => if ok then go w t Load4 else give_up w t
  | Load4 => if ok then go w t Load5 else give_up w t
  | Load5 =>
      if ok then go (MkWorld (w_threads w) (w_once w) (w_mutex w) (w_ctx w) true (w_made w)) t Load6
      else give_up w t
  | Load6 => go (set_once (set_mutex w (unlock t (w_mutex w))) Over) t Locking
  | Locking => locking w t Reading
  | Reading =>
      MkWorld (upd (w_threads w) t (MkThread Idle (t_todo x) (Got (w_ctx w) (w_loaded w) :: t_answers x)))
              (w_once w) (unlock t (w_mutex w)) (w_ctx w) (w_loaded w) (w_made w)
  end.
(** A schedule: which thread makes the next step, and whether the call below works. *)
Fixpoint run (l : list (nat * bool)) (w : world) : world :=
  match l with [] => w | (t, ok) :: l => run l (step t ok w) end.
