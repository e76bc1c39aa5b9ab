(** The client library's session and the end of the process: clientimpl/src/internal/client.c (all), the reference
    porting/ta_client.c:32-38, taimpl/src/internal/ta.c:2142-2190, ta_sa_init.c, ta_sa_close.c and client_store.c:151-206
    and 245-330, as steps of any number of threads and of the thread that runs exit().

    A call of the API takes the session, reads its context, takes the client from the store, works and gives the client
    back; what it does in between is in other models.  Reading and writing the variable [session], which the code does
    without the mutex at first, are single steps here, in the order in which they happen.  The store is made in the
    step that opens the first session: no one else asks for it before, and it stays.  That the store's removal and
    shutdown wait for clients in use is C04 and C05; here they are steps that wait. *)
From Verif Require Import Base.

Inductive store := Absent | Live | Closing | Destroyed | Shut.     (* [Destroyed]: freed, [global_shutdown] not yet set *)
Inductive handler := CloseSession | CloseStore.                   (* registered with atexit *)
Inductive pc :=
| Idle
| S1                   (* client.c:54: session set? *)
| S2                   (* 60: mtx_lock *)
| S3                   (* 67: session set? *)
| S4                   (* 71: ta_open_session up to ta.c:2168 *)
| S5 (i : nat)         (* ta.c:2168: session = context *)
| S6                   (* client.c:79: atexit, once *)
| S7                   (* 82: mtx_unlock *)
| S8                   (* 86: return session *)
| U1 (i : nat)         (* the context's client *)
| U2 (i : nat)         (* client_store_global, client_store_acquire *)
| U3 (i : nat).        (* at work, then client_store_release *)
Inductive exit_pc := Running | XNext | XClose1 | XClose2 | XStore1 | XStore2 | XStore3 | XDone.
Record world := MkWorld {
  w_session : option nat;
  w_ctxs : nat -> bool;            (* session contexts in memory *)
  w_clients : nat -> bool;         (* their clients in the store *)
  w_next : nat;
  w_store : store;
  w_users : list (nat * nat);      (* threads and the clients they have in use *)
  w_mutex : option nat;
  w_once : bool;
  w_handlers : list handler;
  w_exit : exit_pc;
  w_pcs : nat -> pc;
  w_bad : bool                     (* freed memory was used *)
}.
Definition start : world :=
  MkWorld None (fun _ => false) (fun _ => false) 0 Absent [] None false [] Running (fun _ => Idle) false.

Inductive luck := Succeeds | FailsEarly | FailsLate.   (* opening a session: also without memory or authority, or in the store *)
Inductive action :=
| Begin (t : nat)                  (* a thread calls the API *)
| Step (t : nat) (k : luck)        (* its next step *)
| Exit                             (* exit() *)
| ExitStep.
Inductive event := Got (t : nat) (i : nat) | Served (t : nat) | Refused (t : nat).

Definition set_pc (w : world) t p : world :=
  MkWorld (w_session w) (w_ctxs w) (w_clients w) (w_next w) (w_store w) (w_users w) (w_mutex w) (w_once w) (w_handlers w) (w_exit w)
    (fun x => if Nat.eqb x t then p else w_pcs w x) (w_bad w).
Definition set_session (w : world) s : world :=
  MkWorld s (w_ctxs w) (w_clients w) (w_next w) (w_store w) (w_users w) (w_mutex w) (w_once w) (w_handlers w) (w_exit w) (w_pcs w) (w_bad w).
Definition set_mutex (w : world) m : world :=
  MkWorld (w_session w) (w_ctxs w) (w_clients w) (w_next w) (w_store w) (w_users w) m (w_once w) (w_handlers w) (w_exit w) (w_pcs w) (w_bad w).
Definition set_users (w : world) n : world :=
  MkWorld (w_session w) (w_ctxs w) (w_clients w) (w_next w) (w_store w) n (w_mutex w) (w_once w) (w_handlers w) (w_exit w) (w_pcs w) (w_bad w).
Definition set_store (w : world) s : world :=
  MkWorld (w_session w) (w_ctxs w) (w_clients w) (w_next w) s (w_users w) (w_mutex w) (w_once w) (w_handlers w) (w_exit w) (w_pcs w) (w_bad w).
Definition set_clients (w : world) f : world :=
  MkWorld (w_session w) (w_ctxs w) f (w_next w) (w_store w) (w_users w) (w_mutex w) (w_once w) (w_handlers w) (w_exit w) (w_pcs w) (w_bad w).
Definition set_ctxs (w : world) f : world :=
  MkWorld (w_session w) f (w_clients w) (w_next w) (w_store w) (w_users w) (w_mutex w) (w_once w) (w_handlers w) (w_exit w) (w_pcs w) (w_bad w).
Definition set_exit (w : world) x : world :=
  MkWorld (w_session w) (w_ctxs w) (w_clients w) (w_next w) (w_store w) (w_users w) (w_mutex w) (w_once w) (w_handlers w) x (w_pcs w) (w_bad w).
Definition set_handlers (w : world) l : world :=
  MkWorld (w_session w) (w_ctxs w) (w_clients w) (w_next w) (w_store w) (w_users w) (w_mutex w) (w_once w) l (w_exit w) (w_pcs w) (w_bad w).
Definition set_once (w : world) : world :=
  MkWorld (w_session w) (w_ctxs w) (w_clients w) (w_next w) (w_store w) (w_users w) (w_mutex w) true (w_handlers w) (w_exit w) (w_pcs w) (w_bad w).
Definition bad (w : world) : world :=
  MkWorld (w_session w) (w_ctxs w) (w_clients w) (w_next w) (w_store w) (w_users w) (w_mutex w) (w_once w) (w_handlers w) (w_exit w) (w_pcs w) true.
Definition flip (f : nat -> bool) (i : nat) (b : bool) : nat -> bool := fun x => if Nat.eqb x i then b else f x.
(** A new context with its client. *)
Definition open (w : world) : world :=
  MkWorld (w_session w) (flip (w_ctxs w) (w_next w) true) (flip (w_clients w) (w_next w) true) (S (w_next w)) (w_store w) (w_users w)
    (w_mutex w) (w_once w) (w_handlers w) (w_exit w) (w_pcs w) (w_bad w).

(** ta.c:2142-2168: memory and the caller's identity, then client_store_global, which makes the store the first time and
    registers its end (client_store.c:173-217), then client_store_add. *)
Definition make_store (w : world) : world :=
  match w_store w with Absent => set_handlers (set_store w Live) (CloseStore :: w_handlers w) | _ => w end.
Definition open_session (t : nat) (k : luck) (w : world) : world * list event :=
  match k with
  | FailsEarly => (set_pc w t S7, [])
  | FailsLate => (set_pc (match w_store w with Destroyed => bad w | _ => make_store w end) t S7, [])
  | Succeeds =>
      let w := make_store w in
      match w_store w with
      | Live => (set_pc (open w) t (S5 (w_next w)), [])
      | Destroyed => (set_pc (bad w) t S7, [])
      | _ => (set_pc w t S7, [])
      end
  end.

Definition thread_step (t : nat) (k : luck) (w : world) : world * list event :=
  match w_pcs w t with
  | Idle => (w, [])
  | S1 => match w_session w with Some i => (set_pc w t (U1 i), [Got t i]) | None => (set_pc w t S2, []) end
  | S2 => match w_mutex w with None => (set_pc (set_mutex w (Some t)) t S3, []) | Some _ => (w, []) end
  | S3 => match w_session w with Some _ => (set_pc w t S7, []) | None => (set_pc w t S4, []) end
  | S4 => open_session t k w
  | S5 i => (set_pc (set_session w (Some i)) t S6, [])
  | S6 => (set_pc (if w_once w then w else set_once (set_handlers w (CloseSession :: w_handlers w))) t S7, [])
  | S7 => (set_pc (set_mutex w None) t S8, [])
  | S8 => match w_session w with Some i => (set_pc w t (U1 i), [Got t i]) | None => (set_pc w t Idle, [Refused t]) end
  | U1 i => if w_ctxs w i then (set_pc w t (U2 i), []) else (set_pc (bad w) t Idle, [])
  | U2 i =>
      match w_store w with
      | Destroyed => (set_pc (bad w) t Idle, [])
      | Live => if w_clients w i then (set_pc (set_users w ((t, i) :: w_users w)) t (U3 i), []) else (set_pc w t Idle, [Refused t])
      | _ => (set_pc w t Idle, [Refused t])
      end
  | U3 i => (set_pc (set_users w (filter (fun u => negb (Nat.eqb (fst u) t)) (w_users w))) t Idle, [Served t])
  end.

(** exit() runs what atexit registered, the last first; client.c:29-34, client_store.c:163-166, object_store.c:253-302. *)
Definition exit_step (w : world) : world :=
  match w_exit w with
  | Running | XDone => w
  | XNext => match w_handlers w with
             | [] => set_exit w XDone
             | CloseSession :: l => set_exit (set_handlers w l) XClose1
             | CloseStore :: l => set_exit (set_handlers w l) XStore1
             end
  | XClose1 =>
      match w_session w with
      | None => set_exit w XNext
      | Some i =>
          match w_store w with
          | Live => if existsb (fun u => Nat.eqb (snd u) i) (w_users w) then w             (* waits until it is given back *)
                    else set_exit (set_ctxs (set_clients w (flip (w_clients w) i false)) (flip (w_ctxs w) i false)) XClose2
          | Destroyed => bad w
          | _ => set_exit (set_ctxs w (flip (w_ctxs w) i false)) XClose2
          end
      end
  | XClose2 => set_exit (set_session w None) XNext
  | XStore1 => set_exit (set_store w Closing) XStore2
  | XStore2 => match w_users w with [] => set_exit (set_clients (set_store w Destroyed) (fun _ => false)) XStore3 | _ => w end
  | XStore3 => set_exit (set_store w Shut) XNext
  end.

Definition act (a : action) (w : world) : world * list event :=
  match a with
  | Begin t => match w_pcs w t with Idle => (set_pc w t S1, []) | _ => (w, []) end
  | Step t k => thread_step t k w
  | Exit => match w_exit w with Running => (set_exit w XNext, []) | _ => (w, []) end
  | ExitStep => (exit_step w, [])
  end.
Fixpoint run (l : list action) (w : world) : world * list event :=
  match l with
  | [] => (w, [])
  | a :: l => let '(w1, e) := act a w in let '(w2, r) := run l w1 in (w2, e ++ r)
  end.
