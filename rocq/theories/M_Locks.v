(** Who waits for whom: the blocking operations of the API calls.

    A call takes a reference on its client, then on each object it works on; for
    cipher, MAC and SVP objects it also locks the object's (recursive) mutex
    ([cipher_store_acquire_exclusive], [mac_store_acquire_exclusive],
    svp_store.c:254-295).  A destroy call waits until nobody else holds a reference
    (object_store.c:187-226).  Nothing else in a call blocks. *)
From Verif Require Import Base.

Inductive lock :=
| LClient (c : Z)
| LKey (k : Z)
| LCipher (k : Z)
| LMac (k : Z)
| LSvp (b : Z).

Definition lock_eq_dec (a b : lock) : {a = b} + {a <> b}.
Proof. decide equality; apply Z.eq_dec. Defined.

(** One blocking-relevant operation of a call. *)
Inductive lop :=
| ORef (l : lock)      (* object_store_acquire: never blocks *)
| OLock (l : lock)     (* mtx_lock: blocks while another thread holds the mutex *)
| ODrop (l : lock)     (* unlock (if locked) and object_store_release *)
| ODrain (l : lock).   (* the wait loop of store_remove *)

(** The calls.  Where a call can stop early it drops what it took and ends, which
    never blocks; only the longest path is listed. *)
Inductive call :=
| CallSvpCopy (c out inb : Z)                    (* ta_sa_svp_buffer_copy.c:46-82 *)
| CallSvpOne (c b : Z)                           (* svp_buffer_write.c, svp_buffer_check.c, svp_key_check.c *)
| CallSvpRelease (c b : Z)                       (* svp_store.c:195-252 *)
| CallCipher (c k : Z) (out inb : option Z)      (* ta_sa_crypto_cipher_process*.c, one sample of cenc.c *)
| CallMac (c k : Z)                              (* ta_sa_crypto_mac_*.c *)
| CallKey (c k : Z)                              (* calls that only use a key *)
| CallKeyRelease (c k : Z)
| CallCipherRelease (c k : Z)
| CallMacRelease (c k : Z)
| CallClose (c : Z).                             (* ta_sa_close.c:22-40 *)

Definition take (l : lock) : list lop := [ORef l; OLock l].
Definition take_opt (b : option Z) : list lop := match b with Some x => take (LSvp x) | None => [] end.
Definition drop_opt (b : option Z) : list lop := match b with Some x => [ODrop (LSvp x)] | None => [] end.

Definition ops (c : call) : list lop :=
  match c with
  | CallSvpCopy c out inb =>
      ORef (LClient c) :: take (LSvp out) ++ take (LSvp inb) ++
      [ODrop (LSvp inb); ODrop (LSvp out); ODrop (LClient c)]
  | CallSvpOne c b => ORef (LClient c) :: take (LSvp b) ++ [ODrop (LSvp b); ODrop (LClient c)]
  | CallSvpRelease c b =>
      ORef (LClient c) :: take (LSvp b) ++ [ODrop (LSvp b); ODrain (LSvp b); ODrop (LClient c)]
  | CallCipher c k out inb =>
      ORef (LClient c) :: take (LCipher k) ++ take_opt out ++ take_opt inb ++
      drop_opt inb ++ drop_opt out ++ [ODrop (LCipher k); ODrop (LClient c)]
  | CallMac c k => ORef (LClient c) :: take (LMac k) ++ [ODrop (LMac k); ODrop (LClient c)]
  | CallKey c k => [ORef (LClient c); ORef (LKey k); ODrop (LKey k); ODrop (LClient c)]
  | CallKeyRelease c k => [ORef (LClient c); ODrain (LKey k); ODrop (LClient c)]
  | CallCipherRelease c k => [ORef (LClient c); ODrain (LCipher k); ODrop (LClient c)]
  | CallMacRelease c k => [ORef (LClient c); ODrain (LMac k); ODrop (LClient c)]
  | CallClose c => [ODrain (LClient c)]
  end.

(** A thread in the middle of a call: references held, mutexes held (each occurrence
    is one recursive lock), operations left. *)
Record thread := MkThread { t_refs : list lock; t_held : list lock; t_todo : list lop }.

Fixpoint remove_one (l : lock) (ls : list lock) : list lock :=
  match ls with
  | [] => []
  | x :: t => if lock_eq_dec x l then t else x :: remove_one l t
  end.

(** Whether a thread can make its next step, given the other threads. *)
Definition can_step (others : list thread) (t : thread) : Prop :=
  match t_todo t with
  | [] => False
  | OLock l :: _ => forall o, In o others -> ~ In l (t_held o)
  | ODrain l :: _ => forall o, In o others -> ~ In l (t_refs o)
  | _ :: _ => True
  end.

Definition advance (t : thread) : thread :=
  match t_todo t with
  | [] => t
  | ORef l :: k => MkThread (l :: t_refs t) (t_held t) k
  | OLock l :: k => MkThread (t_refs t) (l :: t_held t) k
  | ODrop l :: k => MkThread (remove_one l (t_refs t)) (remove_one l (t_held t)) k
  | ODrain l :: k => MkThread (t_refs t) (t_held t) k
  end.

Inductive lstep : list thread -> list thread -> Prop :=
| LStart ts c : lstep ts (MkThread [] [] (ops c) :: ts)
| LStep l1 t l2 : can_step (l1 ++ l2) t -> lstep (l1 ++ t :: l2) (l1 ++ advance t :: l2)
| LEnd l1 t l2 : t_todo t = [] -> lstep (l1 ++ t :: l2) (l1 ++ l2).

(** Runs in which every call made satisfies [P]. *)
Inductive lruns (P : call -> Prop) : list thread -> Prop :=
| lr_nil : lruns P []
| lr_start ts c : lruns P ts -> P c -> lruns P (MkThread [] [] (ops c) :: ts)
| lr_step l1 t l2 : lruns P (l1 ++ t :: l2) -> can_step (l1 ++ l2) t -> lruns P (l1 ++ advance t :: l2)
| lr_end l1 t l2 : lruns P (l1 ++ t :: l2) -> t_todo t = [] -> lruns P (l1 ++ l2).

(** Deadlock: there are unfinished calls and none of them can ever step. *)
Definition deadlocked (ts : list thread) : Prop :=
  ts <> [] /\ forall l1 t l2, ts = l1 ++ t :: l2 -> t_todo t <> [] /\ ~ can_step (l1 ++ l2) t.
