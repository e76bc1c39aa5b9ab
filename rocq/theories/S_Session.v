(** What one session per process means, and what may be left at its end. *)
From Verif Require Import Base M_Session.

Definition no_exit (l : list action) : Prop := ~ In Exit l.
Definition all_succeed (l : list action) : Prop := forall t k, In (Step t k) l -> k = Succeeds.
(** Threads only, no part of exit(). *)
Definition all_idle (w : world) : Prop := forall t, w_pcs w t = Idle.
Definition nothing_left (w : world) : Prop :=
  w_session w = None /\ (forall i, w_ctxs w i = false) /\ (forall i, w_clients w i = false) /\ w_users w = [] /\
  (w_store w = Shut \/ w_store w = Absent) /\ w_handlers w = [].
Definition holds_lock (w : world) (t : nat) : Prop := w_mutex w = Some t.
Definition at_work (w : world) (t i : nat) : Prop := w_pcs w t = U3 i.
