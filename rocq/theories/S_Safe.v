(** Vocabulary for what becomes of memory in the whole system. *)
From Verif Require Import Base M_ObjectStore P_ObjectStore M_Rights M_Svp M_Prog M_ApiKey M_ApiCipher M_Api S_Api M_World S_World.

(** Handle [x] of store [s]: the object it stands for, its owner and its references. *)
Definition handle (w : world) (s : sid) (x : Z) : option (Z * uuid * Z) :=
  match w_stores w s with Some st => view st x | None => None end.
(** [p] is the object handle [x] of store [s] stands for, or one inside it. *)
Definition belongs (w : world) (s : sid) (x p : Z) : Prop :=
  exists q u n o, handle w s x = Some (q, u, n) /\ w_heap w q = Some o /\ In p (q :: children o).
(** [p] is an allocation the [i]th call has neither freed nor handed over. *)
Definition keeps (ts : list thread) (i : nat) (p : Z) : Prop :=
  exists t, nth_error ts i = Some t /\ 1 <= owned (t_hist t) p.
(** All calls have returned. *)
Definition at_rest (sy : system) : Prop :=
  forall i t, nth_error (s_threads sy) i = Some t -> exists s, t_prog t = Ret s.
