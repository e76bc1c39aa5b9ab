(** What users of the engine in several threads rely on. *)
From Verif Require Import Base M_EngThreads.

(** Thread [t] got this object for this call. *)
Definition obtained (w : world) (t : nat) (c : call) (o : nat) : Prop := In (c, Got (Some o)) (t_answers (w_threads w t)).
(** Methods made under the lock. *)
Definition guarded (s : slot) : Prop := match s with Digest _ => False | _ => True end.
(** Nothing left to do. *)
Definition completed (w : world) (t : nat) : Prop := t_place (w_threads w t) = Idle /\ t_todo (w_threads w t) = [].
(** The answers a caller expects when nothing below fails. *)
Definition served (c : call) (a : answer) : Prop :=
  match c with GetEngine | Get _ => exists o, a = Got (Some o) | _ => a = Listed end.
Definition alone (n : nat) : list (nat * bool) := repeat (O, true) n.
(** The first thread gets the engine, then the second asks for it. *)
Definition two_threads (t : nat) : list call := match t with O | 1%nat => [GetEngine] | _ => [] end.
Definition two_digests (t : nat) : list call := match t with O | 1%nat => [Get (Digest 672)] | _ => [] end.
(** The calls made under the lock. *)
Definition locked (c : call) : bool :=
  match c with GetEngine | ListAsn1 | Get (Cipher _) | Get (Pkey _) | Get Asn1 => true | _ => false end.
(** The answers to them a thread has. *)
Definition locked_answers (w : world) (t : nat) := filter (fun x => locked (fst x)) (t_answers (w_threads w t)).
Definition answered (w : world) (t : nat) (c : call) : Prop := exists a, In (c, a) (t_answers (w_threads w t)).

(** Two threads, each with a cipher to get, one of them with the engine. *)
Definition an_example (t : nat) : list call := match t with O => [GetEngine; Get (Cipher 419); ListAsn1; Get (Digest 672)] | 1%nat => [Get (Cipher 419); GetEngine] | _ => [] end.
