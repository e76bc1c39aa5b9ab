(** What callers of sa_get_provider in several threads rely on. *)
From Verif Require Import Base M_ProvLoad.

Definition obtained (w : world) (t : nat) (a : answer) : Prop := In a (t_answers (w_threads w t)).
Definition works (l : list (nat * bool)) : Prop := Forall (fun s => snd s = true) l.
Definition waits (w : world) (t : nat) : Prop := t_place (w_threads w t) <> Idle \/ t_todo (w_threads w t) <> O.
Definition answers (w : world) (t : nat) : nat := length (t_answers (w_threads w t)).

(** Two threads with a call each. The first loads; a call fails below; then it asks for the context. *)
Definition two (t : nat) : nat := match t with O | 1%nat => 1%nat | _ => O end.
Definition fails_after (n : nat) : list (nat * bool) := repeat (O, true) n ++ [(O, false); (O, true); (O, true)].
Definition turns : list (nat * bool) := concat (repeat [(O, true); (1%nat, true)] 14).
