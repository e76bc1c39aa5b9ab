(** What an application relies on: the implementation works on the sizes it was given. *)
From Verif Require Import Base M_Widths.

Definition fits (w : width) (x : Z) : Prop := 0 <= x <= size_max w.
Definition lengths_fit (w : width) (l : list (Z * Z)) : Prop := Forall (fun p => fits w (fst p) /\ fits w (snd p)) l.
Definition offsets_fit (w : width) (l : list offset) : Prop := Forall (fun o : offset => let '(a, b, c) := o in fits w a /\ fits w b /\ fits w c) l.
(** A table arrives, and nothing but it was read. *)
Definition arrives_as {T} (given : T) (a : arrival T) : Prop := a = Arrives given 0.
