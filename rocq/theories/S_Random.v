(** What an application relies on: success means that every byte is random. *)
From Verif Require Import Base M_Random.

Definition random (fresh : nat -> Z) (n : nat) : list Z := map fresh (seq 0 n).
Definition filled (fresh : nat -> Z) (out : list Z) : option (status * list Z) := Some (OK, random fresh (length out)).
Definition failed {A} (untouched : A) (r : option (status * A)) : Prop := exists s, s <> OK /\ r = Some (s, untouched).
