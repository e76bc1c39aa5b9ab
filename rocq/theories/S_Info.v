(** sa.h:82-136: what the calls that tell about the implementation promise. *)
From Verif Require Import Base M_Info.

(** A name and the zero after it. *)
Definition text (nm : list Z) : list Z := nm ++ [0].
Definition needed (nm : list Z) : Z := Z.of_nat (length nm) + 1.
(** [name_length] is the length of the memory at [name]. *)
Definition honest (buf : option (list Z)) (n : Z) : Prop := match buf with Some b => n = Z.of_nat (length b) | None => True end.
Definition no_success (fail : option status) : Prop := fail <> Some OK.
(** The device's id was asked for and the call failed on its way. *)
Definition id_failed (c : call) : bool :=
  match c with Info DeviceId true (Some _) _ _ => true | _ => false end.
