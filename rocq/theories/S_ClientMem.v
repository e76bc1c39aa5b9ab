(** What a caller of the client library relies on: a call neither keeps memory nor frees memory it should not. *)
From Verif Require Import Base M_ClientMem.

Definition clean (r : option (list nat)) : Prop := r = Some [].
(** The calls known not to be. *)
Definition known_bad (shared : bool) (f : fn) (o : list outcome) (sent_ok : bool) : Prop :=
  match f with
  | DeviceId => sent_ok = false
  | KeyHeader => shared = true
  | KeyProvision => hd Stopped o <> Made           (* no memory for the command *)
  | _ => False
  end.

(** Common encryption: samples are processed in order up to the first with which something is wrong. *)
Definition right (x : sample) : bool := match x with Sent => true | _ => false end.
Fixpoint up_to_first_wrong (i : nat) (l : list sample) : list nat :=
  match l with x :: l => if right x then i :: up_to_first_wrong (S i) l else [] | [] => [] end.
Definition memory_short (x : sample) : bool := match x with NoParam _ => true | _ => false end.
