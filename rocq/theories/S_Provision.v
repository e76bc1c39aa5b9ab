(** What provisioning should do. *)
From Verif Require Import Base M_Provision.
Local Open Scope Z_scope.

(** The containers with keys, in order. *)
Definition containers (k : kind) (s : structure) : list (list Z) :=
  let of f := match f_at f with Some b => firstn (Z.to_nat (f_length f)) b | None => [] end in
  match k with Widevine | PlayReady => [of (s_first s)] | Netflix => [of (s_first s); of (s_second s)] | _ => [] end.
Definition proper_field (f : field) : Prop := exists b, f_at f = Some b /\ 0 < f_length f <= zlen b.
Definition supported (k : kind) : Prop := k = Widevine \/ k = PlayReady \/ k = Netflix.
(** A structure as documented. *)
Definition proper (k : kind) (s : structure) : Prop :=
  (match k with Netflix => 48 | _ => 32 end) <= s_there s /\ proper_field (s_first s) /\ proper_field (s_second s) /\ (k = Netflix -> proper_field (s_third s)).
(** Parameters whose first two bytes are their length, no longer than the reference structure. *)
Definition proper_parameters (p : list Z) : Prop := zlen p <= 624 /\ exists rest, p = zlen p / 256 :: zlen p mod 256 :: rest.
(** The surroundings do not fail. *)
Definition fine (x : surroundings) : Prop :=
  x_session x = true /\ x_command x = true /\ x_cache x = true /\ forall n, x_client x n = true.
(** There is a free slot whenever one is asked for. *)
Definition room (x : surroundings) (w : world) : Prop :=
  forall n, exists h, x_slot x n = Some h /\ w_keys w h = None /\ h <> INVALID /\ (forall m, ~ In (Adds h) (x_others x m)).
Definition handles_valid (x : surroundings) : Prop := forall n, x_slot x n <> Some INVALID.
Definition none_of_ours (w : world) : Prop := forall h, w_keys w h <> Some Ours.
Definition stays (s : structure) : structure := s.
(** The parameters the application hands over. *)
Definition given (p : list Z) : list Z := match p with a :: b :: _ => firstn (Z.to_nat (256 * a + b)) p | _ => [] end.

(** A concrete case. *)
Definition block (n : nat) : list Z := repeat 7 n.
Definition good : field := MkField 5 (Some (block 5)).
Definition toy : structure := MkStructure 0 good good good 48.
Definition quiet : surroundings := MkSurroundings true true true (fun _ => true) (fun _ => Some 1) (fun _ _ => Ok) (fun _ => []).
Definition fresh : world := MkWorld (fun _ => None) [] false.
Definition params (n : Z) : list Z := (n / 256) :: (n mod 256) :: repeat 3 (Z.to_nat (n - 2)).
