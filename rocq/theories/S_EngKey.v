(** What an application that loads keys through the engine is told, and relies on. *)
From Verif Require Import Base M_EngKey.

(** The keys the application loaded, with the handle it gave and the type of the key, and the keys it made itself. *)
Record knows := Knows { key : Z -> option (Z * kind); own : Z -> bool }.
Definition nothing : knows := Knows (fun _ => None) (fun _ => false).
Definition hear (k : knows) (e : op * answer) : knows :=
  match e with
  | (Load h (Some t) _ _ _, Key p) => Knows (fun y => if y =? p then Some (h, t) else key k y) (own k)
  | (Own _ _ _ _, Key p) => Knows (key k) (fun y => if y =? p then true else own k y)
  | (Free p, Fine) => Knows (fun y => if y =? p then None else key k y) (fun y => if y =? p then false else own k y)
  | _ => k
  end.
Definition heard (events : list (op * answer)) : knows := fold_left hear events nothing.

(** There is memory, and no structure of libcrypto is larger than the 512 bytes set aside for it. *)
Definition memory_suffices (o : op) : Prop :=
  match o with
  | Load _ _ public lk _ => l_evp lk = true /\ l_room lk = true /\ match public with Some (_, _, u) => u <= 512 | None => True end
  | _ => True
  end.
(** Only keys loaded through the engine are used with it. *)
Definition only_loaded (k : knows) (o : op) : Prop := match o with Data p | Derive p => key k p <> None | _ => True end.
Fixpoint proper (events : list (op * answer)) (k : knows) : Prop :=
  match events with [] => True | e :: r => only_loaded k (fst e) /\ proper r (hear k e) end.

(** Histories for the witnesses *)
Definition all_well : luck := MkLuck true true true true.
Definition two_keys : list op :=
  [Load 7 (Some Rsa) (Some (Rsa, 70, 168)) all_well 1; Own Ec 99 80 2; Load 8 (Some Curve) (Some (Curve, 80, 72)) all_well 3; Load 9 (Some Sym) None all_well 4; Data 1; Free 2].
Definition short_of_memory : luck := MkLuck true false true true.
Definition no_memory (k : kind) : list op := [Load 7 (Some k) (Some (k, 70, 168)) short_of_memory 1].
Definition no_memory_curve : list op := [Load 8 (Some Curve) (Some (Curve, 80, 72)) short_of_memory 1].
Definition no_engine : list op := [Load 7 (Some Rsa) (Some (Rsa, 70, 168)) (MkLuck true true true false) 1].
Definition own_key : list op := [Own Rsa 99 168 1].
