(** What a user of the provider's digests relies on, in terms of the calls made and their answers. *)
From Verif Require Import Base M_ProvDigest.

Definition event : Type := op * answer.
Definition is_ctx (c : nat) (x : option nat) : bool := match x with Some y => Nat.eqb y c | None => false end.

(** The algorithm a context was made for; the history is given latest first. *)
Fixpoint made_for (h : list event) (c : nat) : option md :=
  match h with
  | [] => None
  | (New _ a _, Context (Some x)) :: h => if Nat.eqb x c then Some a else made_for h c
  | (Dup (Some y) _, Context (Some x)) :: h => if Nat.eqb x c then made_for h y else made_for h c
  | _ :: h => made_for h c
  end.
(** The context is a copy. *)
Fixpoint copied (h : list event) (c : nat) : bool :=
  match h with
  | [] => false
  | (New _ _ _, Context (Some x)) :: h => if Nat.eqb x c then false else copied h c
  | (Dup (Some y) _, Context (Some x)) :: h => if Nat.eqb x c then true else copied h c
  | _ :: h => copied h c
  end.
(** SHA-1 and SHA-2 in bytes. *)
Definition digest_size (a : md) : Z := match a with SHA1 => 20 | SHA256 => 32 | SHA384 => 48 | SHA512 => 64 end.
Definition fits_in (a : option md) (n : Z) : bool := match a with Some a => digest_size a <=? n | None => true end.
(** The data given to a context, or to the one it is a copy of, since it was initialised; [None] if
    it was not, if something failed, or if its digest has been taken. *)
Fixpoint message (h : list event) (c : nat) : option bytes :=
  match h with
  | [] => None
  | (Dup (Some y) _, Context (Some x)) :: h => if Nat.eqb x c then message h y else message h c
  | (New _ _ _, Context (Some x)) :: h => if Nat.eqb x c then None else message h c
  | (Init x _, Return ok) :: h => if is_ctx c x then (if ok then Some [] else None) else message h c
  | (Update x d _, Return ok) :: h =>
      if is_ctx c x then (if ok then option_map (fun m => m ++ d) (message h c) else None) else message h c
  | (Final x out outl n _ _, Return _) :: h =>   (* refused for its arguments: as if it had not been made, but a copy may be spent *)
      if is_ctx c x then (if out && outl && (copied h c || fits_in (made_for h c) n) then None else message h c) else message h c
  | (Final x _ _ _ _ _, _) :: h => if is_ctx c x then None else message h c
  | _ :: h => message h c
  end.
(** The contexts the caller has and has not given back. *)
Fixpoint held (h : list event) : list nat :=
  match h with
  | [] => []
  | (New _ _ _, Context (Some x)) :: h => x :: held h
  | (Dup _ _, Context (Some x)) :: h => x :: held h
  | (Free (Some c), Return _) :: h => filter (fun x => negb (Nat.eqb x c)) (held h)
  | _ :: h => held h
  end.

Definition history (hash : md -> bytes -> bytes) (l : list op) : list event := rev (fst (run hash l start)).
Definition after (hash : md -> bytes -> bytes) (l : list op) : world := snd (run hash l start).
Definition hash_sizes (hash : md -> bytes -> bytes) : Prop := forall a m, zlen (hash a m) = digest_size a.

(** Data before and after a copy; a refused call in between; the original given back. *)
Definition example_life : list op :=
  [New true SHA1 None; Init (Some 0%nat) None; Update (Some 0%nat) [1; 2] None; Dup (Some 0%nat) None;
   Update (Some 0%nat) [9] None; Update (Some 1%nat) [3] None; Final (Some 0%nat) true true 19 None None;
   Final (Some 0%nat) true true 20 None None; Free (Some 0%nat); Dup (Some 1%nat) (Some 3%nat)].
