(** What an application that exchanges keys through the provider was told, and relies on. *)
From Verif Require Import Base M_ProvExch.

(** Contexts: the handle and the key initialised with last, and the other's public key set last.  Keys: those made, with
    their secret, and not released; what was derived is not told. *)
Record told := Say { q_key : option (Z * group * Z); q_peer : option (group * Z) }.
Record knows := Knows { s_ctx : nat -> option told; s_key : Z -> option (group * Z) }.
Definition nothing : knows := Knows (fun _ => None) (fun _ => None).
Definition say (k : knows) c q := Knows (fun d => if Nat.eqb d c then q else s_ctx k d) (s_key k).
Definition key (k : knows) h s := Knows (s_ctx k) (fun y => if y =? h then s else s_key k y).
Definition hear (k : knows) (e : op * answer) : knows :=
  match e with
  | (Make h g x, Fine) => key k h (Some (g, x))
  | (Release h, Fine) => key k h None
  | (New c, Fine) => say k c (Some (Say None None))
  | (Init c h, Fine) => match s_ctx k c, s_key k h with Some q, Some (g, x) => say k c (Some (Say (Some (h, g, x)) (q_peer q))) | _, _ => k end
  | (SetPeer c g p, Fine) => match s_ctx k c with Some q => say k c (Some (Say (q_key q) (Some (g, p)))) | None => k end
  | (Dup c d _, Fine) => say k d (s_ctx k c)
  | (Free c, Fine) => say k c None
  | _ => k
  end.
Definition heard (events : list (op * answer)) : knows := fold_left hear events nothing.

(** The secure API does not give a handle again that a context was initialised with. *)
Definition handle_new (k : knows) (h : Z) : Prop := forall c q g x, s_ctx k c = Some q -> q_key q <> Some (h, g, x).
Fixpoint handles_new (events : list (op * answer)) (k : knows) : Prop :=
  match events with
  | [] => True
  | e :: r => match e with (Make h _ _, Fine) | (_, Secret h) => handle_new k h | _ => True end /\ handles_new r (hear k e)
  end.
(** Keys that can be exchanged: Diffie-Hellman, over prime fields and over curves *)
Definition exchanges (k : kind) : Prop := k <> Ed /\ k <> Rsa.
(** Both sides agree, as for every such primitive. *)
Definition commutes (L : lib) : Prop := forall g x y, l_agree L g x (l_pub L g y) = l_agree L g y (l_pub L g x).

(** A toy primitive and histories for the witnesses *)
Definition toy : lib := MkLib (fun g x => x * 3) (fun g x p => x * p).
Definition P256 : group := MkGroup Ec 256.
Definition both : list op :=
  [Make 1 P256 5; Make 2 P256 7; New 0; Init 0 1; SetPeer 0 P256 (l_pub toy P256 7); New 1; Init 1 2; SetPeer 1 P256 (l_pub toy P256 5); Dup 0 2 true].
Definition no_peer : list op := [Make 1 P256 5; New 0; Init 0 1].
Definition no_key : list op := [New 0; SetPeer 0 P256 21].
Definition again : list op := [Make 1 P256 5; New 0; Init 0 1; SetPeer 0 P256 21; Release 1; Make 1 P256 9].
