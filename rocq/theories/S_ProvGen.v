(** What callers of EVP_PKEY_keygen, paramgen and fromdata with the provider rely on. *)
From Coq Require Import String.
From Verif Require Import Base M_ProvGen.

(** What a context is to make, or an object is: a modulus of so many bits, a key on a curve, a key modulo p (the
    bytes of p and g from the high one on). *)
Inductive wish := Rsa (bits : Z) | Curve (c : Z) | Modulo (p g : list Z).
(** A number's bytes from the high one on. *)
Fixpoint high_first (n : nat) (v : Z) : list Z := match n with O => [] | S n => v / 256 ^ Z.of_nat n mod 256 :: high_first n v end.
Definition bytes_of (v : Z) : list Z := high_first (Z.to_nat ((Z.log2 v + 8) / 8)) v.
(** RFC 3526, 3: 2^2048 - 2^1984 - 1 + 2^64 * ([2^1918 pi] + 124476) *)
Definition group14 : Z :=
  0xFFFFFFFFFFFFFFFFC90FDAA22168C234C4C6628B80DC1CD129024E088A67CC74020BBEA63B139B22514A08798E3404DDEF9519B3CD3A431B302B0A6DF25F14374FE1356D6D51C245E485B576625E7EC6F44C42E9A637ED6B0BFF5CB6F406B7EDEE386BFB5A899FA5AE9F24117C4B1FE649286651ECE45B3DC2007CB8A163BF0598DA48361C55D39A69163FA8FD24CF5F83655D23DCA3AD961C62F356208552BB9ED529077096966D670C354E4ABC9804F1746C08CA18217C32905E462E36CE3BE39E772C180E86039B2783A2EC07A28FB5C55DF06F4C52C9DE2BCBF6955817183995497CEA956AE515D2261898FA051015728E5A8AACAA68FFFFFFFFFFFFFFFF.
(** Unless asked otherwise: 2048 bits, P-256, the curve that the type is named after, RFC 3526's group 14. *)
Definition default (t : kty) : wish :=
  match t with
  | RSA => Rsa 2048 | DH => Modulo (bytes_of group14) [2] | EC => Curve 0
  | X25519 => Curve 4 | X448 => Curve 6 | ED25519 => Curve 3 | ED448 => Curve 5
  end.
(** The names of the curves, OpenSSL's and NIST's, and the secure API's number of each. *)
Definition names : list (string * Z) :=
  [("prime192v1", 7); ("P-192", 7); ("secp224r1", 8); ("P-224", 8); ("prime256v1", 0); ("P-256", 0);
   ("secp384r1", 1); ("P-384", 1); ("secp521r1", 2); ("P-521", 2)]%string%Z.
Definition named (n : string) : option Z :=
  match find (fun e => String.eqb (fst e) n) names with Some e => Some (snd e) | None => None end.
(** Bits are for RSA, names for EC. *)
Definition with_params (t : kty) (p : params) (w : wish) : wish :=
  match t with
  | RSA => match bits p with Some (Some b) => Rsa b | _ => w end
  | EC => match group p with Some n => match named n with Some c => Curve c | None => w end | None => w end
  | _ => w
  end.
Definition of_request (r : request) : wish := match r with AskRsa n => Rsa (8 * n) | AskEc c => Curve c | AskDh p g => Modulo p g end.
(** What is imported. *)
Definition given (t : kty) (s : source) : wish :=
  match s with
  | Handle r | Clear r _ => of_request r
  | Public _ i =>
      match t with
      | RSA => match i_bits i with Some b => Rsa b | None => default t end
      | DH => match i_p i, i_g i with Some (Some p), Some (Some g) => Modulo (bytes_of p) (bytes_of g) | _, _ => default t end
      | EC => match i_group i with Some n => match named n with Some c => Curve c | None => default t end | None => default t end
      | _ => default t
      end
  end.

(** What is known from the calls and their answers: of contexts type, whether they make keys or
    parameters, and wish, of objects the wish. *)
Record known := Known { of_ctx : nat -> option (kty * bool * wish); of_key : nat -> option wish }.
Definition upd {A} (f : nat -> A) (c : nat) (x : A) : nat -> A := fun y => if Nat.eqb y c then x else f y.
Definition hear (k : known) (e : op * answer) : known :=
  match e with
  | (Init c t b p, Fine) => Known (upd (of_ctx k) c (Some (t, b, with_params t p (default t)))) (of_key k)
  | (SetParams c p, Fine) =>
      match of_ctx k c with Some (t, b, w) => Known (upd (of_ctx k) c (Some (t, b, with_params t p w))) (of_key k) | None => k end
  | (SetTemplate c o, Fine) =>
      match of_ctx k c, of_key k o with Some (t, b, _), Some w => Known (upd (of_ctx k) c (Some (t, b, w))) (of_key k) | _, _ => k end
  | (Gen c o true, Asked _) | (Gen c o _, Fine) =>
      match of_ctx k c with Some (_, _, w) => Known (of_ctx k) (upd (of_key k) o (Some w)) | None => k end
  | (Cleanup c, Fine) => Known (upd (of_ctx k) c None) (of_key k)
  | (Import o t s, Fine) => Known (of_ctx k) (upd (of_key k) o (Some (given t s)))
  | (Drop o, Fine) => Known (of_ctx k) (upd (of_key k) o None)
  | _ => k
  end.
Definition heard (l : list (op * answer)) : known := fold_left hear l (Known (fun _ => None) (fun _ => None)).

(** A request for what was wished. *)
Definition serves (r : request) (w : wish) : Prop :=
  match r, w with
  | AskRsa n, Rsa b => 8 * n = b
  | AskEc c, Curve d => c = d
  | AskDh p g, Modulo q h => p = q /\ g = h
  | _, _ => False
  end.
(** Keys of a type. *)
Definition of_type (t : kty) (r : request) : Prop :=
  match t, r with
  | RSA, AskRsa _ | DH, AskDh _ _ => True
  | EC, AskEc c => In c [0; 1; 2; 7; 8]
  | X25519, AskEc c => c = 4 | X448, AskEc c => c = 6 | ED25519, AskEc c => c = 3 | ED448, AskEc c => c = 5
  | _, _ => False
  end.

(** ** Conditions on the caller *)

(** Numbers for a DH key that can be read and are of at most 512 bytes. *)
Definition readable (s : source) : Prop :=
  match s with
  | Public _ i =>
      i_p i <> Some None /\ i_g i <> Some None /\
      (forall v, i_p i = Some (Some v) \/ i_g i = Some (Some v) -> v < 256 ^ 512)
  | _ => True
  end.

(** Moduli of whole bytes; curves by a name in the table, for EC only. *)
Definition careful_params (t : kty) (p : params) : Prop :=
  match bits p with Some (Some b) => b mod 8 = 0 | Some None => False | None => True end /\
  match group p with Some n => t = EC /\ named n <> None | None => True end.
(** Imported: keys of the object's type; public keys with what makes up their type, and none for DH. *)
Definition careful_source (t : kty) (s : source) : Prop :=
  match s with
  | Handle r => of_type t r
  | Clear r _ => True
  | Public _ i =>
      match t with
      | RSA => match i_bits i with Some b => b mod 8 = 0 | None => False end
      | EC => match i_group i with Some n => named n <> None | None => False end
      | DH => False
      | _ => True
      end
  end.
Definition type_of (k : known) (c : nat) : kty := match of_ctx k c with Some (t, _, _) => t | None => RSA end.
Fixpoint careful (l : list op) (w : world) (k : known) : Prop :=
  match l with
  | [] => True
  | o :: l =>
      match o with
      | Init _ t _ p => careful_params t p
      | SetParams c p => careful_params (type_of k c) p
      | Import _ t s => careful_source t s
      | _ => True
      end /\ careful l (fst (step o w)) (hear k (o, snd (step o w)))
  end.
Definition unheard : known := Known (fun _ => None) (fun _ => None).

(** ** Histories in which things go wrong *)

Definition no : params := Params None None.
Definition bits_are b : params := Params (Some (Some b)) None.
Definition group_is n : params := Params None (Some n).
(** All calls succeed; and the request that the context 0 makes then. *)
Definition fine (l : list op) : Prop := Forall (fun e => snd e = Fine) (snd (run l start)).
Definition asks (l : list op) (r : request) : Prop := forall ok, snd (step (Gen 0 9 ok) (fst (run l start))) = Asked r.
Definition spoilt : list op := [Init 0 EC true (group_is "P-384"); SetParams 0 (group_is "brainpoolP384r1")].
Definition unknown : list op := [Init 0 RSA true (Params (Some None) None); Init 1 EC true (group_is "brainpoolP384r1")].
Definition wrong_curve : list op := [Init 0 X25519 true (group_is "P-256"); Gen 0 1 true].
Definition small_group : list op := [Import 1 DH (Public false (I (Some (Some 2819)) (Some (Some 2)) None None)); Init 0 DH true no; SetTemplate 0 1].
