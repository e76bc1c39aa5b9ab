(** The published key derivation functions. *)
From Verif Require Import Base M_Rights M_Mac S_Rights S_Mac.

(** Digest lengths in bytes: 0 SHA-1, 1 SHA-256, 2 SHA-384, 3 SHA-512. *)
Definition hash_len (d : Z) : nat := Z.to_nat (match d with 0 => 20 | 1 => 32 | 2 => 48 | _ => 64 end).

(** The number of blocks needed for [n] bytes. *)
Definition blocks (n len : nat) : nat := ((n + len - 1) / len)%nat.

(** RFC 5869: extract and expand.  Without a salt it is a string of zeros as long as the
    digest. *)
Definition salt_value (d : Z) (salt : input) : list Z :=
  match salt with Bytes s => s | Null _ => repeat 0 (hash_len d) end.
Fixpoint hkdf_t (L : lib) (d : Z) (prk info : list Z) (i : nat) : list Z :=
  match i with
  | O => []
  | S j => l_hmac L d prk (hkdf_t L d prk info j ++ info ++ [Z.of_nat i])
  end.
Definition rfc5869 (L : lib) (d : Z) (salt : input) (ikm info : list Z) (n : nat) : list Z :=
  let prk := l_hmac L d (salt_value d salt) ikm in
  firstn n (concat (map (hkdf_t L d prk info) (seq 1 (blocks n (hash_len d))))).

(** A 32-bit counter, big endian. *)
Definition be32 (i : nat) : list Z :=
  let z := Z.of_nat i in [z / 2 ^ 24 mod 256; z / 2 ^ 16 mod 256; z / 2 ^ 8 mod 256; z mod 256].
(** NIST SP 800-56A, one-step: hashes of counter, secret and other information. *)
Definition sp800_56a (L : lib) (d : Z) (secret info : list Z) (n : nat) : list Z :=
  firstn n (concat (map (fun i => l_hash L d (be32 i ++ secret ++ info)) (seq 1 (blocks n (hash_len d))))).
(** ANSI X9.63: the secret comes before the counter. *)
Definition x963 (L : lib) (d : Z) (secret info : list Z) (n : nat) : list Z :=
  firstn n (concat (map (fun i => l_hash L d (secret ++ be32 i ++ info)) (seq 1 (blocks n (hash_len d))))).

(** Counter mode CMAC with four blocks; [n] bytes from block [c] on. *)
Definition ctr_cmac (L : lib) (key other : list Z) (c n : nat) : list Z :=
  firstn n (skipn (16 * (c - 1)) (concat (map (fun i => l_cmac L key ([Z.of_nat i] ++ other)) [1; 2; 3; 4]%nat))).

(** Netflix MSL: the wrapping key of an encryption and an HMAC key.  Salt and info are those
    of the MSL reference code. *)
Definition msl_salt : list Z := [2; 118; 23; 152; 79; 98; 39; 83; 154; 99; 11; 137; 124; 1; 125; 105].
Definition msl_info : list Z := [128; 159; 130; 167; 173; 223; 84; 141; 62; 169; 221; 6; 127; 249; 187; 145].
Definition msl_wrapping (L : lib) (enc hmac : list Z) : list Z :=
  firstn 16 (l_hmac L 1 (l_hmac L 1 msl_salt (enc ++ hmac)) msl_info).

(** Netflix MSL: the shared secret is a number, written big endian with as few bytes as
    possible after exactly one zero byte (netflix.c:237-247). *)
Fixpoint be_value (l : list Z) : Z := match l with [] => 0 | b :: l => b * 256 ^ zlen l + be_value l end.
Definition msl_number (l : list Z) (v : Z) : Prop :=
  exists m, l = 0 :: m /\ be_value m = v /\ Forall byte_ok m /\ match m with [] => True | b :: _ => b <> 0 end.
Definition msl_keys (L : lib) (inkey number : list Z) : list Z * list Z :=
  let k := l_hmac L 2 (l_hash L 2 inkey) number in (firstn 16 k, firstn 32 (skipn 16 k)).

(** The key that comes out: symmetric, of the requested size, with the rights requested as
    the parent restricts them. *)
Definition derived_key (k : stored_key) (rights : rights) (parent : stored_key) (n : Z) (bytes : list Z) : Prop :=
  k = MkKey (restrict_child_rights rights (Some (k_rights parent))) 0 no_params n bytes /\ zlen bytes = n.
(** A parent the call may derive from at [now]. *)
Definition may_derive (parent : stored_key) (now : Z) : Prop :=
  has_flag (k_rights parent) 1 /\ in_window (k_rights parent) now /\ k_type parent = 0.
(** The memory obtained for the key, if any, has the requested size. *)
Definition memory_for (n : Z) (mem : option (list Z)) : Prop := match mem with Some m => zlen m = n | None => True end.
