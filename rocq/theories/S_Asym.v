(** What asymmetric keys are for. *)
From Verif Require Import Base S_Bytes M_Rights M_Mac M_Unwrap M_Asym S_Rights.

(** OpenSSL: signatures are valid, an RSA signature is as long as the modulus, one with Ed25519 or
    Ed448 is 64 or 114 bytes, the two numbers of an ECDSA signature have no more bits than the key;
    RSA signs digests of the right length only; if the modulus is a whole number of bytes it signs
    them all, with every salt for which there is room; ECDSA and EdDSA sign everything. *)
Record good_alib (L : alib) : Prop := {
  ga_verify : forall s key msg coins sig, a_sign L s key msg coins = Some sig -> a_verify L s (a_public L key) msg sig = true;
  ga_ecdsa_verify : forall d key msg coins r s, a_ecdsa L d key msg coins = Some (r, s) ->
    a_ecdsa_verify L d (a_public L key) msg (r, s) = true;
  ga_bits : forall t key bits, a_parse L t key = Some bits -> 0 < bits;
  ga_rsa_length : forall s key msg coins sig bits, a_parse L 6 key = Some bits -> s <> Ed ->
    a_sign L s key msg coins = Some sig -> zlen sig = (bits + 7) / 8;
  ga_ed25519 : forall key msg coins bits, a_parse L 1087 key = Some bits -> exists sig, a_sign L Ed key msg coins = Some sig /\ zlen sig = 64;
  ga_ed448 : forall key msg coins bits, a_parse L 1088 key = Some bits -> exists sig, a_sign L Ed key msg coins = Some sig /\ zlen sig = 114;
  ga_ecdsa : forall d key msg coins bits, a_parse L 408 key = Some bits ->
    exists r s, a_ecdsa L d key msg coins = Some (r, s) /\ 0 <= r < 2 ^ bits /\ 0 <= s < 2 ^ bits;
  ga_pkcs1 : forall d key msg coins bits, a_parse L 6 key = Some bits -> bits mod 8 = 0 ->
    (a_sign L (Pkcs1 d) key msg coins <> None <-> zlen msg = digest_length d);
  ga_pss : forall d mgf1 salt key msg coins bits, a_parse L 6 key = Some bits -> bits mod 8 = 0 ->
    0 <= salt <= bits / 8 - digest_length d - 2 ->
    (a_sign L (Pss d mgf1 salt) key msg coins <> None <-> zlen msg = digest_length d);
  ga_digest : forall d l, In d [0; 1; 2; 3] -> zlen (a_digest L d l) = digest_length d }.

(** ** Keys *)
(** OpenSSL's number of the key type of a curve. *)
Definition pkey_type (k : stored_key) : Z :=
  if k_type k =? 2 then 6 else if k_type k =? 3 then 28
  else match p_curve (k_params k) with 3 => 1087 | 4 => 1034 | 5 => 1088 | 6 => 1035 | _ => 408 end.
(** The five curves of NIST. *)
Definition nist (c : Z) : Prop := In c [0; 1; 2; 7; 8].
(** The bytes of an asymmetric key are a private key of its type and size. *)
Definition well_formed (L : alib) (k : stored_key) : Prop :=
  k_type k <> 0 -> exists bits, a_parse L (pkey_type k) (k_bytes k) = Some bits /\
    (k_type k = 2 -> bits / 8 = k_size k) /\
    (k_type k = 1 -> nist (p_curve (k_params k)) -> (bits + 7) / 8 = k_size k).
(** An RSA key whose modulus is a whole number of bytes. *)
Definition whole (L : alib) (k : stored_key) : Prop :=
  k_type k = 2 -> exists bits, a_parse L 6 (k_bytes k) = Some bits /\ bits mod 8 = 0.

(** ** Signatures *)
Definition may_sign (k : stored_key) (now : Z) : Prop := has_flag (k_rights k) 5 /\ in_window (k_rights k) now.
Definition known_digest (d : Z) : Prop := In d [0; 1; 2; 3].
(** Algorithm, parameters and key go together. *)
Definition signs_with (alg : salg) (k : stored_key) : Prop :=
  match alg with
  | SEcdsa (Some (d, _)) => known_digest d /\ k_type k = 1 /\ nist (p_curve (k_params k)) /\ size_allowed 1 (p_curve (k_params k)) (k_size k)
  | SEddsa => k_type k = 1 /\ (p_curve (k_params k) = 3 \/ p_curve (k_params k) = 5) /\ size_allowed 1 (p_curve (k_params k)) (k_size k)
  | SPss (Some (d, m, _, _)) => known_digest d /\ known_digest m /\ k_type k = 2 /\ size_allowed 2 0 (k_size k)
  | SPkcs1 (Some (d, _)) => known_digest d /\ k_type k = 2 /\ size_allowed 2 0 (k_size k)
  | _ => False
  end.
Definition signature_size (alg : salg) (k : stored_key) : Z :=
  match alg with SEcdsa _ | SEddsa => 2 * k_size k | _ => k_size k end.
(** The salt leaves room for the digest. *)
Definition salt_fits (alg : salg) (k : stored_key) : Prop :=
  match alg with SPss (Some (d, _, salt, _)) => salt <= k_size k - digest_length d - 2 | _ => True end.
(** The length of a salt is a 64-bit number. *)
Definition wide_salt (alg : salg) : Prop := match alg with SPss (Some (_, _, salt, _)) => 0 <= salt < 2 ^ 64 | _ => True end.
(** A digest the caller has computed has the length of one. *)
Definition digest_given (alg : salg) (data : list Z) : Prop :=
  match alg with SPss (Some (d, _, _, true)) | SPkcs1 (Some (d, true)) => zlen data = digest_length d | _ => True end.
Definition is_pss (alg : salg) : bool := match alg with SPss _ => true | _ => false end.
(** [sig] is a signature of the data by the owner of the private key [k]. *)
Definition what_is_signed (L : alib) (d : Z) (precomputed : bool) (data : list Z) : list Z :=
  if precomputed then data else a_digest L d data.
Definition valid_signature (L : alib) (alg : salg) (k : stored_key) (data sig : list Z) : Prop :=
  let public := a_public L (k_bytes k) in
  match alg with
  | SEcdsa (Some (d, pre)) => exists l1 l2, sig = l1 ++ l2 /\ zlen l1 = k_size k /\ zlen l2 = k_size k /\ Forall byte_ok sig /\
      a_ecdsa_verify L d public (what_is_signed L d pre data) (number_of 0 l1, number_of 0 l2) = true
  | SEddsa => a_verify L Ed public data sig = true
  | SPss (Some (d, m, salt, pre)) => a_verify L (Pss d m salt) public (what_is_signed L d pre data) sig = true
  | SPkcs1 (Some (d, pre)) => a_verify L (Pkcs1 d) public (what_is_signed L d pre data) sig = true
  | _ => False
  end.
(** Data, or none: a NULL pointer comes with length 0. *)
Definition data_given (i : input) : Prop := match i with Null n => n <= 0 | Bytes _ => True end.

(** ** Agreement *)
(** OpenSSL: the public key of a private key is of its type; two parties compute the same secret, if
    any. *)
Record agreeing (L : alib) : Prop := {
  ag_type : forall t key bits, a_parse L t key = Some bits -> a_pub_type L (a_public L key) = Some t;
  ag_same : forall key1 key2, a_derive L key1 (a_public L key2) = a_derive L key2 (a_public L key1) }.
Definition may_exchange (k : stored_key) (now : Z) : Prop := has_flag (k_rights k) 0 /\ in_window (k_rights k) now.
(** Keys that agree on secrets: EC keys but for those of Ed25519 and Ed448, and DH keys. *)
Definition agrees_with (dh : bool) (k : stored_key) : Prop :=
  if dh then k_type k = 3 /\ size_allowed 3 0 (k_size k)
  else k_type k = 1 /\ size_allowed 1 (p_curve (k_params k)) (k_size k) /\ p_curve (k_params k) <> 3 /\ p_curve (k_params k) <> 5.
(** Both of them, for OpenSSL with padding. *)
Definition exchange (L : alib) (dh : bool) (rights : rights) (k : stored_key) (other : list Z) (now : Z) (answer alloc : bool) : making :=
  if dh then exchange_dh L rights k other now true answer alloc else exchange_ecdh L rights k other now answer alloc.

(** ** Generation *)
(** OpenSSL: keys are what was asked for, and random bytes as many as were. *)
Record generating (L : alib) (rand : Z -> option (list Z)) : Prop := {
  gg_rsa : forall bits coins key, a_rsa_gen L bits coins = Some key -> a_parse L 6 key = Some bits;
  gg_nist : forall c coins key, nist c -> a_ec_gen L c coins = Some key ->
    exists bits, a_parse L 408 key = Some bits /\ (bits + 7) / 8 = ec_key_size_from_curve c;
  gg_edwards : forall c t coins key, In (c, t) [(3, 1087); (4, 1034); (5, 1088); (6, 1035)] -> a_ec_gen L c coins = Some key ->
    exists bits, a_parse L t key = Some bits;
  gg_dh : forall p g coins key, a_dh_gen L p g coins = Some key -> exists bits, a_parse L 28 key = Some bits;
  gg_rand : forall n l, rand n = Some l -> zlen l = n }.
(** What is asked for: type, parameters, size. *)
Definition wanted (alg : galg) : option (Z * params * Z) :=
  match alg with
  | GSymmetric (Some n) => Some (0, no_params, n)
  | GEc (Some c) => Some (1, MkParams c ([], []), ec_key_size_from_curve c)
  | GRsa (Some n) => Some (2, no_params, n)
  | GDh (Some (Bytes p, Bytes g)) => Some (3, MkParams 0 (p, g), zlen p)
  | _ => None
  end.
(** A generator that is there and no longer than the modulus. *)
Definition generator_ok (alg : galg) : Prop :=
  match alg with GDh (Some (Bytes p, Bytes g)) => 1 <= zlen g <= zlen p | _ => True end.
(** OpenSSL makes the key. *)
Definition made_by (L : alib) (alg : galg) (rand : Z -> option (list Z)) (coins : Z) (bytes : list Z) : Prop :=
  match alg with
  | GSymmetric (Some n) => rand n = Some bytes
  | GEc (Some c) => a_ec_gen L c coins = Some bytes
  | GRsa (Some n) => a_rsa_gen L (8 * n) coins = Some bytes
  | GDh (Some (Bytes p, Bytes g)) => a_dh_gen L p g coins = Some bytes
  | _ => False
  end.
(** A modulus for which the number of bits is an int. *)
Definition sane_modulus (alg : galg) : Prop := match alg with GRsa (Some n) => 0 <= n < 2 ^ 28 | _ => True end.

(** ** Decryption *)
Definition decryption_of (U : ulib) (alg : dalg) (k : stored_key) (text msg : list Z) : Prop :=
  match alg with
  | DPkcs1 => u_pkcs1 U (k_bytes k) text = Some msg
  | DOaep d m label => u_oaep U (k_bytes k) d m label text = Some msg
  | DElgamal => nist (p_curve (k_params k)) /\ u_elgamal U (k_bytes k) (p_curve (k_params k)) text = Some msg
  end.
(** The flags 4 (decrypt) and 12 (outside of the secure video path). *)
Definition may_decrypt_clear (k : stored_key) (now : Z) : Prop :=
  has_flag (k_rights k) 4 /\ has_flag (k_rights k) 12 /\ in_window (k_rights k) now.
(** The key of a context for the algorithm (C19 says when contexts are made). *)
Definition decrypts_with (alg : dalg) (k : stored_key) : Prop :=
  match alg with
  | DElgamal => k_type k = 1 /\ size_allowed 1 (p_curve (k_params k)) (k_size k)
  | _ => k_type k = 2 /\ size_allowed 2 0 (k_size k)
  end.
Definition text_size (alg : dalg) (k : stored_key) : Z := match alg with DElgamal => 4 * k_size k | _ => k_size k end.
