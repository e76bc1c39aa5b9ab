(** What unwrapping is meant to do. *)
From Verif Require Import Base S_Bytes M_Rights M_Mac M_Unwrap S_Rights.

(** OpenSSL's ciphers preserve the length, RSA yields no more than it was given. *)
Definition good_ulib (U : ulib) : Prop :=
  (forall k l, zlen (u_ecb U k l) = zlen l) /\ (forall k i l, zlen (u_cbc U k i l) = zlen l) /\
  (forall k i l, zlen (u_ctr U k i l) = zlen l) /\ (forall k c n l, zlen (u_chacha U k c n l) = zlen l) /\
  (forall k i a t l p, u_gcm U k i a t l = Some p -> zlen p = zlen l) /\
  (forall k i a t l p, u_poly U k i a t l = Some p -> zlen p = zlen l) /\
  (forall k l p, u_pkcs1 U k l = Some p -> zlen p <= zlen l) /\
  (forall k d m b l p, u_oaep U k d m b l = Some p -> zlen p <= zlen l) /\
  (forall k c l p, u_elgamal U k c l = Some p -> 4 * zlen p = zlen l) /\
  (forall l, 0 <= u_rsa_size U l).

(** [bytes] is the key contained in [input], wrapped with [key] (of curve [c]). *)
Definition contains (U : ulib) (alg : ualg) (key : list Z) (c : Z) (input bytes : list Z) : Prop :=
  match alg with
  | UEcb false => bytes = u_ecb U key input
  | UEcb true => u_ecb U key input = pkcs7_pad bytes
  | UCbc false (Some (Bytes iv)) => bytes = u_cbc U key iv input
  | UCbc true (Some (Bytes iv)) => u_cbc U key iv input = pkcs7_pad bytes
  | UCtr (Some (Bytes ctr)) => bytes = u_ctr U key ctr input
  | UGcm (Some (Bytes iv, aad, Bytes tag)) => u_gcm U key iv (in_bytes aad) tag input = Some bytes
  | UChacha (Some (Bytes counter, Bytes nonce)) => bytes = u_chacha U key counter nonce input
  | UPoly (Some (Bytes nonce, aad, Bytes tag)) => u_poly U key nonce (in_bytes aad) tag input = Some bytes
  | UPkcs1 => u_pkcs1 U key input = Some bytes
  | UOaep (Some (d, m, label)) => u_oaep U key d m (in_bytes label) input = Some bytes
  | UElgamal (Some (offset, n)) => exists point, u_elgamal U key c input = Some point /\
      0 <= offset /\ 0 <= n /\ offset + n <= zlen point /\ bytes = firstn (Z.to_nat n) (skipn (Z.to_nat offset) point)
  | _ => False
  end.

(** Parameters and lengths each algorithm demands. *)
Definition present (i : input) (n : Z) : Prop := exists l, i = Bytes l /\ zlen l = n.
Definition given (i : input) : Prop := match i with Null n => n <= 0 | Bytes _ => True end.
Definition arguments_ok (alg : ualg) (w : stored_key) (n : Z) : Prop :=
  match alg with
  | UEcb _ => n mod 16 = 0
  | UCbc _ (Some iv) => present iv 16 /\ n mod 16 = 0
  | UCtr (Some ctr) => present ctr 16
  | UGcm (Some (iv, aad, tag)) => present iv 12 /\ given aad /\ exists t, tag = Bytes t /\ zlen t <= 16
  | UChacha (Some (counter, nonce)) => present counter 4 /\ present nonce 12
  | UPoly (Some (nonce, aad, tag)) => present nonce 12 /\ given aad /\ present tag 16
  | UPkcs1 => n = k_size w
  | UOaep (Some (_, _, label)) => n = k_size w /\ match label with Null m => m = 0 | Bytes _ => True end
  | UElgamal (Some (offset, len)) => n = 4 * k_size w /\ 16 <= len /\ 0 <= offset /\ offset + len <= k_size w
  | _ => False
  end.
(** The kind of wrapping key: AES keys of 16 or 32 bytes, ChaCha20 keys of 32, RSA keys, EC
    keys; and whether a key of another type than symmetric may be inside. *)
Definition wrapping_ok (alg : ualg) (w : stored_key) : Prop :=
  match alg with
  | UEcb _ | UCbc _ _ | UCtr _ | UGcm _ => k_type w = 0 /\ (k_size w = 16 \/ k_size w = 32)
  | UChacha _ | UPoly _ => k_type w = 0 /\ k_size w = 32
  | UPkcs1 | UOaep _ => k_type w = 2 /\ size_allowed 2 0 (k_size w)
  | UElgamal _ => k_type w = 1 /\ size_allowed 1 (p_curve (k_params w)) (k_size w)
  | UOther => False
  end.
Definition content_type_ok (alg : ualg) (t : Z) (curve : option Z) : Prop :=
  match alg with
  | UPkcs1 | UOaep _ | UElgamal _ => t = 0
  | _ => t = 0 \/ t = 2 \/ (t = 1 /\ curve <> None)
  end.
(** A wrapping key the call may unwrap with at [now]. *)
Definition may_unwrap (w : stored_key) (now : Z) : Prop := has_flag (k_rights w) 2 /\ in_window (k_rights w) now.

(** Type parameters and size of the key that comes out. *)
Definition content (U : ulib) (t : Z) (curve : option Z) (bytes : list Z) : params * Z :=
  match t, curve with
  | 1, Some c => (MkParams c ([], []), u_ec_size U c bytes)
  | 2, _ => (no_params, u_rsa_size U bytes)
  | _, _ => (no_params, zlen bytes)
  end.
Definition key_made (U : ulib) (rights : rights) (w : stored_key) (t : Z) (curve : option Z) (bytes : list Z) (k : stored_key) : Prop :=
  k = MkKey (restrict_child_rights rights (Some (k_rights w))) t (fst (content U t curve bytes)) (snd (content U t curve bytes)) bytes.

(** A stored wrapping key is what it says: symmetric keys have as many bytes as their size,
    RSA keys are keys of their size. *)
Definition honest (U : ulib) (w : stored_key) : Prop :=
  (k_type w = 0 -> zlen (k_bytes w) = k_size w) /\ (k_type w = 2 -> u_rsa_size U (k_bytes w) = k_size w).
(** The memory obtained for the plaintext. *)
Definition unwrap_room (alg : ualg) (w : stored_key) (n : Z) (mem : option (list Z)) : Prop :=
  match mem with
  | None => True
  | Some m => match alg with UElgamal _ => zlen m = ec_key_size_from_curve (p_curve (k_params w)) | _ => zlen m = n end
  end.
(** Lengths and offsets are 64-bit numbers. *)
Definition wide_parameters (alg : ualg) : Prop :=
  match alg with UElgamal (Some (offset, n)) => 0 <= offset < 2 ^ 64 /\ 0 <= n < 2 ^ 64 | _ => True end.
(** Associated data below 2 GiB. *)
Definition short_aad (alg : ualg) : Prop :=
  match alg with UGcm (Some (_, aad, _)) | UPoly (Some (_, aad, _)) => zlen (in_bytes aad) < 2 ^ 31 | _ => True end.
(** Block modes with padding: at least one block. *)
Definition some_block (alg : ualg) (n : Z) : Prop :=
  match alg with UEcb true | UCbc true _ => 0 < n | _ => True end.
(** The padded modes. *)
Definition padded (alg : ualg) : Prop := match alg with UEcb true | UCbc true _ => True | _ => False end.
(** An OAEP label whose length is not that of the data. *)
Definition label_missing (alg : ualg) : Prop :=
  match alg with UOaep (Some (_, _, Null n)) => n <> 0 | _ => False end.

(** Everything that has to hold for a key to be unwrapped. *)
Definition unwrappable (U : ulib) (alg : ualg) (rights : rights) (t : Z) (curve : option Z) (w : stored_key) (now : Z)
    (input bytes : list Z) : Prop :=
  may_unwrap w now /\ arguments_ok alg w (zlen input) /\ wrapping_ok alg w /\ content_type_ok alg t curve /\
  rights_validate_format rights = true /\
  contains U alg (k_bytes w) (p_curve (k_params w)) input bytes /\
  size_allowed t (p_curve (fst (content U t curve bytes))) (snd (content U t curve bytes)).
