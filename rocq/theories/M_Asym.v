(** Asymmetric keys on bytes: signatures, public keys, key agreement and generation, decryption
    with RSA and ElGamal.  taimpl/src/internal/rsa.c, ec.c and dh.c, with the parts of
    ta_sa_crypto_sign.c, ta_sa_key_get_public.c, ta_sa_key_exchange.c, ta_sa_key_generate.c and
    ta_sa_crypto_cipher_process.c behind the handles.  OpenSSL 1.1 or later is a record of
    functions; a call of it that fails leaves buffers and lengths as they were. *)
From Verif Require Import Base M_Memory M_Rights M_Mac M_Unwrap.

(** The schemes that give a signature as a string of bytes. *)
Inductive scheme := Pkcs1 (digest : Z) | Pss (digest mgf1 salt : Z) | Ed.
(** OpenSSL.  [a_parse t bytes]: a private key of type [t] in PKCS#8 form, the number of its bits
    (evp_pkey_from_pkcs8, util/src/pkcs8.c:66-98, and EVP_PKEY_bits); [a_public]: i2d_PUBKEY;
    [a_digest]: digests; [a_sign], [a_ecdsa]: signatures of a digest, or of a message ([Ed]), with
    the random choices [coins]; [a_verify], [a_ecdsa_verify]: whether they are valid for a public
    key; [a_pub_type]: d2i_PUBKEY and EVP_PKEY_id; [a_derive]: EVP_PKEY_derive, DH with padding;
    [a_rsa_gen], [a_ec_gen], [a_dh_gen]: key generation. *)
Record alib := MkAlib {
  a_parse : Z -> list Z -> option Z;
  a_public : list Z -> list Z;
  a_digest : Z -> list Z -> list Z;
  a_sign : scheme -> list Z -> list Z -> Z -> option (list Z);
  a_verify : scheme -> list Z -> list Z -> list Z -> bool;
  a_ecdsa : Z -> list Z -> list Z -> Z -> option (Z * Z);
  a_ecdsa_verify : Z -> list Z -> list Z -> Z * Z -> bool;
  a_pub_type : list Z -> option Z;
  a_derive : list Z -> list Z -> option (list Z);
  a_rsa_gen : Z -> Z -> option (list Z);
  a_ec_gen : Z -> Z -> option (list Z);
  a_dh_gen : list Z -> list Z -> Z -> option (list Z) }.

(** OpenSSL's numbers of key types. *)
Definition PKEY_RSA := 6. Definition PKEY_DH := 28. Definition PKEY_EC := 408.
(** [is_pcurve], ec.c:35-39, and [ec_get_type], 41-59.  The curves are 0 P-256, 1 P-384, 2 P-521,
    3 Ed25519, 4 X25519, 5 Ed448, 6 X448, 7 P-192, 8 P-224. *)
Definition is_pcurve (c : Z) : bool := (c =? 0) || (c =? 1) || (c =? 2) || (c =? 7) || (c =? 8).
Definition ec_get_type (c : Z) : Z :=
  if is_pcurve c then PKEY_EC
  else if c =? 3 then 1087 else if c =? 4 then 1034 else if c =? 5 then 1088 else if c =? 6 then 1035 else 0.

(** How a call that fills a buffer ends: status, buffer, *out_length. *)
Inductive outcome := Done (st : status) (buf : list Z) (n : Z).

(** ** Signatures *)
(** Algorithm and parameters, [None] for NULL parameters; the last component of the parameters is
    precomputed_digest. *)
Inductive salg :=
| SEcdsa (p : option (Z * bool)) | SEddsa | SPss (p : option (Z * Z * Z * bool)) | SPkcs1 (p : option (Z * bool)) | SOther.
Definition digest_ok (d : Z) : bool := (d =? D_SHA1) || (d =? D_SHA256) || (d =? D_SHA384) || (d =? D_SHA512).
Definition message (L : alib) (d : Z) (pre : bool) (data : list Z) : list Z := if pre then data else a_digest L d data.

(** [rsa_sign_pkcs1v15], rsa.c:329-442, and [rsa_sign_pss], 444-579, for a non-NULL buffer.
    [init] is what the status is set to at the beginning and what a failure leaves: line 467 has
    SA_STATUS_OK.  OpenSSL refuses a buffer that is too short.  [answer]: no other call fails. *)
Definition rsa_sign (L : alib) (init : status) (s : scheme) (key buf msg : list Z) (coins : Z) (answer : bool) : outcome :=
  match a_parse L PKEY_RSA key with
  | None => Done init buf (zlen buf)
  | Some bits =>
      if zlen buf <? bits / 8 then Done init buf (zlen buf)
      else if negb answer then Done init buf (zlen buf)
      else match a_sign L s key msg coins with
           | None => Done init buf (zlen buf)
           | Some sig => if zlen buf <? zlen sig then Done init buf (zlen buf)
                         else Done OK (sig ++ skipn (length sig) buf) (zlen sig)
           end
  end.

(** [bn_export], ec.c:231-258: the number as [n] bytes. *)
Fixpoint be_bytes (n : nat) (z : Z) : list Z :=
  match n with O => [] | S n => (z / 256 ^ Z.of_nat n) mod 256 :: be_bytes n z end.
Definition bn_export (n z : Z) : option (list Z) := if 256 ^ n <=? z then None else Some (be_bytes (Z.to_nat n) z).
(** [ec_sign_ecdsa], ec.c:724-877. *)
Definition ec_sign_ecdsa (L : alib) (d : Z) (k : stored_key) (buf msg : list Z) (coins : Z) (answer : bool) : outcome :=
  let n := k_size k * 2 in
  if negb (is_pcurve (p_curve (k_params k))) then Done OPERATION_NOT_ALLOWED buf (zlen buf)
  else match a_parse L (ec_get_type (p_curve (k_params k))) (k_bytes k) with
  | None => Done INTERNAL_ERROR buf (zlen buf)
  | Some _ =>
      if zlen buf <? n then Done INVALID_PARAMETER buf (zlen buf)
      else if negb answer then Done INTERNAL_ERROR buf n
      else match a_ecdsa L d (k_bytes k) msg coins with
           | None => Done INTERNAL_ERROR buf n
           | Some (r, s) =>
               match bn_export (k_size k) r with
               | None => Done INTERNAL_ERROR (repeat 0 (Z.to_nat (k_size k)) ++ skipn (Z.to_nat (k_size k)) buf) n
               | Some r =>
                   match bn_export (k_size k) s with
                   | None => Done INTERNAL_ERROR (r ++ repeat 0 (Z.to_nat (k_size k)) ++ skipn (Z.to_nat n) buf) n
                   | Some s => Done OK (r ++ s ++ skipn (Z.to_nat n) buf) n
                   end
               end
           end
  end.
(** [ec_sign_eddsa], ec.c:879-973. *)
Definition ec_sign_eddsa (L : alib) (k : stored_key) (buf data : list Z) (coins : Z) (answer : bool) : outcome :=
  match a_parse L (ec_get_type (p_curve (k_params k))) (k_bytes k) with
  | None => Done INTERNAL_ERROR buf (zlen buf)
  | Some _ =>
      if zlen buf <? k_size k * 2 then Done INVALID_PARAMETER buf (zlen buf)
      else if negb answer then Done INTERNAL_ERROR buf (zlen buf)
      else match a_sign L Ed (k_bytes k) data coins with
           | None => Done INTERNAL_ERROR buf (zlen buf)
           | Some sig => if zlen buf <? zlen sig then Done INTERNAL_ERROR buf (zlen buf)
                         else Done OK (sig ++ skipn (length sig) buf) (zlen sig)
           end
  end.

(** [ta_sa_crypto_sign], ta_sa_crypto_sign.c:361-460, with the functions for ECDSA, 29-113, EdDSA,
    115-188, RSA-PSS, 190-285, and RSA-PKCS1v15, 287-359, for the unwrapped key [k].  [out]: NULL
    or the buffer, whose length is *out_length. *)
Definition size_needed (out : option (list Z)) (n : Z) (f : list Z -> outcome) : outcome :=
  match out with
  | None => Done OK [] n
  | Some buf => if zlen buf <? n then Done INVALID_PARAMETER buf (zlen buf) else f buf
  end.
Definition crypto_sign (L : alib) (alg : salg) (k : stored_key) (now : Z) (out : option (list Z)) (data : input) (coins : Z)
    (answer : bool) : outcome :=
  let held := match out with None => [] | Some buf => buf end in
  let refuse s := Done s held (zlen held) in
  let curve := p_curve (k_params k) in
  if match alg with SOther => true | _ => false end then refuse INVALID_PARAMETER
  else if bad_input data then refuse NULL_PARAMETER
  else if negb (rights_allowed_sign (k_rights k) now) then refuse OPERATION_NOT_ALLOWED
  else match alg with
  | SEcdsa None | SPss None | SPkcs1 None => refuse NULL_PARAMETER
  | SEcdsa (Some (d, pre)) =>
      if negb (digest_ok d) then refuse INVALID_PARAMETER
      else if negb (is_pcurve curve) then refuse INVALID_PARAMETER
      else if negb (key_type_supports_ec (k_type k) curve (k_size k)) then refuse INVALID_KEY_TYPE
      else size_needed out (k_size k * 2) (fun buf =>
        ec_sign_ecdsa L d k buf (message L d pre (in_bytes data)) coins answer)
  | SEddsa =>
      if negb ((curve =? 3) || (curve =? 5)) then refuse INVALID_PARAMETER
      else if negb (key_type_supports_ec (k_type k) curve (k_size k)) then refuse INVALID_KEY_TYPE
      else
        let n := ec_key_size_from_curve curve * 2 in
        if n =? 0 then refuse OPERATION_NOT_SUPPORTED
        else size_needed out n (fun buf => ec_sign_eddsa L k buf (in_bytes data) coins answer)
  | SPss (Some (d, mgf1, salt, pre)) =>
      if negb (digest_ok d) then refuse INVALID_PARAMETER
      else if negb (digest_ok mgf1) then refuse INVALID_PARAMETER
      else if negb (key_type_supports_rsa (k_type k) (k_size k)) then refuse INVALID_KEY_TYPE
      else size_needed out (k_size k) (fun buf =>
        if wrap64 (k_size k - digest_length d - 2) <? salt then Done INVALID_PARAMETER buf (zlen buf)
        else rsa_sign L OK (Pss d mgf1 (int_of salt)) (k_bytes k) buf (message L d pre (in_bytes data)) coins answer)
  | SPkcs1 (Some (d, pre)) =>
      if negb (digest_ok d) then refuse INVALID_PARAMETER
      else if negb (key_type_supports_rsa (k_type k) (k_size k)) then refuse INVALID_KEY_TYPE
      else size_needed out (k_size k) (fun buf =>
        rsa_sign L INTERNAL_ERROR (Pkcs1 d) (k_bytes k) buf (message L d pre (in_bytes data)) coins answer)
  | SOther => refuse INVALID_PARAMETER
  end.

(** ** Public keys *)
(** [ta_sa_key_get_public], ta_sa_key_get_public.c:120-191 with 27-118, [ec_get_public], ec.c:332-400,
    [dh_get_public], dh.c:56-118, and [rsa_get_public], rsa.c:48-110. *)
Definition key_get_public (L : alib) (k : stored_key) (out : option (list Z)) (answer : bool) : outcome :=
  let held := match out with None => [] | Some buf => buf end in
  let get t :=
    match a_parse L t (k_bytes k) with
    | None => Done INTERNAL_ERROR held (zlen held)
    | Some _ =>
        if negb answer then Done INTERNAL_ERROR held (zlen held)
        else size_needed out (zlen (a_public L (k_bytes k))) (fun buf =>
          Done OK (a_public L (k_bytes k) ++ skipn (length (a_public L (k_bytes k))) buf) (zlen (a_public L (k_bytes k))))
    end in
  if k_type k =? KT_EC then get (ec_get_type (p_curve (k_params k)))
  else if k_type k =? KT_DH then get PKEY_DH
  else if k_type k =? KT_RSA then get PKEY_RSA
  else Done INVALID_PARAMETER held (zlen held).

(** ** Key agreement *)
(** How making a key ends: the key, a failure, a failure with memory that is never released, or a
    computation C leaves undefined. *)
Inductive making := Makes (k : stored_key) | Fails (st : status) | Leaks (st : status) | Undefined.
(** The key made of a shared secret, with [stored_key_create]. *)
Definition secret_key (rights : rights) (k : stored_key) (secret : list Z) (alloc : bool) : status * option stored_key :=
  stored_key_create (Some rights) (Some (k_rights k)) KT_SYMMETRIC no_params (zlen secret) (Some secret) alloc.
(** What [ec_compute_ecdh_shared_secret], ec.c:598-722, and [dh_compute_shared_secret], dh.c:120-251,
    have in common: statuses, and the shared secret. *)
Definition derive (L : alib) (t : Z) (key other : list Z) (answer : bool) : status * option (list Z) :=
  match a_parse L t key, a_pub_type L other with
  | None, _ | _, None => (INTERNAL_ERROR, None)
  | Some _, Some t' =>
      if negb (t =? t') then (INVALID_PARAMETER, None)
      else if negb answer then (INTERNAL_ERROR, None)
      else match a_derive L key other with None => (INTERNAL_ERROR, None) | Some s => (OK, Some s) end
  end.
(** [ta_sa_key_exchange_ecdh], ta_sa_key_exchange.c:116-199, for the unwrapped private key, up to
    key_store_import_stored_key. *)
Definition exchange_ecdh (L : alib) (rights : rights) (k : stored_key) (other : list Z) (now : Z) (answer alloc : bool) : making :=
  let curve := p_curve (k_params k) in
  if negb (rights_allowed_exchange (k_rights k) now) then Fails OPERATION_NOT_ALLOWED
  else if negb (key_type_supports_ec (k_type k) curve (k_size k)) then Fails INVALID_KEY_TYPE
  else if (curve =? 3) || (curve =? 5) then Fails OPERATION_NOT_ALLOWED
  else match derive L (ec_get_type curve) (k_bytes k) other answer with
  | (_, Some secret) => match secret_key rights k secret alloc with (_, Some k') => Makes k' | (s, None) => Fails s end
  | (s, None) => Fails s
  end.
(** [ta_sa_key_exchange_dh], ta_sa_key_exchange.c:30-114: every failure is reported as an invalid
    parameter.  [pad]: EVP_PKEY_CTX_set_dh_pad succeeds; if not, dh_compute_shared_secret returns
    SA_STATUS_OK at once (dh.c:199-202), there is no key, which key_store_import_stored_key
    refuses, and nothing is released. *)
Definition exchange_dh (L : alib) (rights : rights) (k : stored_key) (other : list Z) (now : Z) (pad answer alloc : bool) : making :=
  if negb (rights_allowed_exchange (k_rights k) now) then Fails OPERATION_NOT_ALLOWED
  else if negb (key_type_supports_dh (k_type k) (k_size k)) then Fails INVALID_KEY_TYPE
  else match a_parse L PKEY_DH (k_bytes k), a_pub_type L other with
  | None, _ | _, None => Fails INVALID_PARAMETER
  | Some _, Some t =>
      if negb (PKEY_DH =? t) then Fails INVALID_PARAMETER
      else if negb pad then Leaks NULL_PARAMETER
      else match derive L PKEY_DH (k_bytes k) other answer with
           | (_, Some secret) =>
               match secret_key rights k secret alloc with (_, Some k') => Makes k' | (s, None) => Fails INVALID_PARAMETER end
           | (_, None) => Fails INVALID_PARAMETER
           end
  end.

(** ** Generation *)
(** Kind of key and parameters, [None] for NULL. *)
Inductive galg :=
| GSymmetric (p : option Z) | GEc (p : option Z) | GRsa (p : option Z) | GDh (p : option (input * input)) | GOther.
(** [ta_sa_key_generate], ta_sa_key_generate.c:284-356 with 30-282, [symmetric_generate_key],
    symmetric.c:36-88, [ec_generate_key], ec.c:975-1098, [rsa_generate_key], rsa.c:581-663 and
    [dh_generate_key], dh.c:253-470, up to key_store_import_stored_key.  [rand]: random bytes.  The
    curve in the parameters of a DH key, a union, is nothing that is looked at: 0. *)
Definition key_generate (L : alib) (alg : galg) (rights : rights) (rand : Z -> option (list Z)) (coins : Z) (answer alloc : bool) : making :=
  let create t ps size bytes :=
    match stored_key_create (Some rights) None t ps size (Some bytes) alloc with (_, Some k) => Makes k | (s, None) => Fails s end in
  match alg with
  | GOther => Fails INVALID_PARAMETER
  | GSymmetric None | GEc None | GRsa None | GDh None => Fails NULL_PARAMETER
  | GSymmetric (Some n) =>
      if (n <? 16) || (512 <? n) then Fails INVALID_PARAMETER
      else match rand n with None => Fails INTERNAL_ERROR | Some bytes => create KT_SYMMETRIC no_params n bytes end
  | GEc (Some c) =>
      let size := ec_key_size_from_curve c in
      if size =? 0 then Fails INVALID_PARAMETER
      else if negb answer then Fails INTERNAL_ERROR
      else match a_ec_gen L c coins with None => Fails INTERNAL_ERROR | Some bytes => create KT_EC (MkParams c ([], [])) size bytes end
  | GRsa (Some n) =>
      let bits := int_of n * 8 in
      if (2 ^ 31 <=? bits) || (bits <? - 2 ^ 31) then Undefined
      else if negb answer then Fails INTERNAL_ERROR
      else match a_rsa_gen L bits coins with None => Fails INTERNAL_ERROR | Some bytes => create KT_RSA no_params n bytes end
  | GDh (Some (p, g)) =>
      match p, g with
      | Null _, _ => Fails NULL_PARAMETER
      | Bytes lp, g =>
          if negb (key_type_supports_dh KT_DH (zlen lp)) then Fails INVALID_PARAMETER
          else match g with
          | Null _ => Fails NULL_PARAMETER
          | Bytes lg =>
              if (zlen lg <? 1) || (zlen lp <? zlen lg) then Fails INVALID_PARAMETER
              else if negb answer then Fails INTERNAL_ERROR
              else match a_dh_gen L lp lg coins with
                   | None => Fails INVALID_PARAMETER
                   | Some bytes => create KT_DH (MkParams 0 (lp, lg)) (zlen lp) bytes
                   end
          end
      end
  end.

(** ** Decryption *)
Inductive dalg := DPkcs1 | DOaep (digest mgf1 : Z) (label : list Z) | DElgamal.
(** [ta_sa_crypto_cipher_process], ta_sa_crypto_cipher_process.c:375-549, with
    [get_required_length], 30-57, for RSA-PKCS1v15, 149-211, RSA-OAEP, 213-284, and EC ElGamal,
    286-373, in clear memory; [rsa_decrypt_pkcs1v15], rsa.c:130-213, [rsa_decrypt_oaep], 215-327,
    [ec_decrypt_elgamal], ec.c:422-596.  [k]: the key of the context, which decrypts;
    [buf] and [inb]: the buffers from their offsets on; [n]: *bytes_to_process.  The result: status, buffer,
    *bytes_to_process; [None] is a write outside the buffer.  The functions of OpenSSL are those of
    M_Unwrap.v. *)
Definition decrypt_with (U : ulib) (alg : dalg) (k : stored_key) (data : list Z) : option (list Z) :=
  match alg with
  | DPkcs1 => u_pkcs1 U (k_bytes k) data
  | DOaep d m label => u_oaep U (k_bytes k) d m label data
  | DElgamal => u_elgamal U (k_bytes k) (p_curve (k_params k)) data
  end.
Definition process_asymmetric (U : ulib) (alg : dalg) (k : stored_key) (now : Z) (out : option (list Z)) (inb : list Z)
    (n : Z) (answer : bool) : option outcome :=
  let elgamal := match alg with DElgamal => true | _ => false end in
  match out with
  | None => Some (Done OK [] (k_size k))
  | Some buf =>
      if negb (rights_allowed_clear (k_rights k)) then Some (Done OPERATION_NOT_ALLOWED buf n)
      else if zlen buf <? k_size k then Some (Done INVALID_PARAMETER buf n)
      else if zlen inb <? n then Some (Done INVALID_PARAMETER buf n)
      else if k_size k =? 0 then Some (Done NULL_PARAMETER buf n)
      else if negb (n =? (if elgamal then k_size k * 4 else k_size k)) then Some (Done INVALID_PARAMETER buf n)
      else if negb (rights_allowed_decrypt (k_rights k) (if elgamal then KT_EC else KT_RSA) now None) then Some (Done OPERATION_NOT_ALLOWED buf n)
      else if negb answer then Some (Done (if elgamal then VERIFICATION_FAILED else INTERNAL_ERROR) buf n)
      else if negb elgamal && negb (u_rsa_size U (k_bytes k) =? k_size k) then Some (Done INTERNAL_ERROR buf n)
      else if elgamal && negb (is_pcurve (p_curve (k_params k))) then Some (Done VERIFICATION_FAILED buf n)
      else match decrypt_with U alg k (firstn (Z.to_nat n) inb) with
           | None => Some (Done VERIFICATION_FAILED buf n)
           | Some p => match put buf p with None => None | Some buf => Some (Done OK buf (zlen p)) end
           end
  end.
