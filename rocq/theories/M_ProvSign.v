(** The signatures of the OpenSSL 3 provider: client/src/sa_provider_signature.c and
    [ec_encode_signature], client/src/sa_public_key.c.

    They sit on the signatures of the API, modelled in M_Asym.v.  Not modelled: a library that is
    out of memory, NULL contexts, the tables of functions, parameters of a wrong OSSL_PARAM type,
    the parameters of the digest; copies of contexts are in M_ProvKeys.v. *)
From Verif Require Import Base M_Rights M_Mac M_Unwrap M_Asym.

(** ** The encoding of ECDSA signatures *)
(** An INTEGER of DER: as few bytes as there can be with the first bit 0. *)
Definition bit_length (z : Z) : Z := if z =? 0 then 0 else Z.log2 z + 1.
Definition int_length (z : Z) : Z := bit_length z / 8 + 1.
Definition der_int (z : Z) : list Z := 2 :: int_length z :: be_bytes (Z.to_nat (int_length z)) z.
(** A SEQUENCE of two: i2d_ECDSA_SIG. *)
Definition der_pair (r s : Z) : list Z :=
  let body := der_int r ++ der_int s in
  48 :: (if zlen body <? 128 then [zlen body] else [129; zlen body]) ++ body.
(** BN_bin2bn. *)
Definition bin2bn (l : list Z) : Z := fold_left (fun acc b => acc * 256 + b) l 0.
(** [ec_encode_signature], sa_public_key.c:107-156. *)
Definition ec_encode (sig : list Z) : list Z :=
  let half := Nat.div (length sig) 2 in der_pair (bin2bn (firstn half sig)) (bin2bn (firstn half (skipn half sig))).

(** ** Contexts *)
(** The part of [sa_provider_key_data] that counts here: the private key behind the handle, if
    there is one, type and curve in the header, the public key and EVP_PKEY_bits of it. *)
Record kdata := MkKd { d_private : option stored_key; d_type : Z; d_curve : Z; d_public : list Z; d_bits : Z }.
(** [evp_md_ctx]: NULL, one in use with its digest and the data so far, or one that is used up. *)
Inductive hashing := NoHash | Hashing (md : Z) (data : list Z) | Hashed.
(** [sa_provider_signature_context], sa_provider_signature.c:43-51.  Digests are numbered as those
    of the API; other numbers are other digests. *)
Record sctx := MkS { c_key : option kdata; c_hash : hashing; c_md : option Z; c_mgf1 : option Z; c_pad : Z; c_salt : Z }.
Definition PAD_PKCS1 := 1. Definition PAD_PSS := 6.
Definition SALT_DIGEST := -1. Definition SALT_AUTO := -2. Definition SALT_MAX := -3.
(** [signature_newctx], 90-117. *)
Definition new_sctx : sctx := MkS None NoHash None None PAD_PKCS1 SALT_AUTO.

Definition with_key (c : sctx) (k : option kdata) : sctx := MkS k (c_hash c) (c_md c) (c_mgf1 c) (c_pad c) (c_salt c).
Definition with_hash (c : sctx) (h : hashing) : sctx := MkS (c_key c) h (c_md c) (c_mgf1 c) (c_pad c) (c_salt c).
Definition with_md (c : sctx) (m : option Z) : sctx := MkS (c_key c) (c_hash c) m (c_mgf1 c) (c_pad c) (c_salt c).
Definition with_mgf1 (c : sctx) (m : option Z) : sctx := MkS (c_key c) (c_hash c) (c_md c) m (c_pad c) (c_salt c).
Definition with_pad (c : sctx) (p : Z) : sctx := MkS (c_key c) (c_hash c) (c_md c) (c_mgf1 c) p (c_salt c).
Definition with_salt (c : sctx) (s : Z) : sctx := MkS (c_key c) (c_hash c) (c_md c) (c_mgf1 c) (c_pad c) s.

(** Parameters.  The name of a digest is the digest, or [None] if EVP_MD_fetch does not know it; a
    padding is a number, or a name, which is one of the two or [None]; the name of a length of salt
    is as good as a number. *)
Inductive padding := PadNumber (n : Z) | PadName (n : option Z).
Record sparams := MkSp { o_md : option (option Z); o_pad : option padding; o_mgf1 : option (option Z); o_salt : option Z }.
Definition no_sparams : sparams := MkSp None None None None.
(** [signature_set_ctx_params], 918-1051.  A number for the padding is stored before it is checked. *)
Definition set_md (c : sctx) (m : option (option Z)) : option sctx :=
  match m with None => Some c | Some None => None | Some (Some d) => Some (with_md c (Some d)) end.
Definition set_mgf1 (c : sctx) (m : option (option Z)) : option sctx :=
  match m with None => Some c | Some None => None | Some (Some d) => Some (with_mgf1 c (Some d)) end.
Definition set_pad (c : sctx) (p : option padding) : bool * sctx :=
  match p with
  | None => (true, c)
  | Some (PadNumber n) => ((n =? PAD_PKCS1) || (n =? PAD_PSS), with_pad c n)
  | Some (PadName None) => (false, c)
  | Some (PadName (Some n)) => (true, with_pad c n)
  end.
Definition set_salt (c : sctx) (s : option Z) : sctx := match s with None => c | Some n => with_salt c n end.
Definition set_sparams (c : sctx) (o : sparams) : bool * sctx :=
  match set_md c (o_md o) with
  | None => (false, c)
  | Some c =>
      match set_pad c (o_pad o) with
      | (false, c) => (false, c)
      | (true, c) =>
          match set_mgf1 c (o_mgf1 o) with
          | None => (false, c)
          | Some c => (true, set_salt c (o_salt o))
          end
      end
  end.

(** [signature_sign_init], 190-209, and [signature_verify_init], 345-350. *)
Definition sign_init (c : sctx) (k : kdata) (o : sparams) : bool * sctx := set_sparams (with_key c (Some k)) o.

(** ** Signing *)
(** [digest_algorithm_from_md], util/src/digest_util.c:25-43, with the default of its callers. *)
Definition digest_or_default (m : option Z) : Z :=
  match m with Some d => if digest_ok d then d else D_SHA256 | None => D_SHA256 end.
(** EVP_PKEY_size of an RSA key. *)
Definition pkey_size (bits : Z) : Z := (bits + 7) / 8.
(** The length of the salt, 255-272. *)
Definition salt_length (bits d salt : Z) : option Z :=
  if salt =? SALT_DIGEST then Some (digest_length d)
  else if (salt =? SALT_AUTO) || (salt =? SALT_MAX) then
    let n := pkey_size bits - digest_length d - 2 in
    let n := if bits mod 8 =? 1 then n - 1 else n in
    if n <? 0 then None else Some n
  else Some salt.
(** The algorithm and its parameters, 233-307; the length of the salt goes from an int to a size_t. *)
Definition algorithm_for (c : sctx) (k : kdata) : option salg :=
  let d := digest_or_default (c_md c) in
  if d_type k =? KT_RSA then
    if c_pad c =? PAD_PKCS1 then Some (SPkcs1 (Some (d, true)))
    else if c_pad c =? PAD_PSS then
      match salt_length (d_bits k) d (c_salt c) with
      | None => None
      | Some n => Some (SPss (Some (d, digest_or_default (c_mgf1 c), wrap64 n, true)))
      end
    else None
  else if d_type k =? KT_EC then
    if is_pcurve (d_curve k) then Some (SEcdsa (Some (d, true))) else None
  else None.

(** How a call ends: its answer, the buffer for the signature and, if it has been written, *siglen.
    [Overruns] is a write behind the buffer, [Crashes] the use of a NULL pointer. *)
Inductive sresult := Signed (ret : bool) (buf : list Z) (siglen : option Z) | Overruns | Crashes.
(** [signature_sign], 211-343.  [sig]: NULL or the buffer of sigsize bytes; [tbs]: NULL or the data;
    [local]: the MAX_SIGNATURE_LENGTH bytes of local_signature before the call; [coins], [answer]:
    OpenSSL behind the API. *)
Definition signature_sign (L : alib) (c : sctx) (now : Z) (sig : option (list Z)) (tbs : input) (local : list Z) (coins : Z)
    (answer : bool) : sresult :=
  let held := match sig with Some b => b | None => [] end in
  let data := match tbs with Null _ => Null 0 | Bytes b => Bytes b end in
  match c_key c with
  | None => Signed false held None
  | Some k =>
      match algorithm_for c k, d_private k with
      | None, _ | _, None => Signed false held None
      | Some alg, Some p =>
          match crypto_sign L alg p now (match sig with Some _ => Some local | None => None end) data coins answer with
          | Done OK out n =>
              match sig with
              | None => Signed true [] (Some (if d_type k =? KT_EC then n + 9 else n))
              | Some buf =>
                  let s := firstn (Z.to_nat n) out in
                  let s := if d_type k =? KT_EC then ec_encode s else s in
                  if zlen buf <? zlen s then Overruns else Signed true (s ++ skipn (length s) buf) (Some (zlen s))
              end
          | Done _ _ _ => Signed false held None
          end
      end
  end.

(** ** Verifying *)
(** OpenSSL's EVP_PKEY_verify: the digest, for RSA the padding, the digest of MGF1 if it is set and
    the length of the salt as it is set; and EVP_DigestVerify with Ed25519 and Ed448. *)
Inductive vscheme := VPkcs1 (md : option Z) | VPss (md mgf1 : option Z) (salt : Z) | VPadding (n : Z) (md : option Z)
  | VEcdsa (md : option Z) | VEd.
Definition vlib := vscheme -> list Z -> list Z -> list Z -> bool.
(** [signature_verify], 352-441.  DH keys and the curves X25519 and X448 do not verify. *)
Definition verify_scheme (c : sctx) (k : kdata) : option vscheme :=
  if d_type k =? KT_RSA then
    Some (if c_pad c =? PAD_PKCS1 then VPkcs1 (c_md c)
          else if c_pad c =? PAD_PSS then VPss (c_md c) (c_mgf1 c) (c_salt c)
          else VPadding (c_pad c) (c_md c))
  else if (d_type k =? KT_EC) && is_pcurve (d_curve k) then Some (VEcdsa (c_md c))
  else None.
Definition signature_verify (V : vlib) (c : sctx) (sig tbs : list Z) : bool :=
  match c_key c with
  | None => false
  | Some k => match verify_scheme c k with Some v => V v (d_public k) tbs sig | None => false end
  end.

(** ** Signing data *)
(** The name of a digest: NULL or empty, or a name, with what EVP_MD_fetch finds. *)
Inductive mdname := NoName | Name (md : option Z).
Definition is_edwards (k : kdata) : bool := (d_type k =? KT_EC) && ((d_curve k =? 3) || (d_curve k =? 5)).
(** [signature_digest_sign_init], 443-511, and [signature_digest_verify_init], 623-629.  On a
    failure key, digest and context of the digest are taken out of the context; the answer is 1. *)
Definition digest_init (c : sctx) (m : mdname) (k : kdata) (o : sparams) : bool * sctx :=
  let failed c := (true, with_key (with_md (with_hash c NoHash) None) None) in
  match sign_init c k o with
  | (false, c) => failed c
  | (true, c) =>
      if is_edwards k then
        match m with
        | NoName => (true, with_md (with_hash c NoHash) None)
        | Name _ => failed c
        end
      else
        match m with
        | Name (Some d) => (true, with_md (with_hash c (Hashing d [])) (Some d))
        | _ => failed c
        end
  end.
(** [signature_digest_sign_update], 513-531, and [signature_digest_verify_update], 631-636.
    EVP_DigestUpdate does nothing for no data; [None] is a use of a NULL pointer. *)
Definition digest_update (c : sctx) (data : list Z) : option (bool * sctx) :=
  match data, c_hash c with
  | [], _ => Some (true, c)
  | _, NoHash => None
  | _, Hashing d sofar => Some (true, with_hash c (Hashing d (sofar ++ data)))
  | _, Hashed => Some (false, c)
  end.
(** [signature_digest_sign_final], 533-567.  [md]: for a query of the size the uninitialised bytes
    of the digest, as many as the digest has. *)
Definition digest_sign_final (L : alib) (c : sctx) (now : Z) (sig : option (list Z)) (md local : list Z) (coins : Z)
    (answer : bool) : sresult * sctx :=
  match sig with
  | None => (signature_sign L c now None (Bytes md) local coins answer, c)
  | Some buf =>
      match c_hash c with
      | NoHash => (Crashes, c)
      | Hashed => (Signed false buf None, c)
      | Hashing d data => let c := with_hash c Hashed in (signature_sign L c now sig (Bytes (a_digest L d data)) local coins answer, c)
      end
  end.
(** [signature_digest_verify_final], 638-667. *)
Definition digest_verify_final (L : alib) (V : vlib) (c : sctx) (sig : list Z) : option (bool * sctx) :=
  match c_hash c with
  | NoHash => None
  | Hashed => Some (false, c)
  | Hashing d data => let c := with_hash c Hashed in Some (signature_verify V c sig (a_digest L d data), c)
  end.
(** [signature_digest_sign], 569-621, for Ed25519 and Ed448.  It lets every EC key pass. *)
Definition passes_edwards (k : kdata) : bool := (d_type k =? KT_EC) || (d_curve k =? 3) || (d_curve k =? 5).
Definition digest_sign (L : alib) (c : sctx) (now : Z) (sig : option (list Z)) (tbs : input) (coins : Z) (answer : bool) : sresult :=
  let held := match sig with Some b => b | None => [] end in
  let data := match tbs with Null _ => Null 0 | Bytes b => Bytes b end in
  match c_key c with
  | None => Signed false held None
  | Some k =>
      match passes_edwards k, d_private k with
      | false, _ => Signed false held None
      | true, None => Signed false held (Some (zlen held))
      | true, Some p =>
          match crypto_sign L SEddsa p now sig data coins answer with
          | Done OK out n => Signed true out (Some n)
          | Done _ out n => Signed false out (Some n)
          end
      end
  end.
(** [signature_digest_verify], 669-728. *)
Definition digest_verify (V : vlib) (c : sctx) (sig tbs : list Z) : bool :=
  match c_key c with
  | None => false
  | Some k => passes_edwards k && V VEd (d_public k) tbs sig
  end.

(** ** Reading parameters back *)
(** The arrays of 70-88 and their use for OSSL_SIGNATURE_PARAM_ALGORITHM_ID in
    [signature_get_ctx_params], 744-813: what is written, for a key that is there.  No array goes
    with other keys and digests: nothing is written.  [None]: the type of no digest is asked for,
    the use of a NULL pointer. *)
Definition rsa_arc (last : Z) : list Z := [48; 13; 6; 9; 42; 134; 72; 134; 247; 13; 1; 1; last; 5; 0].
Definition algorithm_id (c : sctx) (k : kdata) : option (list Z) :=
  if d_type k =? KT_RSA then
    match c_md c with
    | None => None
    | Some 0 => Some (rsa_arc 11) | Some 1 => Some (rsa_arc 11) | Some 2 => Some (rsa_arc 12) | Some 3 => Some (rsa_arc 13)
    | Some _ => Some []
    end
  else if d_type k =? KT_EC then
    if is_pcurve (d_curve k) then
      match c_md c with
      | None => None
      | Some 0 => Some [48; 9; 6; 7; 42; 134; 72; 206; 61; 4; 1]
      | Some 1 => Some [48; 10; 6; 8; 42; 134; 72; 206; 61; 4; 3; 2]
      | Some 2 => Some [48; 10; 6; 8; 42; 134; 72; 206; 61; 4; 3; 3]
      | Some 3 => Some [48; 10; 6; 8; 42; 134; 72; 206; 61; 4; 3; 4]
      | Some _ => Some []
      end
    else if d_curve k =? 3 then Some [48; 5; 6; 3; 43; 101; 112]
    else if d_curve k =? 5 then Some [48; 5; 6; 3; 43; 101; 113]
    else Some []
  else Some [].
