(** RSA encryption and decryption of the OpenSSL 3 provider: client/src/sa_provider_asym_cipher.c.

    Decryption sits on the contexts of the API: ta_sa_crypto_cipher_init, here, and
    [process_asymmetric] of M_Asym.v.  Not modelled: a library that is out of memory, NULL contexts
    and lengths, property queries of digests, reading parameters back, parameters of a wrong OSSL_PARAM type, key data
    without a public key. *)
From Verif Require Import Base M_Rights M_Mac M_Unwrap M_Asym M_ProvSign.

(** [sa_provider_asym_cipher_context], sa_provider_asym_cipher.c:41-50.  A label of no bytes is no
    label. *)
Record acx := MkA { x_key : option kdata; x_pad : Z; x_md : option Z; x_mgf1 : option Z; x_label : list Z }.
Definition RSA_PKCS1 := 1. Definition RSA_NONE := 3. Definition RSA_OAEP := 4.
(** [asym_cipher_newctx], 69-90. *)
Definition new_acx : acx := MkA None RSA_PKCS1 None None [].

(** ** Parameters *)
(** A padding is a number, or a name: one of "pkcs1", "none", "oaep" or another one. *)
Inductive apadding := ANumber (n : Z) | AName (n : option Z).
Record aparams := MkAp { p_md : option (option Z); p_pad : option apadding; p_mgf1 : option (option Z); p_label : option (list Z) }.
(** [asym_cipher_set_ctx_params], 438-551.  The digest that there was is given up before the new one
    is looked for. *)
Definition set_aparams (c : acx) (o : aparams) : bool * acx :=
  match p_md o with
  | Some None => (false, MkA (x_key c) (x_pad c) None (x_mgf1 c) (x_label c))
  | _ =>
      let c := match p_md o with Some (Some d) => MkA (x_key c) (x_pad c) (Some d) (x_mgf1 c) (x_label c) | _ => c end in
      let pad := match p_pad o with None => x_pad c | Some (ANumber n) => n | Some (AName (Some n)) => n | Some (AName None) => 0 end in
      let c := MkA (x_key c) pad (x_md c) (x_mgf1 c) (x_label c) in
      match p_mgf1 o with
      | Some None => (false, MkA (x_key c) (x_pad c) (x_md c) None (x_label c))
      | _ =>
          let c := match p_mgf1 o with Some (Some d) => MkA (x_key c) (x_pad c) (x_md c) (Some d) (x_label c) | _ => c end in
          (true, match p_label o with Some l => MkA (x_key c) (x_pad c) (x_md c) (x_mgf1 c) l | None => c end)
      end
  end.
(** [asym_cipher_encrypt_init], 142-160, and [asym_cipher_decrypt_init], 257-262; NULL instead of
    parameters is no parameters. *)
Definition crypt_init (c : acx) (k : kdata) (o : aparams) : bool * acx :=
  set_aparams (MkA (Some k) (x_pad c) (x_md c) (x_mgf1 c) (x_label c)) o.
(** [asym_cipher_dupctx], 107-140.  [None]: use of a NULL pointer, by sa_provider_key_data_dup or
    EVP_MD_up_ref; [Some None]: the answer is NULL, as OPENSSL_malloc of no bytes is; [fresh]: the
    uninitialised bytes of the new label, as many as the old one has. *)
Definition dup_acx (c : acx) (fresh : list Z) : option (option acx) :=
  match x_key c, x_md c, x_mgf1 c with
  | Some _, Some _, Some _ =>
      match x_label c with
      | [] => Some None
      | _ => Some (Some (MkA (x_key c) (x_pad c) (x_md c) (x_mgf1 c) fresh))
      end
  | _, _, _ => None
  end.

(** ** Encryption *)
(** OpenSSL's EVP_PKEY_encrypt with a public key: the text, given the message and random coins. *)
Inductive escheme := EPkcs1 | ENone | EOaep (digest mgf1 : Z) (label : list Z).
Definition elib := escheme -> list Z -> list Z -> Z -> option (list Z).
(** [oaep_md] and [oaep_mgf1_md], 197-206 and 294-301. *)
Definition oaep_md (c : acx) : Z := match x_md c with Some d => d | None => D_SHA1 end.
Definition oaep_mgf1_md (c : acx) : option Z := match x_mgf1 c with Some _ => Some (oaep_md c) | None => x_md c end.
(** How a call ends: its answer, the buffer and, if it is written, *outlen; or the use of a NULL
    pointer. *)
Inductive aresult := ADone (ret : Z) (buf : list Z) (outlen : option Z) | ACrash.
(** [asym_cipher_encrypt], 162-255.  [out]: NULL or a buffer of *outlen bytes; [null_md]: whether
    EVP_PKEY_CTX_set_rsa_mgf1_md accepts NULL, which then stands for the digest of OAEP. *)
Definition asym_encrypt (E : elib) (c : acx) (out : option (list Z)) (msg : list Z) (coins : Z) (null_md : bool) : aresult :=
  let held := match out with Some b => b | None => [] end in
  let failed := ADone 0 held None in
  let go s k :=
    match out with
    | None => ADone 1 [] (Some (pkey_size (d_bits k)))
    | Some buf =>
        if zlen buf <? pkey_size (d_bits k) then failed
        else match E s (d_public k) msg coins with
             | None => failed
             | Some text => match put buf text with None => failed | Some buf => ADone 1 buf (Some (zlen text)) end
             end
    end in
  match x_key c with
  | None => ACrash
  | Some k =>
      if x_pad c =? RSA_PKCS1 then go EPkcs1 k
      else if x_pad c =? RSA_NONE then go ENone k
      else if x_pad c =? RSA_OAEP then
        match oaep_mgf1_md c with
        | Some m => go (EOaep (oaep_md c) m (x_label c)) k
        | None => if null_md then go (EOaep (oaep_md c) (oaep_md c) (x_label c)) k else failed
        end
      else failed
  end.

(** ** Decryption *)
Definition NO_DIGEST : Z := 2 ^ 32 - 1.
(** [digest_algorithm_from_md], util/src/digest_util.c:25-43. *)
Definition api_digest (m : option Z) : Z := match m with Some d => if digest_ok d then d else NO_DIGEST | None => NO_DIGEST end.
(** The algorithm and its parameters, 288-312. *)
Definition decrypt_alg (c : acx) : dalg :=
  if x_pad c =? RSA_OAEP then DOaep (api_digest (Some (oaep_md c))) (api_digest (oaep_mgf1_md c)) (x_label c) else DPkcs1.
(** ta_sa_crypto_cipher_init, ta_sa_crypto_cipher_init.c:874-1025, 654-808, for RSA and decryption;
    [room]: no store is full. *)
Definition open_decryption (k : stored_key) (now : Z) (room : bool) : status :=
  if negb (rights_allowed_decrypt (k_rights k) (k_type k) now None) then OPERATION_NOT_ALLOWED
  else if negb (key_type_supports_rsa (k_type k) (k_size k)) then INVALID_KEY_TYPE
  else if room then OK else NO_AVAILABLE_RESOURCE_SLOT.
(** [asym_cipher_decrypt], 264-343.  [out]: NULL or the buffer of outsize bytes. *)
Definition asym_decrypt (U : ulib) (c : acx) (now : Z) (out : option (list Z)) (text : list Z) (room answer : bool) : option aresult :=
  let held := match out with Some b => b | None => [] end in
  match x_key c with
  | None => Some ACrash
  | Some kd =>
      match d_private kd with
      | None => Some (ADone 0 held None)
      | Some k =>
          match open_decryption k now room with
          | OK =>
              match process_asymmetric U (decrypt_alg c) k now out text (zlen text) answer with
              | None => None
              | Some (Done OK buf n) => Some (ADone 1 buf (Some n))
              | Some (Done _ buf _) => Some (ADone 0 buf None)
              end
          | OPERATION_NOT_SUPPORTED => Some (ADone (-2) held None)
          | _ => Some (ADone 0 held None)
          end
      end
  end.
