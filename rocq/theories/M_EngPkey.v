(** RSA and EC contexts of the engine: client/src/sa_engine_pkey.c, [pkey_init] 74-112,
    [pkey_copy] 114-146, [pkey_cleanup] 148-159, [pkey_sign] 179-330, [pkey_verify] 333-431,
    [pkey_encrypt] 762-866, [pkey_decrypt] 869-953, [pkey_pderive] 977-1079, [pkey_ctrl]
    1081-1255, the flags of the methods 1344-1411, and [ec_encode_signature],
    sa_public_key.c:106-158.  Around them OpenSSL 1.1.1's EVP_PKEY_CTX_ctrl, which passes a
    setting only to contexts of its purpose and key type, EVP_PKEY_CTX_dup, and its check of
    the caller's room for methods with EVP_PKEY_FLAG_AUTOARGLEN.

    What a call asks of the secure API, or of OpenSSL with the public key, is its answer here;
    what these make of it is in other models.  Simplified: one purpose per context (OpenSSL lets
    a context be initialised again); memory is what the labels and the contexts take. *)
From Verif Require Import Base.

(** EVP_MD: those of the secure API (sa_digest_algorithm 0 to 3) and others, with their size. *)
Inductive md := Sha (d : Z) | OtherMd (size : Z).
Definition md_size (m : md) : Z :=
  match m with Sha d => if d =? 0 then 20 else if d =? 1 then 32 else if d =? 2 then 48 else 64 | OtherMd n => n end.
(** digest_util.c:25-43: [digest_algorithm_from_md]; UINT32_MAX is [None]. *)
Definition from_md (m : option md) : option Z := match m with Some (Sha d) => Some d | _ => None end.

Inductive purpose := ToSign | ToVerify | ToEncrypt | ToDecrypt.
Inductive keytype := RSA (bits : Z) | EC.
(** rsa.h *)
Definition PKCS1 := 1. Definition NO_PADDING := 3. Definition OAEP := 4. Definition PSS := 6.
Definition SALT_DIGEST := -1. Definition SALT_AUTO := -2. Definition SALT_MAX := -3.

(** [pkey_app_data], with the context's key and purpose. *)
Record app := MkApp {
  a_key : Z; a_type : keytype; a_purpose : purpose;
  a_pad : Z; a_salt : Z; a_md : option md; a_mgf1 : option md; a_label : option Z (* where the label is *); a_label_length : Z }.
Record world := MkWorld {
  w_ctxs : nat -> option app;
  w_labels : Z -> option (list Z);       (* labels in memory *)
  w_next : Z;
  w_lost : nat;                          (* [pkey_app_data] that nothing refers to *)
  w_open : nat                           (* cipher contexts of the secure API *)
}.
Definition start : world := MkWorld (fun _ => None) (fun _ => None) 0 0 0.

Inductive op :=
| New (c : nat) (key : Z) (t : keytype) (p : purpose)
| SetPad (c : nat) (p : Z)
| SetSalt (c : nat) (n : Z)
| SetMd (c : nat) (m : option md)
| SetMgf1 (c : nat) (m : option md)
| SetOaepMd (c : nat) (m : option md)
| SetLabel (c : nat) (l : list Z)                     (* the caller's memory, handed over *)
| Dup (c d : nat) (ok1 ok2 : bool)                    (* the two allocations *)
| Free (c : nat)
| Sign (c : nat)
| Verify (c : nat)
| Encrypt (c : nat)
| Decrypt (c : nat) (unsupported : bool).             (* sa_crypto_cipher_process answers OPERATION_NOT_SUPPORTED *)
(** What is asked of the secure API. *)
Inductive scheme := Pkcs1v15 (d : Z) | RsaPss (d mgf1 salt : Z) | Ecdsa (d : Z).
Inductive cscheme := CPkcs1v15 | COaep (d mgf1 : option Z) (label : list Z).
Inductive answer :=
| Fine | Refused | Misuse
| AskSign (key : Z) (s : scheme)
| AskVerify (key : Z) (pad : Z) (m mgf1 : option md) (salt : Z)
| AskEncrypt (key : Z) (pad : Z) (m mgf1 : option md) (label : list Z)
| AskDecrypt (key : Z) (s : cscheme).

Definition set_ctx (w : world) c x : world :=
  MkWorld (fun y => if Nat.eqb y c then x else w_ctxs w y) (w_labels w) (w_next w) (w_lost w) (w_open w).
Definition set_label (w : world) i l : world :=
  MkWorld (w_ctxs w) (fun y => if y =? i then l else w_labels w y) (w_next w) (w_lost w) (w_open w).
Definition alloc (w : world) (l : list Z) : world * Z :=
  (MkWorld (w_ctxs w) (fun y => if y =? w_next w then Some l else w_labels w y) (w_next w + 1) (w_lost w) (w_open w), w_next w).

(** [pkey_init] *)
Definition init (key : Z) (t : keytype) (p : purpose) : app :=
  match t with
  | RSA _ => MkApp key t p PKCS1 SALT_AUTO (Some (Sha 0)) (Some (Sha 0)) None 0
  | EC => MkApp key t p 0 0 None None None 0
  end.
Definition is_rsa (a : app) : bool := match a_type a with RSA _ => true | EC => false end.
Definition signs (a : app) : bool := match a_purpose a with ToSign | ToVerify => true | _ => false end.

(** The label's bytes as the call reads them. *)
Definition label_of (w : world) (a : app) : list Z :=
  match a_label a with Some i => match w_labels w i with Some l => l | None => [] end | None => [] end.

(** [pkey_sign], 217-294 *)
Definition sign (a : app) : answer :=
  match a_type a with
  | RSA bits =>
      if a_pad a =? PKCS1 then
        match from_md (a_md a) with Some d => AskSign (a_key a) (Pkcs1v15 d) | None => Refused end
      else if a_pad a =? PSS then
        match a_md a, from_md (a_md a), from_md (a_mgf1 a) with
        | Some m, Some d, Some g =>
            let longest := let n := (bits + 7) / 8 - md_size m - 2 in if bits mod 8 =? 1 then n - 1 else n in
            if a_salt a =? SALT_DIGEST then AskSign (a_key a) (RsaPss d g (md_size m))
            else if (a_salt a =? SALT_AUTO) || (a_salt a =? SALT_MAX) then
              if longest <? 0 then Refused else AskSign (a_key a) (RsaPss d g longest)
            else AskSign (a_key a) (RsaPss d g (a_salt a mod 2 ^ 64))    (* int to size_t *)
        | _, _, _ => Refused
        end
      else Refused
  | EC => match from_md (a_md a) with Some d => AskSign (a_key a) (Ecdsa d) | None => Refused end
  end.
(** [pkey_verify], 396-418: for RSA the padding, for PSS also the rest *)
Definition verify (a : app) : answer := AskVerify (a_key a) (a_pad a) (a_md a) (a_mgf1 a) (a_salt a).
(** [pkey_encrypt], 823-853: without padding OAEP the digests and the label are not passed on *)
Definition encrypt (w : world) (a : app) : answer :=
  if a_pad a =? OAEP then AskEncrypt (a_key a) OAEP (a_md a) (a_mgf1 a) (if 0 <? a_label_length a then label_of w a else [])
  else AskEncrypt (a_key a) (a_pad a) None None [].
(** [pkey_decrypt], 909-921 *)
Definition decrypt (w : world) (a : app) : answer :=
  if a_pad a =? OAEP then AskDecrypt (a_key a) (COaep (from_md (a_md a)) (from_md (a_mgf1 a)) (label_of w a))
  else AskDecrypt (a_key a) CPkcs1v15.

Definition setting (w : world) (c : nat) (passes : app -> bool) (f : app -> app) : world * answer :=
  match w_ctxs w c with
  | None => (w, Misuse)
  | Some a => if passes a then (set_ctx w c (Some (f a)), Fine) else (w, Refused)
  end.

Definition step (o : op) (w : world) : world * answer :=
  match o with
  | New c key t p => match w_ctxs w c with None => (set_ctx w c (Some (init key t p)), Fine) | Some _ => (w, Misuse) end
  | SetPad c p =>
      setting w c is_rsa (fun a => MkApp (a_key a) (a_type a) (a_purpose a) p (a_salt a) (a_md a) (a_mgf1 a) (a_label a) (a_label_length a))
  | SetSalt c n =>
      setting w c (fun a => is_rsa a && signs a && (a_pad a =? PSS))
        (fun a => MkApp (a_key a) (a_type a) (a_purpose a) (a_pad a) n (a_md a) (a_mgf1 a) (a_label a) (a_label_length a))
  | SetMd c m =>
      setting w c signs
        (fun a => MkApp (a_key a) (a_type a) (a_purpose a) (a_pad a) (a_salt a) m (a_mgf1 a) (a_label a) (a_label_length a))
  | SetMgf1 c m =>
      setting w c (fun a => is_rsa a && match m with Some _ => true | None => false end)
        (fun a => MkApp (a_key a) (a_type a) (a_purpose a) (a_pad a) (a_salt a) (a_md a) m (a_label a) (a_label_length a))
  | SetOaepMd c m =>
      setting w c (fun a => is_rsa a && negb (signs a) && match m with Some _ => true | None => false end)
        (fun a => MkApp (a_key a) (a_type a) (a_purpose a) (a_pad a) (a_salt a) m (a_mgf1 a) (a_label a) (a_label_length a))
  | SetLabel c l =>
      match w_ctxs w c with
      | None => (w, Misuse)
      | Some a =>
          if is_rsa a && negb (signs a) then
            (* takes the memory; what it had before is not freed (1245-1247) *)
            let '(w, i) := alloc w l in
            (set_ctx w c (Some (MkApp (a_key a) (a_type a) (a_purpose a) (a_pad a) (a_salt a) (a_md a) (a_mgf1 a) (Some i) (zlen l))), Fine)
          else (w, Refused)                             (* the memory stays the caller's *)
      end
  | Dup c d ok1 ok2 =>
      match w_ctxs w c, w_ctxs w d with
      | Some a, None =>
          if negb ok1 then (w, Refused)
          else if 0 <? a_label_length a then
            if ok2 then
              let '(w, i) := alloc w (label_of w a) in
              (set_ctx w d (Some (MkApp (a_key a) (a_type a) (a_purpose a) (a_pad a) (a_salt a) (a_md a) (a_mgf1 a) (Some i) (a_label_length a))), Fine)
            else (MkWorld (w_ctxs w) (w_labels w) (w_next w) (S (w_lost w)) (w_open w), Refused)       (* 130-134 *)
          else (set_ctx w d (Some (MkApp (a_key a) (a_type a) (a_purpose a) (a_pad a) (a_salt a) (a_md a) (a_mgf1 a) None 0)), Fine)
      | _, _ => (w, Misuse)
      end
  | Free c =>
      match w_ctxs w c with
      | None => (w, Misuse)
      | Some a => (set_ctx (match a_label a with Some i => set_label w i None | None => w end) c None, Fine)
      end
  | Sign c => match w_ctxs w c with Some a => match a_purpose a with ToSign => (w, sign a) | _ => (w, Misuse) end | None => (w, Misuse) end
  | Verify c => match w_ctxs w c with Some a => match a_purpose a with ToVerify => (w, verify a) | _ => (w, Misuse) end | None => (w, Misuse) end
  | Encrypt c =>
      match w_ctxs w c with
      | Some a => match a_purpose a with ToEncrypt => if is_rsa a then (w, encrypt w a) else (w, Refused) | _ => (w, Misuse) end
      | None => (w, Misuse)
      end
  | Decrypt c unsupported =>
      match w_ctxs w c with
      | Some a =>
          match a_purpose a with
          | ToDecrypt =>
              if is_rsa a then
                (if unsupported then MkWorld (w_ctxs w) (w_labels w) (w_next w) (w_lost w) (S (w_open w)) else w, decrypt w a)   (* 940-943 *)
              else (w, Refused)
          | _ => (w, Misuse)
          end
      | None => (w, Misuse)
      end
  end.
Fixpoint run (l : list op) (w : world) : world * list (op * answer) :=
  match l with
  | [] => (w, [])
  | o :: l => let '(w1, a) := step o w in let '(w2, r) := run l w1 in (w2, (o, a) :: r)
  end.

(** ** Room for the output *)

(** Bytes written by a call, or a refusal. *)
Inductive written := Wrote (n : Z) | TooSmall | Announced (n : Z).
(** EVP_PKEY_sign with an RSA key: OpenSSL's check (AUTOARGLEN), then [pkey_sign] 323-327; [room] is
    [None] for a NULL buffer, the signature is as long as the modulus. *)
Definition rsa_sign_out (bits : Z) (room : option Z) : written :=
  let size := (bits + 7) / 8 in
  match room with None => Announced size | Some r => if r <? size then TooSmall else Wrote size end.
(** With an EC key the method has no flag: [pkey_sign] 310-321 and [ec_encode_signature]; [n]: bytes of the curve. *)
(** An INTEGER takes as many bytes as it needs with a sign bit, after tag and length. *)
Definition der_int (v : Z) : Z := 2 + (Z.log2 v + 1) / 8 + 1.
Definition der_signature (r s : Z) : Z :=
  let content := der_int r + der_int s in (if content <? 128 then 2 else 3) + content.
Definition ec_sign_out (n r s : Z) (room : option Z) : written :=
  match room with None => Announced (2 * n + 9) | Some _ => Wrote (der_signature r s) end.
(** [pkey_pderive]: 8 bytes, a handle; DH and X keys with the check, EC keys without. *)
Definition derive_out (checked : bool) (size : Z) (room : option Z) : written :=
  match room with
  | None => Announced (if checked then size else 8)
  | Some r => if checked && (r <? size) then TooSmall else Wrote 8
  end.
