(** Key derivation with the OpenSSL provider, client/src/sa_provider_kdf.c, and
    [digest_algorithm_from_name] of util/src/digest_util.c.  [sa_key_derive] is the model of
    M_Kdf.v behind a table of keys by handle; [sa_key_header] answers for the keys of the
    table.  Parameters arrive as what the OSSL_PARAM functions make of them.  NULL contexts
    are left out (refused at the start of each function). *)
From Verif Require Import Base M_Rights M_Mac M_Kdf.
From Coq Require Import String.
Local Open Scope Z_scope.

(** sa_kdf_algorithm, sa_types.h:216-237. *)
Definition KDF_ROOT_KEY_LADDER := 0. Definition KDF_HKDF := 1. Definition KDF_CONCAT := 2.
Definition KDF_ANSI_X963 := 3. Definition KDF_CMAC := 4.
(** INVALID_HANDLE, UINT32_MAX and MAX_CMAC_SIZE (common.h:62). *)
Definition NO_HANDLE := 2 ^ 64 - 1. Definition NO_DIGEST := 2 ^ 32 - 1. Definition MAX_CMAC := 64.

(** [digest_algorithm_from_name], digest_util.c:107-121: [strncmp(name, literal, n) == 0] for
    an [n] up to the literal's length says that [name] starts with its first [n] characters.
    The literals of eight characters are compared to seven. *)
Definition starts (literal name : string) : bool := prefix literal name.
Definition digest_from_name (name : string) : Z :=
  if starts "SHA1" name || starts "SHA-1" name then D_SHA1
  else if starts "SHA256" name || starts "SHA2-25" name || starts "SHA-256" name then D_SHA256
  else if starts "SHA384" name || starts "SHA2-38" name || starts "SHA-384" name then D_SHA384
  else if starts "SHA512" name || starts "SHA2-51" name || starts "SHA-512" name then D_SHA512
  else NO_DIGEST.

(** [sa_provider_kdf_context], 39-51; a pointer and its length are one [input]. *)
Record kctx := MkCtx { x_alg : Z; x_key : Z; x_delete : bool; x_digest : Z; x_salt : input; x_info : input; x_sep : Z; x_l : Z }.

(** The keys behind the API, by handle.  [sa_key_release] (an unknown handle changes
    nothing). *)
Definition table := Z -> option stored_key.
Definition upd (t : table) (h : Z) (k : option stored_key) : table := fun h' => if h' =? h then k else t h'.
Definition release (t : table) (h : Z) : table := upd t h None.

(** What [OSSL_PARAM_get_octet_string] does with a NULL destination: a copy of the bytes, or
    failure, with the length stored ([Some n]) or not. *)
Inductive blob := Copied (b : list Z) | NotRead (n : option Z).
(** A parameter array: each entry absent, or present with what reading it yields ([None]: it
    cannot be read).  [q_key] reads at most eight bytes. *)
Record params := MkParams {
  q_key : option (option (list Z)); q_sa_key : option (option Z); q_delete : option (option Z);
  q_digest : option (option string); q_salt : option blob; q_info : option blob;
  q_sep : option (option Z); q_l : option (option Z) }.

(** [kdf_newctx], 68-90. *)
Definition kdf_newctx (alg : Z) : kctx := MkCtx alg NO_HANDLE false NO_DIGEST (Null 0) (Null 0) 0 0.

(** [kdf_freectx], 92-106: what becomes of the keys. *)
Definition kdf_freectx (c : kctx) (t : table) : table :=
  if x_delete c && negb (x_key c =? NO_HANDLE) then release t (x_key c) else t.

(** [kdf_dupctx], 108-186: [None] is a read through NULL.  Allocations succeed.  The
    new context comes from zalloc: algorithm, key and flag stay zero, so that the branch
    that copies the key (150-183) is never taken. *)
Definition dup_input (i : input) : option input :=
  if 0 <? in_length i then match i with Null _ => None | Bytes l => Some (Bytes l) end else Some (Null 0).
Definition kdf_dupctx (c : kctx) : option kctx :=
  match dup_input (x_salt c), dup_input (x_info c) with
  | Some salt, Some info => Some (MkCtx 0 0 false (x_digest c) salt info (x_sep c) (x_l c))
  | _, _ => None
  end.

(** [kdf_reset], 188-206: the lengths and the digest keep their values. *)
Definition kdf_reset (c : kctx) (t : table) : kctx * table :=
  (MkCtx (x_alg c) NO_HANDLE false (x_digest c) (Null (in_length (x_salt c))) (Null (in_length (x_info c))) 0 0, kdf_freectx c t).

(** A handle of eight bytes, least significant first. *)
Fixpoint le_value (l : list Z) : Z := match l with [] => 0 | b :: l => b + 256 * le_value l end.
Fixpoint le_bytes (n : nat) (z : Z) : list Z := match n with O => [] | S n => z mod 256 :: le_bytes n (z / 256) end.

(** 384-404 and 406-424: take over a key, whose header must be readable. *)
Definition take_key (c : kctx) (t : table) (key : Z) : option (kctx * table) :=
  match t key with
  | None => None
  | Some _ =>
      let t := if negb (x_key c =? NO_HANDLE) then release t (x_key c) else t in
      Some (MkCtx (x_alg c) key (x_delete c) (x_digest c) (x_salt c) (x_info c) (x_sep c) (x_l c), t)
  end.

(** [kdf_set_ctx_params], 369-486, step by step; each step answers whether to go on.  [junk]
    is what the variable [key] holds before it is read into. *)
Definition step := kctx -> table -> bool * kctx * table.
Definition then_ (a b : step) : step := fun c t =>
  match a c t with (true, c, t) => b c t | r => r end.
Definition set_key (q : option (option (list Z))) (junk : list Z) : step := fun c t =>
  match q with
  | None => (true, c, t)
  | Some None => (false, c, t)
  | Some (Some bytes) =>
      match take_key c t (le_value (firstn 8 (bytes ++ skipn (List.length bytes) junk))) with
      | Some (c, t) => (true, c, t) | None => (false, c, t) end
  end.
Definition set_sa_key (q : option (option Z)) : step := fun c t =>
  match q with
  | None => (true, c, t)
  | Some None => (false, c, t)
  | Some (Some key) => match take_key c t key with Some (c, t) => (true, c, t) | None => (false, c, t) end
  end.
Definition set_delete (q : option (option Z)) : step := fun c t =>
  match q with
  | None => (true, c, t)
  | Some None => (false, c, t)
  | Some (Some d) => (true, MkCtx (x_alg c) (x_key c) (negb (d =? 0)) (x_digest c) (x_salt c) (x_info c) (x_sep c) (x_l c), t)
  end.
Definition set_digest (q : option (option string)) : step := fun c t =>
  match q with
  | None => (true, c, t)
  | Some None => (false, c, t)
  | Some (Some name) => (true, MkCtx (x_alg c) (x_key c) (x_delete c) (digest_from_name name) (x_salt c) (x_info c) (x_sep c) (x_l c), t)
  end.
Definition set_blob (q : blob) (old : input) : bool * input :=
  match q with
  | Copied b => (true, Bytes b)
  | NotRead (Some n) => (false, Null n)
  | NotRead None => (false, Null (in_length old))
  end.
Definition set_salt (q : option blob) : step := fun c t =>
  match q with
  | None => (true, c, t)
  | Some b => let (r, salt) := set_blob b (x_salt c) in
              (r, MkCtx (x_alg c) (x_key c) (x_delete c) (x_digest c) salt (x_info c) (x_sep c) (x_l c), t)
  end.
Definition set_info (q : option blob) : step := fun c t =>
  match q with
  | None => (true, c, t)
  | Some b => let (r, info) := set_blob b (x_info c) in
              (r, MkCtx (x_alg c) (x_key c) (x_delete c) (x_digest c) (x_salt c) info (x_sep c) (x_l c), t)
  end.
Definition set_sep (q : option (option Z)) : step := fun c t =>
  match q with
  | None => (true, c, t)
  | Some None => (false, c, t)
  | Some (Some n) => (true, MkCtx (x_alg c) (x_key c) (x_delete c) (x_digest c) (x_salt c) (x_info c) n (x_l c), t)
  end.
Definition set_l (q : option (option Z)) : step := fun c t =>
  match q with
  | None => (true, c, t)
  | Some None => (false, c, t)
  | Some (Some n) => (true, MkCtx (x_alg c) (x_key c) (x_delete c) (x_digest c) (x_salt c) (x_info c) (x_sep c) n, t)
  end.
Definition kdf_set_ctx_params (q : option params) (junk : list Z) : step := fun c t =>
  match q with
  | None => (false, c, t)
  | Some q =>
      then_ (set_key (q_key q) junk) (then_ (set_sa_key (q_sa_key q)) (then_ (set_delete (q_delete q))
        (then_ (set_digest (q_digest q)) (then_ (set_salt (q_salt q)) (then_ (set_info (q_info q))
          (then_ (set_sep (q_sep q)) (set_l (q_l q)))))))) c t
  end.

(** [sa_rights_set_allow_all], util/src/sa_rights.c:22-46. *)
Definition allow_all : rights :=
  MkRights (repeat 0 64) (BIT_SET (Z.lor KEY_USAGE_MASK OUTPUT_PROTECTIONS_MASK) F_CACHEABLE) 0 0 (2 ^ 64 - 1)
    (ALL_MATCH :: repeat 0 31).

(** What the derivation depends on besides its arguments: OpenSSL in the TA, the clock, the
    memory and buffers of M_Kdf.v, the success of the calls of OpenSSL and of the
    allocations in the TA ([e_alloc]) and here ([e_malloc]), and the new handle. *)
Record env := MkEnv { e_lib : lib; e_now : Z; e_mem : option (list Z); e_buf1 : list Z; e_buf2 : list Z;
                      e_answers : nat -> bool; e_alloc : bool; e_malloc : bool; e_handle : Z; e_junk : list Z }.

(** The buffer of the CMAC derivation, 274-302: [None] is a write outside it; [Some None] no
    memory (OPENSSL_malloc(0) is NULL).  Sums of lengths do not wrap around: they are
    lengths of memory. *)
Definition add_to (size : Z) (data : option (list Z)) (b : list Z) : option (list Z) :=
  match data with
  | None => None
  | Some d => if zlen d + zlen b <=? size then Some (d ++ b) else None
  end.
Definition be32_of (n : Z) : list Z := [n / 2 ^ 24 mod 256; n / 2 ^ 16 mod 256; n / 2 ^ 8 mod 256; n mod 256].
Definition other_data (c : kctx) (keylen : Z) (malloc : bool) : option (option (list Z)) :=
  let size := in_length (x_salt c) + (if x_sep c =? 1 then 1 else 0) + in_length (x_info c) + (if x_l c =? 1 then 4 else 0) in
  if (size =? 0) || negb malloc then Some None
  else
    let d := add_to size (Some []) (in_bytes (x_salt c)) in
    let d := if x_sep c =? 1 then add_to size d [0] else d in
    let d := add_to size d (in_bytes (x_info c)) in
    let d := if negb (x_l c =? 0) then add_to size d (be32_of keylen) else d in
    match d with Some d => Some (Some d) | None => None end.

(** [kdf_derive], 208-331, with a non-NULL [key]; [out] is the caller's buffer.
    [Overrun] is a write outside it or outside [other_data], a crash in the derivation
    itself, or the use of [derived_key] (314) without a key in it. *)
Inductive answer := Answer (r : bool) (c : kctx) (t : table) (out : list Z) | Overrun.
Definition do_derive (c : kctx) (t : table) (keylen : Z) (e : env) : option kdf :=
  let L := e_lib e in
  let derive f := Some (match t (x_key c) with None => KdfFails INVALID_PARAMETER | Some parent => f parent end) in
  if x_alg c =? KDF_HKDF then
    derive (fun parent => derive_hkdf L allow_all (x_digest c) keylen (x_salt c) (x_info c) parent (e_now e) (e_mem e) (e_buf1 e) (e_buf2 e) (e_answers e) (e_alloc e))
  else if x_alg c =? KDF_CONCAT then
    derive (fun parent => derive_concat L allow_all (x_digest c) keylen (x_info c) parent (e_now e) (e_mem e) (e_buf1 e) (e_answers e) (e_alloc e))
  else if x_alg c =? KDF_ANSI_X963 then
    derive (fun parent => derive_x963 L allow_all (x_digest c) keylen (x_info c) parent (e_now e) (e_mem e) (e_buf1 e) (e_answers e) (e_alloc e))
  else if x_alg c =? KDF_CMAC then
    if MAX_CMAC <? keylen then Some (KdfFails INVALID_PARAMETER)
    else
      match other_data c keylen (e_malloc e) with
      | None => None
      | Some None => Some (KdfFails INTERNAL_ERROR)
      | Some (Some other) =>
          let counter := keylen / 16 + (if keylen mod 16 =? 0 then 0 else 1) in
          derive (fun parent => derive_cmac L allow_all keylen counter (Bytes other) parent (e_now e) (e_mem e) (e_buf1 e) (e_answers e) (e_alloc e))
      end
  else Some (KdfFails INVALID_PARAMETER).
Definition kdf_derive (c : kctx) (t : table) (out : list Z) (keylen : Z) (q : option params) (e : env) : answer :=
  match kdf_set_ctx_params q (e_junk e) c t with
  | (false, c, t) => Answer false c t out
  | (true, c, t) =>
      match do_derive c t keylen e with
      | None => Overrun
      | Some (KdfKey k) =>
          match put out (le_bytes 8 (e_handle e)) with
          | None => Overrun
          | Some out => Answer true c (upd t (e_handle e) (Some k)) out
          end
      | Some (KdfFails _) => Answer false c t out
      | Some _ => Overrun
      end
  end.
