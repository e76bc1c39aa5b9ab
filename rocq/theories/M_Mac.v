(** Digests, MACs and MAC contexts on bytes: util/src/digest_util.c, taimpl/src/internal/
    digest.c, hmac_context.c, cmac_context.c, and the bodies of ta_sa_crypto_mac_process.c,
    ta_sa_crypto_mac_process_key.c and ta_sa_crypto_mac_compute.c behind the handle (the
    handles themselves are in M_ApiMac.v).  OpenSSL is a record of functions; each call of it
    may also fail. *)
From Verif Require Import Base M_Rights.

(** sa_digest_algorithm, sa_types.h; [digest_length], digest_util.c:76-97: SIZE_MAX for an
    unknown one. *)
Definition D_SHA1 := 0. Definition D_SHA256 := 1. Definition D_SHA384 := 2. Definition D_SHA512 := 3.
Definition SIZE_MAX := 2 ^ 64 - 1.
Definition digest_length (d : Z) : Z :=
  if d =? D_SHA1 then 20 else if d =? D_SHA256 then 32 else if d =? D_SHA384 then 48
  else if d =? D_SHA512 then 64 else SIZE_MAX.
(** Block length of the digest inside HMAC (FIPS 180-4). *)
Definition block_length (d : Z) : nat := if (d =? D_SHA1) || (d =? D_SHA256) then 64%nat else 128%nat.

(** What is used of OpenSSL: digests and AES-CMAC. *)
Record lib := MkLib { l_hash : Z -> list Z -> list Z; l_cmac : list Z -> list Z -> list Z }.

(** OpenSSL's HMAC: RFC 2104 over its digest. *)
Definition hmac_pad (L : lib) (d : Z) (key : list Z) : list Z :=
  let k := if (block_length d <? length key)%nat then l_hash L d key else key in
  k ++ repeat 0 (block_length d - length k).
Definition l_hmac (L : lib) (d : Z) (key msg : list Z) : list Z :=
  let k := hmac_pad L d key in
  l_hash L d (map (Z.lxor 92) k ++ l_hash L d (map (Z.lxor 54) k ++ msg)).

(** A pointer with a length: NULL, or as many bytes as the length says. *)
Inductive input := Null (n : Z) | Bytes (l : list Z).
Definition in_length (i : input) : Z := match i with Null n => n | Bytes l => Z.of_nat (length l) end.
Definition in_bytes (i : input) : list Z := match i with Null _ => [] | Bytes l => l end.
(** [p == NULL && n > 0]. *)
Definition bad_input (i : input) : bool := match i with Null n => 0 <? n | Bytes _ => false end.

(** Writing [b] to the start of [buf]: [None] is a write outside the buffer. *)
Definition put (buf b : list Z) : option (list Z) :=
  if (length b <=? length buf)%nat then Some (b ++ skipn (length b) buf) else None.

(** The result of a function with an output buffer and its length: [Oob] is a write outside
    the buffer. *)
Inductive out := Ret (st : status) (buf : list Z) (len : Z) | Oob.

(** [hmac_internal], hmac_context.c:309-467, with a non-NULL [mac] and [mac_length]; [answer]:
    all calls of OpenSSL succeed.  A NULL key stands for one zero byte (359-360).  As the code
    does, inputs are not checked for NULL; all callers pass NULL only with length 0. *)
Definition hmac_internal (L : lib) (mac : list Z) (mac_length d : Z) (in1 in2 in3 : list Z) (key : input) (answer : bool) : out :=
  let hash_length := digest_length d in
  if mac_length <? hash_length then Ret INVALID_PARAMETER mac mac_length
  else if negb answer then Ret INTERNAL_ERROR mac mac_length
  else
    let k := match key with Null _ => [0] | Bytes k => k end in
    match put mac (l_hmac L d k (in1 ++ in2 ++ in3)) with
    | Some mac' => Ret OK mac' hash_length
    | None => Oob
    end.

(** [digest_sha], internal/digest.c:25-124, with a non-NULL [out]. *)
Definition digest_sha (L : lib) (buf : list Z) (out_length d : Z) (in1 in2 in3 : input) (answer : bool) : out :=
  let required := digest_length d in
  if out_length <? required then Ret INVALID_PARAMETER buf out_length
  else if bad_input in1 then Ret NULL_PARAMETER buf required
  else if bad_input in2 then Ret NULL_PARAMETER buf required
  else if bad_input in3 then Ret NULL_PARAMETER buf required
  else if negb answer then Ret INTERNAL_ERROR buf required
  else
    match put buf (l_hash L d (in_bytes in1 ++ in_bytes in2 ++ in_bytes in3)) with
    | Some buf' => Ret OK buf' required
    | None => Oob
    end.

(** [cmac], cmac_context.c:283-451, with a non-NULL [mac]; [mac] is the part of the
    caller's buffer that follows the pointer. *)
Definition cmac (L : lib) (mac : list Z) (in1 in2 in3 : input) (key : list Z) (answer : bool) : out :=
  if bad_input in1 then Ret NULL_PARAMETER mac 0
  else if bad_input in2 then Ret NULL_PARAMETER mac 0
  else if bad_input in3 then Ret NULL_PARAMETER mac 0
  else if negb ((zlen key =? 16) || (zlen key =? 32)) then Ret INTERNAL_ERROR mac 0
  else if negb answer then Ret INTERNAL_ERROR mac 0
  else
    match put mac (l_cmac L key (in_bytes in1 ++ in_bytes in2 ++ in_bytes in3)) with
    | Some mac' => Ret OK mac' 16
    | None => Oob
    end.

(** ** MAC contexts *)

(** [hmac_context_t] and [cmac_context_t] with the OpenSSL context inside: its key and the
    data absorbed.  OpenSSL does not say what a failed update leaves behind: [x_lost]. *)
Record mctx := MkMctx { x_alg : Z; x_digest : Z; x_key : list Z; x_data : list Z; x_lost : bool; x_done : bool }.

(** An answer of OpenSSL: whether the call succeeds, and the result if the context is lost. *)
Record lib_ans := MkLibAns { la_ok : bool; la_junk : list Z }.

(** EVP_MAC_update and CMAC_Update. *)
Definition lib_update (x : mctx) (l : list Z) (a : lib_ans) : mctx * bool :=
  if la_ok a then (MkMctx (x_alg x) (x_digest x) (x_key x) (x_data x ++ l) (x_lost x) (x_done x), true)
  else (MkMctx (x_alg x) (x_digest x) (x_key x) (x_data x) true (x_done x), false).
(** EVP_MAC_final and CMAC_Final. *)
Definition lib_mac (L : lib) (x : mctx) : list Z :=
  if x_alg x =? 1 then l_hmac L (x_digest x) (x_key x) (x_data x) else l_cmac L (x_key x) (x_data x).
Definition lib_final (L : lib) (x : mctx) (a : lib_ans) : option (list Z) :=
  if la_ok a then Some (if x_lost x then la_junk a else lib_mac L x) else None.

Definition set_done (x : mctx) : mctx := MkMctx (x_alg x) (x_digest x) (x_key x) (x_data x) (x_lost x) true.

(** [hmac_context_update], hmac_context.c:159-194, and [cmac_context_update],
    cmac_context.c:145-180: the same steps. *)
Definition context_update (x : mctx) (i : input) (a : lib_ans) : mctx * status :=
  if x_done x then (x, OPERATION_NOT_ALLOWED)
  else if bad_input i then (x, NULL_PARAMETER)
  else if 0 <? in_length i then
    let '(x', ok) := lib_update x (in_bytes i) a in (x', if ok then OK else INTERNAL_ERROR)
  else (x, OK).

(** [hmac_context_update_key], hmac_context.c:196-235. *)
Definition hmac_update_key (x : mctx) (k : stored_key) (a : lib_ans) : mctx * status :=
  if x_done x then (x, OPERATION_NOT_ALLOWED)
  else let '(x', ok) := lib_update x (k_bytes k) a in (x', if ok then OK else INTERNAL_ERROR).
(** [cmac_context_update_key], cmac_context.c:182-223. *)
Definition cmac_update_key (x : mctx) (k : stored_key) (a : lib_ans) : mctx * status :=
  if x_done x then (x, OPERATION_NOT_ALLOWED)
  else if 0 <? zlen (k_bytes k) then
    let '(x', ok) := lib_update x (k_bytes k) a in (x', if ok then OK else INTERNAL_ERROR)
  else (x, OK).

(** [hmac_context_compute], hmac_context.c:237-284, with a non-NULL [mac]: the mark is set
    before OpenSSL is asked. *)
Definition hmac_compute (L : lib) (x : mctx) (mac : list Z) (mac_length : Z) (a : lib_ans) : mctx * out :=
  if mac_length <? digest_length (x_digest x) then (x, Ret INVALID_PARAMETER mac mac_length)
  else
    let n := digest_length (x_digest x) in
    if x_done x then (x, Ret OPERATION_NOT_ALLOWED mac n)
    else
      let x' := set_done x in
      match lib_final L x' a with
      | None => (x', Ret INTERNAL_ERROR mac n)
      | Some m => (x', match put mac m with Some mac' => Ret OK mac' n | None => Oob end)
      end.
(** [cmac_context_compute], cmac_context.c:225-259; 16 is AES_BLOCK_SIZE. *)
Definition cmac_compute (L : lib) (x : mctx) (mac : list Z) (a : lib_ans) : mctx * out :=
  if x_done x then (x, Ret OPERATION_NOT_ALLOWED mac 16)
  else
    let x' := set_done x in
    match lib_final L x' a with
    | None => (x', Ret INTERNAL_ERROR mac 16)
    | Some m => (x', match put mac m with Some mac' => Ret OK mac' 16 | None => Oob end)
    end.

(** ta_sa_crypto_mac_process.c:50-92. *)
Definition ta_process (x : mctx) (i : input) (a : lib_ans) : mctx * status :=
  if bad_input i then (x, NULL_PARAMETER)
  else if (x_alg x =? 1) || (x_alg x =? 0) then
    if x_done x then (x, INVALID_PARAMETER) else context_update x i a
  else (x, INTERNAL_ERROR).

(** ta_sa_crypto_mac_process_key.c:45-118; [r] is what [key_store_unwrap] answers. *)
Definition ta_process_key (x : mctx) (r : status * option stored_key) (a : lib_ans) : mctx * status :=
  match r with
  | (OK, Some k) =>
      if negb (k_type k =? KT_SYMMETRIC) then (x, INVALID_PARAMETER)
      else if x_alg x =? 1 then if x_done x then (x, INVALID_PARAMETER) else hmac_update_key x k a
      else if x_alg x =? 0 then if x_done x then (x, INVALID_PARAMETER) else cmac_update_key x k a
      else (x, INTERNAL_ERROR)
  | (OK, None) => (x, NULL_PARAMETER)
  | (s, _) => (x, s)
  end.

(** ta_sa_crypto_mac_compute.c:41-124: the context, the status, the buffer and the length
    afterwards.  [buf] is NULL or the caller's buffer of as many bytes as [*out_length]. *)
Definition ta_compute (L : lib) (x : mctx) (buf : option (list Z)) (out_length : Z) (a : lib_ans) : mctx * out :=
  if x_alg x =? 1 then
    let required := digest_length (x_digest x) in
    match buf with
    | None => (x, Ret (if required =? SIZE_MAX then INVALID_PARAMETER else OK) [] required)
    | Some b =>
        if x_done x then (x, Ret INVALID_PARAMETER b out_length)
        else if out_length <? required then (x, Ret INVALID_PARAMETER b out_length)
        else hmac_compute L x b required a
    end
  else if x_alg x =? 0 then
    match buf with
    | None => (x, Ret OK [] 16)
    | Some b =>
        if x_done x then (x, Ret INVALID_PARAMETER b out_length)
        else if out_length <? 16 then (x, Ret INVALID_PARAMETER b out_length)
        else cmac_compute L x b a
    end
  else (x, Ret INTERNAL_ERROR [] out_length).

(** The calls on one context.  While a call runs it holds the context alone (C40). *)
Inductive mac_call :=
| CallProcess (i : input) (a : lib_ans)
| CallProcessKey (r : status * option stored_key) (a : lib_ans)
| CallCompute (buf : option (list Z)) (out_length : Z) (a : lib_ans).
Definition mac_step (L : lib) (x : mctx) (c : mac_call) : mctx * out :=
  match c with
  | CallProcess i a => let '(x', s) := ta_process x i a in (x', Ret s [] 0)
  | CallProcessKey r a => let '(x', s) := ta_process_key x r a in (x', Ret s [] 0)
  | CallCompute buf n a => ta_compute L x buf n a
  end.
(** A history: each call with its result. *)
Fixpoint mac_history (L : lib) (x : mctx) (cs : list mac_call) : mctx * list (mac_call * out) :=
  match cs with
  | [] => (x, [])
  | c :: cs => let '(x1, o) := mac_step L x c in
               let '(x2, h) := mac_history L x1 cs in (x2, (c, o) :: h)
  end.
(** The context after [hmac_context_create] (hmac_context.c:40-148) or [cmac_context_create]
    (cmac_context.c:42-143) has succeeded. *)
Definition mac_new (alg d : Z) (key : list Z) : mctx := MkMctx alg d key [] false false.
