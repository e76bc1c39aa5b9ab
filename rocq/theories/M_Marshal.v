(** Model of the command dispatcher and the marshalling layer of the trusted application:
    reference/src/taimpl/src/internal/ta.c:28-2140, with the command structures of
    reference/src/client/include/sa_ta_types.h (sizes and offsets for 64-bit little-endian
    machines).  The four parameters of a command are memory shared with an untrusted caller.
    A handler is a program over that memory: every read and write of it, every copy into an
    object of the trusted application's own and the call of the implementation is a step. *)
From Verif Require Import Base M_KeyStore.

Definition bytes := list Z.
Definition zlen (b : bytes) : Z := Z.of_nat (length b).

(** [ta_param] and its type word, sa_ta_types.h:80-108.  [p_null]: [mem_ref == NULL]. *)
Record param := MkParam { p_type : Z; p_null : bool; p_size : Z }.

(** A pointer handed to the implementation: no memory, the memory of a parameter, an object of
    the trusted application, or an address taken from the caller's data; and a length. *)
Inductive base := BNull | BShared (i : nat) | BOwn (b : bytes) | BWild (addr : Z).
Record ref := MkRef { r_base : base; r_len : Z }.

(** The arguments of the implementation's functions ([ta_sa_*], taimpl/include/ta_sa.h), over a type [I] of
    buffers to read and a type [O] of buffers to write.  The caller's identity, which every
    function also receives, is not an argument here. *)
Section Api.
Variables I O : Type.

Inductive gen_params := GenNone | GenSymmetric (len : Z) | GenRsa (len : Z) | GenEc (curve : Z) | GenDh (p g : I).
Inductive imp_params :=
| ImpNone | ImpSymmetric (rights : bytes) | ImpRsa (rights : bytes) | ImpEc (rights : bytes) (curve : Z)
| ImpTypej (kcipher khmac : Z) | ImpSoc (s : bytes).
Inductive unw_params :=
| UnwNone | UnwCbc (iv : I) | UnwCtr (ctr : I) | UnwGcm (iv aad tag : I) | UnwChacha (counter nonce : I)
| UnwPoly (nonce aad tag : I) | UnwElgamal (s : I) | UnwOaep (digest mgf1 : Z) (label : I).
Inductive kdf_params :=
| KdfLadder (c1 c2 c3 c4 : bytes) | KdfHkdf (len digest parent : Z) (salt info : I)
| KdfConcat (len digest parent : Z) (info : I) | KdfX963 (len digest parent : Z) (info : I)
| KdfCmac (len counter parent : Z) (other : I) | KdfNetflix (kenc khmac : Z).
(** in_kw, and the rights for the two keys. *)
Inductive exch_params := ExchNone | ExchNetflix (in_kw : Z) (rights_ke rights_kh : bytes).
Inductive init_params :=
| CipNone | CipCbc (iv : I) | CipCtr (ctr : I) | CipGcm (iv aad : I) | CipChacha (nonce counter : I)
| CipPoly (nonce aad : I) | CipOaep (digest mgf1 : Z) (label : I).
Inductive sign_params :=
| SigNone | SigPss (digest mgf1 : Z) (precomputed : bool) (salt : Z) | SigPkcs (digest : Z) (precomputed : bool)
| SigEcdsa (digest : Z) (precomputed : bool).

(** [sa_buffer]: clear memory with an offset, or an SVP buffer with an offset. *)
Inductive abuf (X : Type) := Clear (x : X) (off : Z) | Svp (ty handle off : Z).
Arguments Clear {X}. Arguments Svp {X}.

(** [sa_svp_offset]. *)
Record span := MkSpan { sp_out : Z; sp_in : Z; sp_len : Z }.

(** [sa_sample]. *)
Record sample := MkSample {
  sm_iv : bytes; sm_crypt : Z; sm_skip : Z; sm_lengths : list (Z * Z); sm_context : Z;
  sm_out : abuf O; sm_in : abuf I
}.

Inductive api :=
| GetVersion | GetName (out : O) | GetDeviceId | GetTaUuid
| KeyGenerate (rights : bytes) (type : Z) (p : gen_params)
| KeyExport (out : O) (mixin : I) (key : Z)
| KeyImport (format : Z) (data : I) (p : imp_params)
| KeyUnwrap (rights : bytes) (type : Z) (curve : option Z) (alg : Z) (p : unw_params) (wrapping : Z) (data : I)
| KeyGetPublic (out : O) (key : Z)
| KeyDerive (rights : bytes) (alg : Z) (p : kdf_params)
| KeyExchange (rights : bytes) (alg private : Z) (other : I) (p : exch_params)
| KeyRelease (key : Z) | KeyHeader (key : Z) | KeyDigest (out : O) (key digest : Z)
| CryptoRandom (out : O)
| CipherInit (alg mode key : Z) (p : init_params)
| CipherUpdateIv (context : Z) (iv : I)
| CipherProcess (out : option (abuf O)) (context : Z) (inp : abuf I) (n : Z)
| CipherProcessLast (out : option (abuf O)) (context : Z) (inp : abuf I) (n : Z) (tag : option O)
| CipherRelease (context : Z)
| MacInit (alg key : Z) (digest : option Z)
| MacProcess (context : Z) (data : I) | MacProcessKey (context key : Z)
| MacCompute (out : O) (context : Z) | MacRelease (context : Z)
| CryptoSign (out : O) (alg key : Z) (data : I) (p : sign_params)
| SvpSupported | SvpCreate (memory size : Z) | SvpRelease (buffer : Z)
| SvpWrite (out : Z) (data : I) (offsets : list span) | SvpCopy (out inp : Z) (offsets : list span)
| SvpKeyCheck (key : Z) (inp : abuf I) (n : Z) (expected : I)
| SvpBufferCheck (buffer off len digest : Z) (hash : I)
| CommonEncryption (s : sample).
End Api.
Arguments Clear {X}. Arguments Svp {X}.
Arguments GenNone {I}. Arguments GenSymmetric {I}. Arguments GenRsa {I}. Arguments GenEc {I}. Arguments GenDh {I}.
Arguments UnwNone {I}. Arguments UnwCbc {I}. Arguments UnwCtr {I}. Arguments UnwGcm {I}. Arguments UnwChacha {I}.
Arguments UnwPoly {I}. Arguments UnwElgamal {I}. Arguments UnwOaep {I}.
Arguments KdfLadder {I}. Arguments KdfHkdf {I}. Arguments KdfConcat {I}. Arguments KdfX963 {I}. Arguments KdfCmac {I}.
Arguments KdfNetflix {I}.
Arguments CipNone {I}. Arguments CipCbc {I}. Arguments CipCtr {I}. Arguments CipGcm {I}. Arguments CipChacha {I}.
Arguments CipPoly {I}. Arguments CipOaep {I}.
Arguments MkSample {I O}. Arguments sm_iv {I O}. Arguments sm_crypt {I O}. Arguments sm_skip {I O}.
Arguments sm_lengths {I O}. Arguments sm_context {I O}. Arguments sm_out {I O}. Arguments sm_in {I O}.
Arguments GetVersion {I O}. Arguments GetName {I O}. Arguments GetDeviceId {I O}. Arguments GetTaUuid {I O}.
Arguments KeyGenerate {I O}. Arguments KeyExport {I O}. Arguments KeyImport {I O}. Arguments KeyUnwrap {I O}.
Arguments KeyGetPublic {I O}. Arguments KeyDerive {I O}. Arguments KeyExchange {I O}. Arguments KeyRelease {I O}.
Arguments KeyHeader {I O}. Arguments KeyDigest {I O}. Arguments CryptoRandom {I O}. Arguments CipherInit {I O}.
Arguments CipherUpdateIv {I O}. Arguments CipherProcess {I O}. Arguments CipherProcessLast {I O}.
Arguments CipherRelease {I O}. Arguments MacInit {I O}. Arguments MacProcess {I O}. Arguments MacProcessKey {I O}.
Arguments MacCompute {I O}. Arguments MacRelease {I O}. Arguments CryptoSign {I O}. Arguments SvpSupported {I O}.
Arguments SvpCreate {I O}. Arguments SvpRelease {I O}. Arguments SvpWrite {I O}. Arguments SvpCopy {I O}.
Arguments SvpKeyCheck {I O}. Arguments SvpBufferCheck {I O}. Arguments CommonEncryption {I O}.

Definition call := api ref ref.

(** What the implementation reports: a status, the words it leaves in its scalar out-parameters
    (handles, lengths, offsets) and, for the version, UUID and header, the bytes. *)
Record reply := MkReply { r_status : status; r_words : list Z; r_bytes : bytes }.
Definition word (r : reply) (n : nat) : Z := nth n (r_words r) 0.

(** Programs of the marshalling layer.
    - [Fetch i off n]: read [n] bytes at [off] of the memory of parameter [i].
    - [Store i off b]: write [b] at [off] of the memory of parameter [i].
    - [Fill cap n]: write [n] bytes from the start of an object of [cap] bytes of our own.
    - [Cast have need]: from here on use an object of [have] bytes as a structure of [need] bytes.
    - [Garbage n]: use [n] bytes of our own that were never written.
    - [Alloc n]: allocate; the allocator answers.
    - [Invoke f]: call the implementation. *)
Inductive prog (A : Type) :=
| Done (a : A)
| Fetch (i : nat) (off n : Z) (k : bytes -> prog A)
| Store (i : nat) (off : Z) (b : bytes) (k : prog A)
| Fill (cap n : Z) (k : prog A)
| Cast (have need : Z) (k : prog A)
| Garbage (n : Z) (k : bytes -> prog A)
| Alloc (n : Z) (k : bool -> prog A)
| Invoke (f : call) (k : reply -> prog A).
Arguments Done {A}. Arguments Fetch {A}. Arguments Store {A}. Arguments Fill {A}. Arguments Cast {A}.
Arguments Garbage {A}. Arguments Alloc {A}. Arguments Invoke {A}.

Fixpoint bind {A B} (p : prog A) (f : A -> prog B) : prog B :=
  match p with
  | Done a => f a
  | Fetch i off n k => Fetch i off n (fun b => bind (k b) f)
  | Store i off b k => Store i off b (bind k f)
  | Fill cap n k => Fill cap n (bind k f)
  | Cast have need k => Cast have need (bind k f)
  | Garbage n k => Garbage n (fun b => bind (k b) f)
  | Alloc n k => Alloc n (fun b => bind (k b) f)
  | Invoke g k => Invoke g (fun r => bind (k r) f)
  end.

(** Little-endian fields of a structure. *)
Definition w8 (c : bytes) (off : nat) : Z := le_num (field c off 8).
Definition w4 (c : bytes) (off : nat) : Z := le_num (field c off 4).
Definition w1 (c : bytes) (off : nat) : Z := le_num (field c off 1).
Definition set (c : bytes) (off : nat) (b : bytes) : bytes := firstn off c ++ b ++ skipn (off + length b) c.
Definition set8 (c : bytes) (off : nat) (x : Z) : bytes := set c off (le_bytes 8 x).

(** What the implementation left in an out-parameter of [n] bytes. *)
Definition fixed (n : nat) (b : bytes) : bytes := firstn n (b ++ repeat 0 n).

(** Parameter types, sa_ta_types.h:80-99, and the tests of ta.c:28-41. *)
Definition is_in (t : Z) : bool := (t =? 5) || (t =? 13).
Definition is_out (t : Z) : bool := (t =? 6) || (t =? 14).
Definition is_inout (t : Z) : bool := (t =? 7) || (t =? 15).

Section Handlers.
Variable ps : nat -> param.

Definition T (i : nat) : Z := p_type (ps i).
Definition null (i : nat) : bool := p_null (ps i).
Definition size (i : nat) : Z := p_size (ps i).
(** CHECK_NOT_TA_PARAM_NULL and CHECK_TA_PARAM_NULL, ta.c:28-31. *)
Definition not_null (i : nat) : bool := negb (T i =? 0) || negb (null i) || negb (size i =? 0).
Definition is_null (i : nat) : bool := (T i =? 0) || null i || (size i =? 0).

(** [params[i].mem_ref] with a length. *)
Definition at_len (i : nat) (n : Z) : ref := MkRef (if null i then BNull else BShared i) n.
Definition at_ (i : nat) : ref := at_len i (size i).
(** A field of an object of ours, with the length the structure claims for it. *)
Definition own (b : bytes) (n : Z) : ref := MkRef (BOwn b) n.

(** What a command handler leaves: a status and the private copy of the command structure. *)
Definition done := (status * bytes)%type.
Definition guard (bad : bool) (st : status) (c : bytes) (k : prog done) : prog done :=
  if bad then Done (st, c) else k.

(** [memcpy(&s, params[i].mem_ref, params[i].mem_ref_size)] for a local structure [s] of [cap]
    bytes of which all are used afterwards. *)
Definition copy_in (i : nat) (cap : Z) (k : bytes -> prog done) : prog done :=
  Fetch i 0 (size i) (fun b => Fill cap (size i)
    (if size i <? cap then Garbage (cap - size i) (fun g => k (b ++ g)) else k b)).

Definition bad_version (c : bytes) : bool := negb (w1 c 0 =? 1).

(** Commands with a structure and nothing else, INOUT or IN: the first test, then the use of the
    copy as a structure of [n] bytes. *)
Definition only_struct (inout : bool) (n : Z) (c : bytes) (k : prog done) : prog done :=
  guard ((if inout then negb (is_inout (T 0)) else negb (is_in (T 0))) || negb (size 0 =? n) ||
         not_null 1 || not_null 2 || not_null 3) INVALID_PARAMETER c
  (Cast (zlen c) n (guard (bad_version c) INVALID_PARAMETER c k)).

(** Commands with an output buffer in parameter 1 whose length the structure repeats at [off]. *)
Definition with_out (n : Z) (extra : bool) (c : bytes) (k : prog done) : prog done :=
  guard (negb (is_inout (T 0)) || negb (size 0 =? n) || (negb (is_out (T 1)) && not_null 1) || extra || not_null 3)
    INVALID_PARAMETER c
  (Cast (zlen c) n (guard (not_null 1 && negb (size 1 =? w8 c 8)) INVALID_PARAMETER c
    (guard (bad_version c) INVALID_PARAMETER c k))).

(** [size_t n = s->out_length; status = f(params[1].mem_ref, &n, ...); s->out_length = n]. *)
Definition run_out (c : bytes) (f : ref -> call) : prog done :=
  Invoke (f (at_len 1 (w8 c 8))) (fun r => Done (r_status r, set8 c 8 (word r 0))).

(** ta_invoke_get_version, ta.c:47-68. *)
Definition get_version (c : bytes) : prog done :=
  only_struct true 40 c (Invoke GetVersion (fun r => Done (r_status r, set c 8 (fixed 32 (r_bytes r))))).
(** ta_invoke_get_name, ta.c:70-101. *)
Definition get_name (c : bytes) : prog done :=
  with_out 16 (not_null 2) c (run_out c GetName).
(** ta_invoke_get_device_id, ta.c:103-124. *)
Definition get_device_id (c : bytes) : prog done :=
  only_struct true 16 c (Invoke GetDeviceId (fun r => Done (r_status r, set8 c 8 (word r 0)))).
(** ta_invoke_get_ta_uuid, ta.c:126-147. *)
Definition get_ta_uuid (c : bytes) : prog done :=
  only_struct true 17 c (Invoke GetTaUuid (fun r => Done (r_status r, set c 1 (fixed 16 (r_bytes r))))).

Definition SYMMETRIC : Z := 0. Definition EC : Z := 1. Definition RSA : Z := 2. Definition DH : Z := 3.
(** The key handle a creating function leaves in the structure at offset 8. *)
Definition run_key (c : bytes) (f : call) : prog done :=
  Invoke f (fun r => Done (r_status r, set8 c 8 (word r 0))).

(** An optional input parameter: IN, or absent. *)
Definition bad_opt_in (i : nat) : bool := negb (is_in (T i)) && not_null i.

(** ta_invoke_key_generate, ta.c:149-210. *)
Definition key_generate (c : bytes) : prog done :=
  guard (negb (is_inout (T 0)) || negb (size 0 =? 640) || bad_opt_in 1 || bad_opt_in 2 || not_null 3)
    INVALID_PARAMETER c
  (Cast (zlen c) 640 (guard (bad_version c) INVALID_PARAMETER c
    (let type := w4 c 624 in let len := w8 c 632 in
     let go p := run_key c (KeyGenerate (field c 16 608) type p) in
     if type =? SYMMETRIC then go (GenSymmetric len)
     else if type =? RSA then go (GenRsa len)
     else if type =? EC then go (GenEc (len mod 2 ^ 32))
     else if type =? DH then
       guard (null 1 || null 2) NULL_PARAMETER c (go (GenDh (at_ 1) (at_ 2)))
     else go GenNone))).

(** ta_invoke_key_export, ta.c:212-245. *)
Definition key_export (c : bytes) : prog done :=
  with_out 24 (bad_opt_in 2) c (run_out c (fun o => KeyExport o (at_ 2) (w8 c 16))).

(** The rights of an imported key in parameter 2, ta.c:281-294. *)
Definition rights_in (c : bytes) (k : bytes -> prog done) : prog done :=
  guard (negb (is_in (T 2)) || null 2) NULL_PARAMETER c
  (guard (negb (size 2 =? 608)) INVALID_PARAMETER c (copy_in 2 608 k)).

Definition FORMAT_SYMMETRIC : Z := 0. Definition FORMAT_EC : Z := 1. Definition FORMAT_RSA : Z := 2.
Definition FORMAT_EXPORTED : Z := 3. Definition FORMAT_SOC : Z := 4. Definition FORMAT_TYPEJ : Z := 5.
(** sizeof(sa_import_parameters_soc). *)
Definition SOC_SIZE : Z := 624.

(** ta_invoke_key_import, ta.c:247-373. *)
Definition key_import (c : bytes) : prog done :=
  guard (negb (is_inout (T 0)) || negb (size 0 =? 24) || negb (is_in (T 1)) || bad_opt_in 2 || not_null 3)
    INVALID_PARAMETER c
  (guard (null 1 || (size 1 =? 0)) NULL_PARAMETER c
  (Cast (zlen c) 24 (guard (bad_version c) INVALID_PARAMETER c
    (let format := w4 c 16 in
     let go p := run_key c (KeyImport format (at_ 1) p) in
     if format =? FORMAT_SYMMETRIC then rights_in c (fun b => go (ImpSymmetric b))
     else if format =? FORMAT_RSA then rights_in c (fun b => go (ImpRsa b))
     else if format =? FORMAT_EC then rights_in c (fun b => go (ImpEc b (w4 c 20)))
     else if format =? FORMAT_EXPORTED then guard (not_null 2) NULL_PARAMETER c (go ImpNone)
     else if format =? FORMAT_TYPEJ then
       guard (negb (is_in (T 2)) || null 2) NULL_PARAMETER c
       (guard (negb (size 2 =? 16)) INVALID_PARAMETER c (copy_in 2 16 (fun b => go (ImpTypej (w8 b 0) (w8 b 8)))))
     else if format =? FORMAT_SOC then
       if is_in (T 2) then
         guard (null 2 || (size 2 =? 0)) NULL_PARAMETER c (copy_in 2 SOC_SIZE (fun b => go (ImpSoc b)))
       else go ImpNone
     else go ImpNone)))).

(** Pointers and lengths that ta_invoke_key_provision takes out of the caller's structure,
    ta.c:421-464. *)
Definition wild (addr n : Z) : ref := MkRef (BWild addr) n.
Definition WIDEVINE : Z := 0. Definition PLAYREADY : Z := 1. Definition NETFLIX : Z := 4.

(** ta_invoke_key_provision, ta.c:375-509.  The values read only in order to be logged are left out. *)
Definition key_provision (c : bytes) : prog done :=
  guard (negb (is_inout (T 0)) || negb (size 0 =? 24) || negb (is_in (T 1)) || bad_opt_in 2 || bad_opt_in 3)
    INVALID_PARAMETER c
  (guard (null 1 || (size 1 =? 0)) NULL_PARAMETER c
  (Cast (zlen c) 24 (guard (bad_version c) INVALID_PARAMETER c
    (let format := w4 c 16 in
     let import p data (k : reply -> prog done) := Invoke (KeyImport format data p) k in
     let rest p :=
       Fetch 3 0 4 (fun t => let type := w4 t 0 in
         if type =? WIDEVINE then
           Fetch 1 8 8 (fun a => Fetch 1 0 4 (fun n =>
             import p (wild (w8 a 0) (w4 n 0)) (fun r => Done (r_status r, set8 c 8 (word r 0)))))
         else if type =? PLAYREADY then
           Fetch 1 8 8 (fun a => Fetch 1 4 4 (fun n =>
             import p (wild (w8 a 0) (w4 n 0)) (fun r => Done (r_status r, set8 c 8 (word r 0)))))
         else if type =? NETFLIX then
           Fetch 1 8 8 (fun a => Fetch 1 0 4 (fun n => Fetch 1 24 8 (fun a' => Fetch 1 16 4 (fun n' =>
             import p (wild (w8 a 0) (w4 n 0)) (fun r =>
               let c1 := set8 c 8 (word r 0) in
               guard (negb (status_eqb (r_status r) OK)) (r_status r) c1
               (let last := import p (wild (w8 a' 0) (w4 n' 0)) (fun r2 => Done (r_status r2, set8 c1 8 (word r2 0))) in
                if word r 0 =? INVALID_HANDLE then last
                else Invoke (KeyRelease (word r 0)) (fun r1 => guard (negb (status_eqb (r_status r1) OK)) (r_status r1) c1 last)))))))
         else Done (OK, c)) in
     if is_in (T 2) then
       guard (null 2 || (size 2 =? 0)) NULL_PARAMETER c (copy_in 2 SOC_SIZE (fun b => rest (ImpSoc b)))
     else rest ImpNone)))).

Definition AES_CBC : Z := 2. Definition AES_CBC_PKCS7 : Z := 3. Definition AES_CTR : Z := 4. Definition AES_GCM : Z := 5.
Definition RSA_OAEP : Z := 7. Definition EC_ELGAMAL : Z := 8. Definition CHACHA20 : Z := 9. Definition CHACHA20_POLY1305 : Z := 10.

(** An algorithm-parameter structure of exactly [n] bytes in parameter [i], ta.c:559-567. *)
Definition exact_in (i : nat) (n : Z) (c : bytes) (k : prog done) : prog done :=
  guard (null i) NULL_PARAMETER c (guard (negb (size i =? n)) INVALID_PARAMETER c k).

(** ta_invoke_key_unwrap, ta.c:511-701. *)
Definition key_unwrap (c : bytes) : prog done :=
  guard (negb (is_inout (T 0)) || negb (size 0 =? 648) || bad_opt_in 1 || bad_opt_in 2 || bad_opt_in 3)
    INVALID_PARAMETER c
  (Cast (zlen c) 648 (guard (bad_version c) INVALID_PARAMETER c
    (let type := w4 c 624 in let alg := w4 c 632 in
     let curve := if type =? EC then Some (w4 c 628) else None in
     let go p := run_key c (KeyUnwrap (field c 16 608) type curve alg p (w8 c 640) (at_ 1)) in
     if (alg =? AES_CBC) || (alg =? AES_CBC_PKCS7) then
       exact_in 2 16 c (copy_in 2 16 (fun b => go (UnwCbc (own (field b 0 16) 16))))
     else if alg =? AES_CTR then
       exact_in 2 16 c (copy_in 2 16 (fun b => go (UnwCtr (own (field b 0 16) 16))))
     else if alg =? AES_GCM then
       exact_in 2 48 c (guard (null 3) NULL_PARAMETER c (copy_in 2 48 (fun b =>
         go (UnwGcm (own (field b 0 12) (w8 b 16)) (at_ 3) (own (field b 24 16) (w8 b 40))))))
     else if alg =? CHACHA20 then
       exact_in 2 40 c (copy_in 2 40 (fun b =>
         go (UnwChacha (own (field b 0 4) (w8 b 8)) (own (field b 16 12) (w8 b 32)))))
     else if alg =? CHACHA20_POLY1305 then
       exact_in 2 48 c (guard (null 3) NULL_PARAMETER c (copy_in 2 48 (fun b =>
         go (UnwPoly (own (field b 0 12) (w8 b 16)) (at_ 3) (own (field b 24 16) (w8 b 40))))))
     else if alg =? EC_ELGAMAL then
       (* the copy made here is never used: the implementation is given the shared memory *)
       exact_in 2 16 c (copy_in 2 16 (fun _ => go (UnwElgamal (at_ 2))))
     else if alg =? RSA_OAEP then
       exact_in 2 8 c (copy_in 2 8 (fun b => go (UnwOaep (w4 b 0) (w4 b 4) (at_ 3))))
     else go UnwNone))).

(** ta_invoke_key_get_public, ta.c:703-735. *)
Definition key_get_public (c : bytes) : prog done :=
  with_out 24 (not_null 2) c (run_out c (fun o => KeyGetPublic o (w8 c 16))).

Definition ROOT_LADDER : Z := 0. Definition HKDF : Z := 1. Definition CONCAT : Z := 2. Definition X963 : Z := 3.
Definition KDF_CMAC : Z := 4. Definition KDF_NETFLIX : Z := 5. Definition COMMON_ROOT_LADDER : Z := 6.
(** The size of the structure that holds the parameters of a derivation. *)
Definition kdf_size (alg : Z) : Z :=
  if (alg =? ROOT_LADDER) || (alg =? COMMON_ROOT_LADDER) then 64 else if alg =? KDF_NETFLIX then 16 else 24.
Definition kdf_of (alg : Z) (b : bytes) : kdf_params ref :=
  if (alg =? ROOT_LADDER) || (alg =? COMMON_ROOT_LADDER)
  then KdfLadder (field b 0 16) (field b 16 16) (field b 32 16) (field b 48 16)
  else if alg =? HKDF then KdfHkdf (w8 b 0) (w4 b 8) (w8 b 16) (at_ 3) (at_ 2)
  else if alg =? CONCAT then KdfConcat (w8 b 0) (w4 b 8) (w8 b 16) (at_ 2)
  else if alg =? X963 then KdfX963 (w8 b 0) (w4 b 8) (w8 b 16) (at_ 2)
  else if alg =? KDF_CMAC then KdfCmac (w8 b 0) (w1 b 16) (w8 b 8) (at_ 2)
  else KdfNetflix (w8 b 0) (w8 b 8).

(** ta_invoke_key_derive, ta.c:737-871. *)
Definition key_derive (c : bytes) : prog done :=
  guard (negb (is_inout (T 0)) || negb (size 0 =? 632) || bad_opt_in 1 || bad_opt_in 2 || bad_opt_in 3)
    INVALID_PARAMETER c
  (Cast (zlen c) 632 (guard (bad_version c) INVALID_PARAMETER c
    (let alg := w4 c 624 in
     guard (negb (alg <=? COMMON_ROOT_LADDER)) INVALID_PARAMETER c
     (guard (null 1) NULL_PARAMETER c
      (copy_in 1 (kdf_size alg) (fun b => run_key c (KeyDerive (field c 16 608) alg (kdf_of alg b)))))))).

Definition EXCHANGE_NETFLIX : Z := 2.
(** ta_invoke_key_exchange, ta.c:873-929. *)
Definition key_exchange (c : bytes) : prog done :=
  guard (negb (is_inout (T 0)) || negb (size 0 =? 640) || negb (is_in (T 1)) ||
         (negb (is_inout (T 2)) && not_null 2) || not_null 3) INVALID_PARAMETER c
  (guard (null 1 || (size 1 =? 0)) NULL_PARAMETER c
  (Cast (zlen c) 640 (guard (bad_version c) INVALID_PARAMETER c
    (let alg := w4 c 624 in
     let go p := KeyExchange (field c 16 608) alg (w8 c 632) (at_ 1) p in
     if alg =? EXCHANGE_NETFLIX then
       exact_in 2 1240 c (copy_in 2 1240 (fun s =>
         Invoke (go (ExchNetflix (w8 s 0) (field s 16 608) (field s 632 608))) (fun r =>
           Store 2 0 (set8 (set8 s 8 (word r 1)) 624 (word r 2))
             (Done (r_status r, set8 c 8 (word r 0))))))
     else run_key c (go ExchNone))))).

(** ta_invoke_key_release, ta.c:931-952. *)
Definition key_release (c : bytes) : prog done :=
  only_struct false 16 c (Invoke (KeyRelease (w8 c 8)) (fun r => Done (r_status r, c))).

(** ta_invoke_key_header, ta.c:954-993.  [r_bytes] is the header laid out as [sa_header_s]. *)
Definition key_header (c : bytes) : prog done :=
  guard (negb (is_inout (T 0)) || negb (size 0 =? 16) || negb (is_out (T 1)) ||
         negb (size 1 =? Z.of_nat HEADER_SIZE) || not_null 2 || not_null 3) INVALID_PARAMETER c
  (Cast (zlen c) 16 (guard (bad_version c) INVALID_PARAMETER c
    (Invoke (KeyHeader (w8 c 8)) (fun r =>
      Store 1 0 (fixed HEADER_SIZE (r_bytes r)) (Done (r_status r, c)))))).

(** ta_invoke_key_digest, ta.c:995-1026. *)
Definition key_digest (c : bytes) : prog done :=
  with_out 32 (not_null 2) c (run_out c (fun o => KeyDigest o (w8 c 16) (w4 c 24))).

(** ta_invoke_crypto_random, ta.c:1028-1059. *)
Definition crypto_random (c : bytes) : prog done :=
  guard (negb (is_in (T 0)) || negb (size 0 =? 1) || negb (is_out (T 1)) || not_null 2 || not_null 3)
    INVALID_PARAMETER c
  (guard (null 1 || (size 1 =? 0)) NULL_PARAMETER c
  (Cast (zlen c) 1 (guard (bad_version c) INVALID_PARAMETER c
    (Invoke (CryptoRandom (at_ 1)) (fun r => Done (r_status r, c)))))).

(** ta_invoke_crypto_cipher_init, ta.c:1061-1187. *)
Definition cipher_init (c : bytes) : prog done :=
  guard (negb (is_inout (T 0)) || negb (size 0 =? 32) || bad_opt_in 1 || bad_opt_in 2 || bad_opt_in 3)
    INVALID_PARAMETER c
  (Cast (zlen c) 32 (guard (bad_version c) INVALID_PARAMETER c
    (let alg := w4 c 16 in
     let go p := run_key c (CipherInit alg (w4 c 20) (w8 c 24) p) in
     if (alg =? AES_CBC) || (alg =? AES_CBC_PKCS7) then guard (null 1) NULL_PARAMETER c (go (CipCbc (at_ 1)))
     else if alg =? AES_CTR then guard (null 1) NULL_PARAMETER c (go (CipCtr (at_ 1)))
     else if alg =? AES_GCM then guard (null 1) NULL_PARAMETER c (go (CipGcm (at_ 1) (at_ 2)))
     else if alg =? CHACHA20 then
       guard (null 1) NULL_PARAMETER c (guard (null 2) NULL_PARAMETER c (go (CipChacha (at_ 1) (at_ 2))))
     else if alg =? CHACHA20_POLY1305 then guard (null 1) NULL_PARAMETER c (go (CipPoly (at_ 1) (at_ 2)))
     else if alg =? RSA_OAEP then
       exact_in 1 8 c (copy_in 1 8 (fun b => go (CipOaep (w4 b 0) (w4 b 4) (at_ 2))))
     else go CipNone))).

(** ta_invoke_crypto_cipher_update_iv, ta.c:1189-1222. *)
Definition cipher_update_iv (c : bytes) : prog done :=
  guard (negb (is_in (T 0)) || negb (size 0 =? 16) || negb (is_in (T 1)) || not_null 2 || not_null 3)
    INVALID_PARAMETER c
  (guard (null 1 || (size 1 =? 0)) NULL_PARAMETER c
  (Cast (zlen c) 16 (guard (bad_version c) INVALID_PARAMETER c
    (Invoke (CipherUpdateIv (w8 c 8) (at_ 1)) (fun r => Done (r_status r, c)))))).

Definition CLEAR : Z := 0.
(** The buffer described by a type word and an offset in the structure and by parameter [i],
    ta.c:1253-1275, 1750-1762, 1868-1890: clear memory, or an SVP handle stored in that memory. *)
Definition buffer (ty : Z) (i : nat) (off : Z) (k : abuf ref -> prog done) : prog done :=
  if ty =? CLEAR then k (Clear (at_ i) off)
  else Fetch i 0 8 (fun h => k (Svp ty (w8 h 0) off)).

(** ta_invoke_crypto_cipher_process, ta.c:1224-1308.  Line 1234 tests CHECK_TA_PARAM_INOUT where the
    other commands test CHECK_NOT_...: the output may be of any type but INOUT. *)
Definition cipher_process (last : bool) (c : bytes) : prog done :=
  guard (negb (is_inout (T 0)) || negb (size 0 =? 56) || (is_inout (T 1) && not_null 1) || negb (is_in (T 2)) ||
         (negb (is_inout (T 3)) && not_null 3)) INVALID_PARAMETER c
  (guard (null 2) NULL_PARAMETER c
  (Cast (zlen c) 56 (guard (bad_version c) INVALID_PARAMETER c
    (buffer (w4 c 24) 1 (w8 c 32) (fun o => buffer (w4 c 40) 2 (w8 c 48) (fun inp =>
      let out := if null 1 then None else Some o in
      let f := if last
        then CipherProcessLast out (w8 c 8) inp (w8 c 16) (if null 3 then None else Some (at_ 3))
        else CipherProcess out (w8 c 8) inp (w8 c 16) in
      Invoke f (fun r =>
        let c1 := set8 c 16 (word r 0) in
        let c2 := if null 1 then c1 else set8 c1 32 (word r 1) in
        Done (r_status r, set8 c2 48 (word r 2))))))))).

(** ta_invoke_crypto_cipher_release, ta.c:1310-1332. *)
Definition cipher_release (c : bytes) : prog done :=
  only_struct false 16 c (Invoke (CipherRelease (w8 c 8)) (fun r => Done (r_status r, c))).

Definition HMAC : Z := 1.
(** ta_invoke_crypto_mac_init, ta.c:1334-1366. *)
Definition mac_init (c : bytes) : prog done :=
  only_struct true 40 c
    (run_key c (MacInit (w4 c 16) (w8 c 24) (if w4 c 16 =? HMAC then Some (w4 c 32) else None))).

(** ta_invoke_crypto_mac_process, ta.c:1368-1391. *)
Definition mac_process (c : bytes) : prog done :=
  guard (negb (is_in (T 0)) || negb (size 0 =? 16) || bad_opt_in 1 || not_null 2 || not_null 3) INVALID_PARAMETER c
  (Cast (zlen c) 16 (guard (bad_version c) INVALID_PARAMETER c
    (Invoke (MacProcess (w8 c 8) (at_ 1)) (fun r => Done (r_status r, c))))).

(** ta_invoke_crypto_mac_process_key, ta.c:1393-1416. *)
Definition mac_process_key (c : bytes) : prog done :=
  only_struct false 24 c (Invoke (MacProcessKey (w8 c 8) (w8 c 16)) (fun r => Done (r_status r, c))).

(** ta_invoke_crypto_mac_compute, ta.c:1418-1451. *)
Definition mac_compute (c : bytes) : prog done :=
  with_out 24 (not_null 2) c (run_out c (fun o => MacCompute o (w8 c 16))).

(** ta_invoke_crypto_mac_release, ta.c:1453-1475. *)
Definition mac_release (c : bytes) : prog done :=
  only_struct false 16 c (Invoke (MacRelease (w8 c 8)) (fun r => Done (r_status r, c))).

Definition RSA_PKCS1V15 : Z := 0. Definition RSA_PSS : Z := 1. Definition ECDSA : Z := 2.
(** ta_invoke_crypto_sign, ta.c:1477-1539. *)
Definition crypto_sign (c : bytes) : prog done :=
  with_out 48 (bad_opt_in 2) c
    (let alg := w4 c 16 in let pre := c_bool (w1 c 44) in
     let p := if alg =? RSA_PSS then SigPss (w4 c 20) (w4 c 40) pre (w8 c 32)
              else if alg =? RSA_PKCS1V15 then SigPkcs (w4 c 20) pre
              else if alg =? ECDSA then SigEcdsa (w4 c 20) pre else SigNone in
     run_out c (fun o => CryptoSign o alg (w8 c 24) (at_ 2) p)).

(** ta_invoke_svp_supported, ta.c:1541-1562. *)
Definition svp_supported (c : bytes) : prog done :=
  only_struct false 1 c (Invoke SvpSupported (fun r => Done (r_status r, c))).
(** ta_invoke_svp_buffer_create, ta.c:1564-1587. *)
Definition svp_create (c : bytes) : prog done :=
  only_struct true 32 c (run_key c (SvpCreate (w8 c 16) (w8 c 24))).
(** ta_invoke_svp_buffer_release, ta.c:1589-1615. *)
Definition svp_release (c : bytes) : prog done :=
  only_struct true 32 c (Invoke (SvpRelease (w8 c 24)) (fun r =>
    Done (r_status r, set8 (set8 c 8 (word r 0)) 16 (word r 1)))).

(** [sa_svp_offset_s offsets[n]]. *)
Fixpoint spans (n : nat) (b : bytes) : list span :=
  match n with
  | O => []
  | S m => MkSpan (w8 b 0) (w8 b 8) (w8 b 16) :: spans m (skipn 24 b)
  end.
(** The table of offsets in parameter [i], copied entry by entry, ta.c:1645-1661, 1699-1715. *)
Definition offsets_in (i : nat) (c : bytes) (k : list span -> prog done) : prog done :=
  let n := size i / 24 in
  Alloc (24 * n) (fun ok => if ok
    then Fetch i 0 (24 * n) (fun b => Fill (24 * n) (24 * n) (k (spans (Z.to_nat n) b)))
    else Done (NULL_PARAMETER, c)).

(** ta_invoke_svp_buffer_write, ta.c:1617-1670. *)
Definition svp_write (c : bytes) : prog done :=
  guard (negb (is_inout (T 0)) || negb (size 0 =? 16) || negb (is_in (T 1)) || negb (is_in (T 2)) || not_null 3)
    INVALID_PARAMETER c
  (guard (null 1 || (size 1 =? 0) || null 2 || (size 2 =? 0)) NULL_PARAMETER c
  (Cast (zlen c) 16 (guard (bad_version c) INVALID_PARAMETER c
    (offsets_in 2 c (fun l => Invoke (SvpWrite (w8 c 8) (at_ 1) l) (fun r => Done (r_status r, c))))))).

(** ta_invoke_svp_buffer_copy, ta.c:1672-1724. *)
Definition svp_copy (c : bytes) : prog done :=
  guard (negb (is_inout (T 0)) || negb (size 0 =? 24) || negb (is_in (T 1)) || not_null 2 || not_null 3)
    INVALID_PARAMETER c
  (guard (null 1 || (size 1 =? 0)) NULL_PARAMETER c
  (Cast (zlen c) 24 (guard (bad_version c) INVALID_PARAMETER c
    (offsets_in 1 c (fun l => Invoke (SvpCopy (w8 c 8) (w8 c 16) l) (fun r => Done (r_status r, c))))))).

(** ta_invoke_svp_key_check, ta.c:1726-1769. *)
Definition svp_key_check (c : bytes) : prog done :=
  guard (negb (is_inout (T 0)) || negb (size 0 =? 40) || negb (is_in (T 1)) || negb (is_in (T 2)) || not_null 3)
    INVALID_PARAMETER c
  (guard (null 1 || (size 1 =? 0) || null 2 || (size 2 =? 0)) NULL_PARAMETER c
  (Cast (zlen c) 40 (guard (bad_version c) INVALID_PARAMETER c
    (buffer (w4 c 16) 1 (w8 c 24) (fun inp =>
      Invoke (SvpKeyCheck (w8 c 8) inp (w8 c 32) (at_ 2)) (fun r => Done (r_status r, set8 c 24 (word r 0)))))))).

(** ta_invoke_svp_buffer_check, ta.c:1771-1805. *)
Definition svp_buffer_check (c : bytes) : prog done :=
  guard (negb (is_in (T 0)) || negb (size 0 =? 40) || negb (is_in (T 1)) || not_null 2 || not_null 3)
    INVALID_PARAMETER c
  (guard (null 1 || (size 1 =? 0)) NULL_PARAMETER c
  (Cast (zlen c) 40 (guard (bad_version c) INVALID_PARAMETER c
    (Invoke (SvpBufferCheck (w8 c 8) (w8 c 16) (w8 c 24) (w4 c 32) (at_ 1)) (fun r => Done (r_status r, c)))))).

(** [sa_subsample_length_s lengths[n]]. *)
Fixpoint lengths (n : nat) (b : bytes) : list (Z * Z) :=
  match n with
  | O => []
  | S m => (w8 b 0, w8 b 8) :: lengths m (skipn 16 b)
  end.

(** ta_invoke_process_common_encryption, ta.c:1807-1904.  The product in the size test and in the
    allocation is computed modulo 2^64; the loop that copies the table is not. *)
Definition common_encryption (c : bytes) : prog done :=
  guard (negb (is_inout (T 0)) || negb (size 0 =? 88) || negb (is_in (T 1)) ||
         (negb (is_in (T 2)) && negb (is_out (T 2))) || negb (is_in (T 3))) INVALID_PARAMETER c
  (guard (null 1 || null 2 || null 3) NULL_PARAMETER c
  (guard ((size 1 =? 0) || (size 2 =? 0) || (size 3 =? 0)) INVALID_PARAMETER c
  (Cast (zlen c) 88 (guard (bad_version c) INVALID_PARAMETER c
    (let count := w8 c 40 in
     guard (negb (size 1 =? wrap64 (16 * count))) INVALID_PARAMETER c
     (Alloc (wrap64 (16 * count)) (fun ok => if negb ok then Done (INVALID_PARAMETER, c) else
       Fetch 1 0 (16 * count) (fun b => Fill (wrap64 (16 * count)) (16 * count)
         (buffer (w4 c 56) 2 (w8 c 64) (fun o => buffer (w4 c 72) 3 (w8 c 80) (fun inp =>
           Invoke (CommonEncryption (MkSample (field c 1 16) (w8 c 24) (w8 c 32) (lengths (Z.to_nat count) b) (w8 c 48) o inp))
             (fun r => Done (r_status r, set8 (set8 c 64 (word r 0)) 80 (word r 1)))))))))))))).

(** The dispatcher's switch, ta.c:1955-2120; identifiers from sa_ta_types.h:36-78. *)
Definition dispatch (cmd : Z) (c : bytes) : prog done :=
  match cmd with
  | 1 => get_version c | 2 => get_name c | 3 => get_device_id c | 4 => get_ta_uuid c
  | 5 => key_generate c | 6 => key_export c | 7 => key_import c | 8 => key_unwrap c | 9 => key_get_public c
  | 10 => key_derive c | 11 => key_exchange c | 12 => key_release c | 13 => key_header c | 14 => key_digest c
  | 15 => crypto_random c | 16 => cipher_init c | 17 => cipher_update_iv c
  | 18 => cipher_process false c | 19 => cipher_process true c | 20 => cipher_release c
  | 21 => mac_init c | 22 => mac_process c | 23 => mac_process_key c | 24 => mac_compute c | 25 => mac_release c
  | 26 => crypto_sign c | 27 => svp_supported c | 29 => svp_create c | 31 => svp_release c
  | 32 => svp_write c | 33 => svp_copy c | 34 => svp_key_check c | 35 => svp_buffer_check c
  | 36 => common_encryption c | 37 => key_provision c
  | _ => Done (OPERATION_NOT_SUPPORTED, c)
  end.

(** ta_invoke_command_handler, ta.c:1906-2140, for a session and parameter arrays that are not
    NULL and a caller that transport_authenticate_caller accepts. *)
Definition handler (cmd : Z) : prog status :=
  if is_null 0 then Done NULL_PARAMETER else
  Alloc (size 0) (fun ok => if negb ok then Done INTERNAL_ERROR else
    Fetch 0 0 (size 0) (fun c => Fill (size 0) (size 0)
      (bind (dispatch cmd c) (fun '(st, c') =>
        if is_inout (T 0) then Store 0 0 c' (Done st) else Done st)))).

End Handlers.
