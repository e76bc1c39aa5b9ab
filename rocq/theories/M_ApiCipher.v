(** The cipher calls: taimpl/src/ta_sa_crypto_cipher_*.c, ta_sa_process_common_encryption.c
    and the functions of internal/cipher_store.c and internal/buffer.c they use.  The
    bytes produced and the cursors written back are modelled in M_Cenc.v and M_Svp.v; here
    the question is which checks, references, locks and key copies surround each use. *)
From Verif Require Import Base M_ObjectStore M_Rights M_Svp M_Prog M_ApiKey M_Memory.

(** sa_cipher_algorithm and sa_cipher_mode, client/include/sa_types.h. *)
Definition A_ECB := 0. Definition A_ECB_PKCS7 := 1. Definition A_CBC := 2.
Definition A_CBC_PKCS7 := 3. Definition A_CTR := 4. Definition A_GCM := 5.
Definition A_RSA_PKCS1V15 := 6. Definition A_RSA_OAEP := 7. Definition A_EC_ELGAMAL := 8.
Definition A_CHACHA20 := 9. Definition A_CHACHA20_POLY1305 := 10.
Definition DECRYPT := 0. Definition ENCRYPT := 1.
Definition alg_known (a : Z) : bool := (0 <=? a) && (a <=? 10).
Definition is_block (a : Z) : bool := (0 <=? a) && (a <=? A_CBC_PKCS7).
Definition is_pkcs7 (a : Z) : bool := (a =? A_ECB_PKCS7) || (a =? A_CBC_PKCS7).
Definition is_aes (a : Z) : bool := (0 <=? a) && (a <=? A_GCM).
Definition is_chacha (a : Z) : bool := (a =? A_CHACHA20) || (a =? A_CHACHA20_POLY1305).
Definition is_symmetric (a : Z) : bool := is_aes a || is_chacha a.
(** The algorithms refused for SVP buffers, ta_sa_crypto_cipher_process.c:443-449. *)
Definition clear_only (a : Z) : bool :=
  (a =? A_GCM) || (a =? A_CHACHA20_POLY1305) || (a =? A_RSA_OAEP) || (a =? A_RSA_PKCS1V15) || (a =? A_EC_ELGAMAL).

(** [sa_buffer]: clear memory, an SVP handle, or an unknown buffer type. *)
Inductive ubuf :=
| UClear (base length offset : Z)
| USvp (h offset : Z)
| UBad (buffer_type : Z).
Definition is_svp (b : ubuf) : bool := match b with USvp _ _ => true | _ => false end.
Definition is_clear (b : ubuf) : bool := match b with UClear _ _ _ => true | _ => false end.
Definition known_type (b : ubuf) : bool := match b with UBad _ => false | _ => true end.
Definition place_of (b : ubuf) : place := if is_svp b then PSvp else PClear.

(** Acquire an SVP object and its lock, run, unlock and release: svp_store_acquire_exclusive
    and svp_store_release_exclusive, svp_store.c:254-330. *)
Definition with_svp {A} (c h : Z) (u : uuid) (f : Z -> M A) : M A :=
  r <- acquire (SSvps c) h u;;
  match r with
  | Failed s => brk s
  | Got p => lock p;; finally (f p) (unlock p;; release (SSvps c) h p u)
  end.

(** [convert_buffer], internal/buffer.c:26-118, around the code that uses the range: the
    SVP object stays acquired and locked until the caller's cleanup.  [f] gets the address. *)
Definition with_buffer {A} (c : Z) (b : ubuf) (n : Z) (u : uuid) (f : Z -> M A) : M A :=
  match b with
  | UBad _ => brk INVALID_PARAMETER
  | UClear base length offset =>
      match convert_clear base length offset n with
      | (OK, a) => f a
      | (s, _) => brk s
      end
  | USvp h offset =>
      with_svp c h u (fun p =>
        sb <- get_svp p;;
        match convert_svp sb offset n with
        | (OK, a) => f a
        | (s, _) => brk s
        end)
  end.

(** cipher_store_acquire_exclusive and cipher_store_release_exclusive,
    cipher_store.c:436-515, around the code that uses the context.  [fail] replaces the
    status of a failed acquire where the caller does so. *)
Definition with_cipher {A} (c h : Z) (u : uuid) (fail : option status) (f : Z -> cipher -> M A) : M A :=
  r <- acquire (SCiphers c) h u;;
  match r with
  | Failed s => brk (match fail with Some s' => s' | None => s end)
  | Got p =>
      lock p;;
      finally (ci <- get_cipher p;; f p ci) (unlock p;; release (SCiphers c) h p u)
  end.

(** [cipher_store_add_symmetric_context] and [cipher_store_add_asymmetric_key],
    cipher_store.c:271-395: on failure only the new [cipher_t] is freed.  Gives the handle. *)
Definition cipher_add (c : Z) (alg mode : Z) (sym : option Z) (key : Z) (u : uuid) : M Z :=
  set_var VContext INVALID_HANDLE;;
  let o := OCipher (MkCipher alg mode sym key false) in
  q <- new o;;
  match q with
  | None => brk INTERNAL_ERROR
  | Some q =>
      r <- add (SCiphers c) q o u;;
      match r with
      | Got h => set_var VContext h;; ret h
      | Failed s =>
          (* the symmetric context and the key are detached before cipher_free *)
          free q OShell;; brk s
      end
  end.

(** Requirements of an algorithm on its key and parameters, in the order of the nine
    init functions, ta_sa_crypto_cipher_init.c:30-872.  [pstat] is what the parameter
    checks (NULL structures, IV, nonce, counter and AAD lengths) answer. *)
Definition init_type_ok (alg : Z) (k : stored_key) : bool :=
  if is_aes alg then key_type_supports_aes (k_type k) (k_size k)
  else if is_chacha alg then key_type_supports_chacha20 (k_type k) (k_size k)
  else if (alg =? A_RSA_PKCS1V15) || (alg =? A_RSA_OAEP) then key_type_supports_rsa (k_type k) (k_size k)
  else key_type_supports_ec (k_type k) (p_curve (k_params k)) (k_size k).

(** The symmetric algorithms, ta_sa_crypto_cipher_init.c:30-652. *)
Definition init_symmetric (alg mode : Z) (pstat : status) (c p : Z) (k : stored_key) (u : uuid) : M unit :=
  set_var VContext INVALID_HANDLE;;
  require (init_type_ok alg k) INVALID_KEY_TYPE;;
  require (status_eqb pstat OK) pstat;;
  s <- new (OSym k);;
  match s with
  | None => brk INTERNAL_ERROR
  | Some s => on_failure (cipher_add c alg mode (Some s) p u;; ret tt) (free s (OSym k))
  end.

(** RSA PKCS#1 v1.5 and EC ElGamal, ta_sa_crypto_cipher_init.c:654-716, 810-872. *)
Definition init_asymmetric (alg mode : Z) (vstat : status) (c p : Z) (k : stored_key) (u : uuid) : M unit :=
  set_var VContext INVALID_HANDLE;;
  require (init_type_ok alg k) INVALID_KEY_TYPE;;
  require (mode =? DECRYPT) INVALID_PARAMETER;;
  require (status_eqb vstat OK) vstat;;
  cipher_add c alg mode None p u;; ret tt.

(** RSA OAEP, ta_sa_crypto_cipher_init.c:718-808: after the context has been added it is
    acquired again to set its label, which may fail.  [XAlloc] is the allocation of the
    label (cipher_set_oaep_parameters, cipher_store.c:187-215). *)
Definition init_oaep (mode : Z) (pstat vstat : status) (c p : Z) (k : stored_key) (u : uuid) : M unit :=
  set_var VContext INVALID_HANDLE;;
  require (status_eqb pstat OK) pstat;;
  require (init_type_ok A_RSA_OAEP k) INVALID_KEY_TYPE;;
  require (mode =? DECRYPT) INVALID_PARAMETER;;
  require (status_eqb vstat OK) vstat;;
  h <- cipher_add c A_RSA_OAEP mode None p u;;
  with_cipher c h u None (fun q ci =>
    external_or XAlloc INTERNAL_ERROR;;
    set_obj q (OCipher (MkCipher (ci_alg ci) (ci_mode ci) (ci_sym ci) (ci_key ci) true))).

(** [ta_sa_crypto_cipher_init], ta_sa_crypto_cipher_init.c:874-1025.  [on_failure] is the
    final stored_key_free of a key not handed over. *)
Definition cipher_init (alg mode key : Z) (pstat vstat : status) (slot : Z) (u : uuid) : M unit :=
  set_var VContext INVALID_HANDLE;;
  require (alg_known alg) INVALID_PARAMETER;;
  require ((mode =? DECRYPT) || (mode =? ENCRYPT)) INVALID_PARAMETER;;
  with_client slot u (fun c =>
    '(p, k) <- key_unwrap c key u;;
    on_failure
      ((if mode =? ENCRYPT then check_crypt F_ENCRYPT (k_rights k) (k_type k)
        else check_crypt F_DECRYPT (k_rights k) (k_type k));;
       if is_symmetric alg then init_symmetric alg mode pstat c p k u
       else if alg =? A_RSA_OAEP then init_oaep mode pstat vstat c p k u
       else init_asymmetric alg mode vstat c p k u)
      (free p (OKey k))).

(** Lengths the output must have, ta_sa_crypto_cipher_process.c:30-57 and
    ta_sa_crypto_cipher_process_last.c:29-48. *)
Definition process_required (alg mode key_size n : Z) (query : bool) : Z :=
  if is_pkcs7 alg then n + (if query && (mode =? ENCRYPT) then 16 else 0)
  else if is_symmetric alg then n else key_size.
Definition process_last_required (alg n : Z) : Z :=
  if is_pkcs7 alg then PADDED_SIZE n
  else if (alg =? A_CTR) || (alg =? A_GCM) || is_chacha alg then n else 0.

(** Encrypt or decrypt with a symmetric context after the check of the key's rights:
    ta_sa_crypto_cipher_process.c:101-146 and the same lines of the process_last
    functions.  The context was keyed from the key copy the cipher owns. *)
Definition crypt_symmetric (ci : cipher) (k : stored_key) (src dst : place) : M unit :=
  if ci_mode ci =? ENCRYPT then
    check_crypt F_ENCRYPT (k_rights k) KT_SYMMETRIC;;
    use (ci_key ci) k REncrypt src dst;; ret tt
  else if ci_mode ci =? DECRYPT then
    check_crypt F_DECRYPT (k_rights k) KT_SYMMETRIC;;
    use (ci_key ci) k RDecrypt src dst;; ret tt
  else brk INTERNAL_ERROR.

(** The nine cases of ta_sa_crypto_cipher_process.c:59-373. *)
Definition process_body (ci : cipher) (k : stored_key) (n : Z) (src dst : place) : M unit :=
  let alg := ci_alg ci in
  if is_symmetric alg then
    require (if is_block alg then n mod 16 =? 0 else true) INVALID_PARAMETER;;
    crypt_symmetric ci k src dst
  else if (alg =? A_RSA_PKCS1V15) || (alg =? A_RSA_OAEP) then
    require (n =? k_size k) INVALID_PARAMETER;;
    require (ci_mode ci =? DECRYPT) INVALID_PARAMETER;;
    check_crypt F_DECRYPT (k_rights k) KT_RSA;;
    use (ci_key ci) k RDecryptAsym src dst;; ret tt
  else if alg =? A_EC_ELGAMAL then
    require (n =? 4 * k_size k) INVALID_PARAMETER;;
    require (ci_mode ci =? DECRYPT) INVALID_PARAMETER;;
    check_crypt F_DECRYPT (k_rights k) KT_EC;;
    use_or (ci_key ci) k RDecryptAsym src dst VERIFICATION_FAILED;; ret tt
  else brk INVALID_PARAMETER.

(** The cases of ta_sa_crypto_cipher_process_last.c:50-502.  [tag] is the tag length if
    parameters and tag are given. *)
Definition process_last_body (ci : cipher) (k : stored_key) (n : Z) (tag : option Z) (src dst : place) : M unit :=
  let alg := ci_alg ci in
  if is_pkcs7 alg then
    require (n <=? 16) INVALID_PARAMETER;;
    require (if ci_mode ci =? DECRYPT then n mod 16 =? 0 else true) INVALID_PARAMETER;;
    crypt_symmetric ci k src dst
  else if (alg =? A_CTR) || (alg =? A_CHACHA20) then crypt_symmetric ci k src dst
  else if alg =? A_GCM then
    require (n <=? 16) INVALID_PARAMETER;;
    match tag with
    | None => brk NULL_PARAMETER
    | Some t => require (t <=? 16) INVALID_PARAMETER;; crypt_symmetric ci k src dst
    end
  else if alg =? A_CHACHA20_POLY1305 then
    match tag with
    | None => brk NULL_PARAMETER
    | Some t => require (t =? 16) INVALID_PARAMETER;; crypt_symmetric ci k src dst
    end
  else brk INVALID_PARAMETER.

(** What [ta_sa_crypto_cipher_process] and [ta_sa_crypto_cipher_process_last] share,
    ta_sa_crypto_cipher_process.c:375-590, ta_sa_crypto_cipher_process_last.c:504-700.
    An unknown buffer type is a direct [return]: nothing acquired is given back. *)
Definition process_shared (fail : option status) (required : cipher -> stored_key -> bool -> Z)
    (body : cipher -> stored_key -> place -> place -> M unit)
    (out : option ubuf) (context : Z) (input : option ubuf) (n : Z) (slot : Z) (u : uuid) : M unit :=
  match input with
  | None => brk NULL_PARAMETER
  | Some inb =>
      with_client slot u (fun c =>
        with_cipher c context u fail (fun _ ci =>
          k <- get_key (ci_key ci);;
          match out with
          | None => set_var VLength (required ci k true)
          | Some outb =>
              require_out (known_type outb) INVALID_PARAMETER;;
              require_out (known_type inb) INVALID_PARAMETER;;
              require (negb ((is_svp outb || is_svp inb) && clear_only (ci_alg ci))) OPERATION_NOT_ALLOWED;;
              require (if is_clear outb then is_clear inb else true) INVALID_PARAMETER;;
              require (if is_clear outb then rights_allowed_clear (k_rights k) else true) OPERATION_NOT_ALLOWED;;
              with_buffer c outb (required ci k false) u (fun _ =>
                with_buffer c inb n u (fun _ =>
                  body ci k (place_of inb) (place_of outb)))
          end))
  end.
Definition cipher_process (out : option ubuf) (context : Z) (input : option ubuf) (n : Z) (slot : Z) (u : uuid) : M unit :=
  process_shared (Some INVALID_PARAMETER)
    (fun ci k query => process_required (ci_alg ci) (ci_mode ci) (k_size k) n query)
    (fun ci k src dst => process_body ci k n src dst) out context input n slot u.
Definition cipher_process_last (out : option ubuf) (context : Z) (input : option ubuf) (n : Z)
    (tag : option Z) (slot : Z) (u : uuid) : M unit :=
  process_shared None
    (fun ci _ _ => process_last_required (ci_alg ci) n)
    (fun ci k src dst => process_last_body ci k n tag src dst) out context input n slot u.

(** [ta_sa_crypto_cipher_update_iv], ta_sa_crypto_cipher_update_iv.c:25-90: no rights are
    consulted.  [iv] is the length of the new IV unless NULL. *)
Definition cipher_update_iv (context : Z) (iv : option Z) (slot : Z) (u : uuid) : M unit :=
  match iv with
  | None => brk NULL_PARAMETER
  | Some n =>
      with_client slot u (fun c =>
        with_cipher c context u None (fun _ ci =>
          require ((ci_alg ci =? A_CBC) || (ci_alg ci =? A_CBC_PKCS7) || (ci_alg ci =? A_CTR)) INVALID_PARAMETER;;
          require (n =? 16) INVALID_PARAMETER;;
          external XUpdateIv;; ret tt))
  end.

(** [ta_sa_crypto_cipher_release], ta_sa_crypto_cipher_release.c:24-60. *)
Definition cipher_release (context slot : Z) (u : uuid) : M unit :=
  with_client slot u (fun c =>
    s <- remove (SCiphers c) context u;; require (status_eqb s OK) s).

(** ** ta_sa_process_common_encryption.c *)
(** One sample as the checks see it: which pointers are given, the IV length, the number
    of subsamples, the pattern, the context, the buffers, the total of the subsample
    lengths ([None] when it overflows, cenc.c:131-152). *)
Record csample := MkCsample {
  cs_iv : option Z; cs_lengths : bool; cs_count : Z; cs_crypt : Z; cs_skip : Z;
  cs_context : Z; cs_out : option ubuf; cs_in : option ubuf; cs_total : option Z }.

(** The overlap test of ta_sa_process_common_encryption.c:150-158 on the addresses of the
    output and the input (the ends do not wrap: convert_buffer has checked the ranges). *)
Definition ranges_overlap (ao ai n : Z) : bool :=
  (ai <=? ao) && (ao <=? ai + n) || (ai <=? ao + n) && (ao + n <=? ai + n)
  || (ao <=? ai) && (ai <=? ao + n) || (ao <=? ai + n) && (ai + n <=? ao + n).

(** [verify_sample], ta_sa_process_common_encryption.c:25-176. *)
Definition verify_sample (c : Z) (s : csample) (u : uuid) : M unit :=
  match cs_iv s with
  | None => brk NULL_PARAMETER
  | Some n =>
  require (n =? 16) INVALID_PARAMETER;;
  require (cs_lengths s) NULL_PARAMETER;;
  require (1 <=? cs_count s) INVALID_PARAMETER;;
  match cs_out s, cs_in s with
  | None, _ | _, None => brk NULL_PARAMETER
  | Some outb, Some inb =>
  require (negb ((cs_crypt s =? 0) && negb (cs_skip s =? 0))) INVALID_PARAMETER;;
  with_cipher c (cs_context s) u (Some INVALID_PARAMETER) (fun _ ci =>
    require (ci_mode ci =? DECRYPT) INVALID_PARAMETER;;
    k <- get_key (ci_key ci);;
    check_crypt F_DECRYPT (k_rights k) KT_SYMMETRIC;;
    require (known_type outb) INVALID_PARAMETER;;
    require (known_type inb) INVALID_PARAMETER;;
    require ((ci_alg ci =? A_CTR) || (ci_alg ci =? A_CBC)) INVALID_PARAMETER;;
    require (if is_clear outb then is_clear inb else true) INVALID_PARAMETER;;
    require (if is_clear outb then rights_allowed_clear (k_rights k) else true) OPERATION_NOT_ALLOWED;;
    match cs_total s with
    | None => brk INVALID_PARAMETER
    | Some total =>
        with_buffer c outb total u (fun ao =>
          with_buffer c inb total u (fun ai =>
            require (negb (ranges_overlap ao ai total)) INVALID_PARAMETER))
    end)
  end
  end.

(** [cenc_process_sample], cenc.c:154-327, seen from the stores: the context and buffers
    are acquired again, the IV is set and the data decrypted, without a further check of
    the key's rights.  [symmetric_context_set_iv] (symmetric.c:1453-1478) refuses other
    algorithms than CBC and CTR, [symmetric_context_decrypt] (symmetric.c:1359-1362) a
    context made for encryption. *)
Definition takes_iv (a : Z) : bool := (a =? A_CBC) || (a =? A_CBC_PKCS7) || (a =? A_CTR).
Definition process_sample (c : Z) (s : csample) (u : uuid) : M unit :=
  match cs_out s, cs_in s, cs_total s with
  | Some outb, Some inb, Some total =>
      with_cipher c (cs_context s) u (Some INVALID_PARAMETER) (fun _ ci =>
        with_buffer c outb total u (fun _ =>
          with_buffer c inb total u (fun _ =>
            match ci_sym ci with
            | None => brk NULL_PARAMETER
            | Some _ =>
                require (takes_iv (ci_alg ci)) INVALID_PARAMETER;;
                external XUpdateIv;;
                k <- get_key (ci_key ci);;
                require (ci_mode ci =? DECRYPT) INVALID_PARAMETER;;
                use (ci_key ci) k RDecrypt (place_of inb) (place_of outb);; ret tt
            end)))
  | _, _, _ => brk NULL_PARAMETER
  end.

Fixpoint each {A} (f : A -> M unit) (l : list A) : M unit :=
  match l with [] => ret tt | a :: l => f a;; each f l end.

(** [ta_sa_process_common_encryption], ta_sa_process_common_encryption.c:178-225: all
    samples are verified before the first is processed. *)
Definition process_common_encryption (samples : option (list csample)) (slot : Z) (u : uuid) : M unit :=
  match samples with
  | None => brk NULL_PARAMETER
  | Some l =>
      with_client slot u (fun c =>
        each (fun s => verify_sample c s u) l;;
        each (fun s => process_sample c s u) l)
  end.
