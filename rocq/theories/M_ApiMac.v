(** The MAC calls: taimpl/src/ta_sa_crypto_mac_*.c with internal/mac_store.c and the
    checks of internal/hmac_context.c and internal/cmac_context.c.  The MAC computation
    itself is modelled in M_Mac.v. *)
From Verif Require Import Base M_ObjectStore M_Rights M_Svp M_Prog M_ApiKey.

(** sa_mac_algorithm. *)
Definition MAC_CMAC := 0. Definition MAC_HMAC := 1.

(** [mac_store_acquire_exclusive] and [mac_store_release_exclusive], mac_store.c:283-370. *)
Definition with_mac {A} (c h : Z) (u : uuid) (f : mac -> M A) : M A :=
  r <- acquire (SMacs c) h u;;
  match r with
  | Failed s => brk s
  | Got p => lock p;; finally (m <- get_mac p;; f m) (unlock p;; release (SMacs c) h p u)
  end.

(** [mac_store_add_hmac_context] and [mac_store_add_cmac_context], mac_store.c:134-268:
    on failure only the new [mac_t] is freed. *)
Definition mac_add (c alg ctx : Z) (u : uuid) : M unit :=
  set_var VContext INVALID_HANDLE;;
  let o := OMac (MkMac alg ctx) in
  q <- new o;;
  match q with
  | None => brk INTERNAL_ERROR
  | Some q =>
      r <- add (SMacs c) q o u;;
      match r with
      | Got h => set_var VContext h
      | Failed s => free q OShell;; brk s
      end
  end.

(** [ta_sa_crypto_mac_init], ta_sa_crypto_mac_init.c:27-250.  [digest] is the HMAC digest
    algorithm unless the parameters are NULL.  The context takes its own copy of the key,
    so the unwrapped copy is always freed. *)
Definition mac_init (alg : Z) (digest : option Z) (key slot : Z) (u : uuid) : M unit :=
  let start (c p : Z) (k : stored_key) : M unit :=
    use_or p k RMacStart PNone PNone INTERNAL_ERROR;;
    s <- new (OMacState (MkMacState k false));;
    match s with
    | None => brk INTERNAL_ERROR
    | Some s => on_failure (mac_add c alg s u) (free s (OMacState (MkMacState k false)))
    end in
  with_client slot u (fun c =>
    if alg =? MAC_HMAC then
      set_var VContext INVALID_HANDLE;;
      match digest with
      | None => brk NULL_PARAMETER
      | Some d =>
          with_copy (key_unwrap c key u) (fun p k =>
            check_flag F_SIGN (k_rights k);;
            require (key_type_supports_hmac (k_type k) (k_size k)) INVALID_KEY_TYPE;;
            require (digest_supported d) INVALID_PARAMETER;;
            start c p k)
      end
    else if alg =? MAC_CMAC then
      set_var VContext INVALID_HANDLE;;
      with_copy (key_unwrap c key u) (fun p k =>
        check_flag F_SIGN (k_rights k);;
        require (key_type_supports_aes (k_type k) (k_size k)) INVALID_KEY_TYPE;;
        start c p k)
    else brk INVALID_PARAMETER).

(** The context behind a MAC handle must not be finished; then the library works on it.
    [p] stands for the context's own copy of its key. *)
Definition mac_run (m : mac) (finish : bool) : M unit :=
  st <- get_mac_state (mc_ctx m);;
  require (negb (ms_done st)) INVALID_PARAMETER;;
  (if finish then set_obj (mc_ctx m) (OMacState (MkMacState (ms_key st) true)) else no_op);;
  use_or (mc_ctx m) (ms_key st) RMacRun PClear (if finish then PClear else PNone) INTERNAL_ERROR;; ret tt.

(** [ta_sa_crypto_mac_process], ta_sa_crypto_mac_process.c:24-100. *)
Definition mac_process (context : Z) (in_ok : bool) (slot : Z) (u : uuid) : M unit :=
  require in_ok NULL_PARAMETER;;
  with_client slot u (fun c => with_mac c context u (fun m => mac_run m false)).

(** [ta_sa_crypto_mac_process_key], ta_sa_crypto_mac_process_key.c:25-125: the bytes of a
    stored key are fed into the MAC; only the key's type is checked. *)
Definition mac_process_key (context key slot : Z) (u : uuid) : M unit :=
  with_client slot u (fun c =>
    with_mac c context u (fun m =>
      with_copy (key_unwrap c key u) (fun p k =>
        require (k_type k =? KT_SYMMETRIC) INVALID_PARAMETER;;
        st <- get_mac_state (mc_ctx m);;
        require (negb (ms_done st)) INVALID_PARAMETER;;
        use_or p k RMacKey PNone PNone INTERNAL_ERROR;; ret tt))).

(** [ta_sa_crypto_mac_compute], ta_sa_crypto_mac_compute.c:27-130.  [out] is the size of
    the output buffer unless NULL; [mac_length] the length of the result. *)
Definition mac_compute (context : Z) (out : option Z) (mac_length slot : Z) (u : uuid) : M unit :=
  with_client slot u (fun c =>
    with_mac c context u (fun m =>
      match out with
      | None => set_var VLength mac_length
      | Some n =>
          st <- get_mac_state (mc_ctx m);;
          require (negb (ms_done st)) INVALID_PARAMETER;;
          require (mac_length <=? n) INVALID_PARAMETER;;
          mac_run m true
      end)).

(** [ta_sa_crypto_mac_release], ta_sa_crypto_mac_release.c:24-60. *)
Definition mac_release (context slot : Z) (u : uuid) : M unit :=
  with_client slot u (fun c =>
    s <- remove (SMacs c) context u;; require (status_eqb s OK) s).
