(** The secure-video-path calls and the calls that touch no object: taimpl/src/ta_sa_svp_*.c
    with internal/svp_store.c, ta_sa_init.c, ta_sa_close.c, ta_sa_crypto_random.c.  The
    memory moved is modelled in M_Svp.v. *)
From Verif Require Import Base M_ObjectStore M_Rights M_Svp M_Prog M_ApiKey M_ApiCipher.

(** [ta_sa_svp_buffer_create], ta_sa_svp_buffer_create.c:24-60 and [svp_store_create],
    svp_store.c:134-193.  [XAlloc] is the allocation of the [svp_buffer_t].  [memory = 0]
    is NULL. *)
Definition svp_buffer_create (memory size slot : Z) (u : uuid) : M unit :=
  with_client slot u (fun c =>
    set_var VSvp INVALID_HANDLE;;
    require (negb (memory =? 0)) NULL_PARAMETER;;
    a <- ext_call XAlloc;;
    match svp_create_buffer memory size (ok a) with
    | (false, _) => brk INTERNAL_ERROR
    | (true, sb) =>
        q <- new (OSvp sb);;
        match q with
        | None => brk INTERNAL_ERROR
        | Some q =>
            r <- add (SSvps c) q (OSvp sb) u;;
            match r with
            | Got h => set_var VSvp h
            | Failed s => free q (OSvp sb);; brk s
            end
        end
    end).

(** [ta_sa_svp_buffer_release], ta_sa_svp_buffer_release.c:23-65 and [svp_store_release],
    svp_store.c:195-252: when the buffer pointer is already NULL the function returns the
    status of the acquire, which is OK, with the object still locked and referenced. *)
Definition svp_buffer_release (h slot : Z) (u : uuid) : M unit :=
  with_client slot u (fun c =>
    r <- acquire (SSvps c) h u;;
    match r with
    | Failed s => brk s
    | Got p =>
        lock p;;
        sb <- get_svp p;;
        match svp_release_buffer sb with
        | None => brk OK
        | Some (memory, size) =>
            set_var VMemory memory;; set_var VSize size;;
            set_obj p (OSvp None);;
            unlock p;;
            release (SSvps c) h p u;;
            s <- remove (SSvps c) h u;; require (status_eqb s OK) s
        end
    end).

(** [ta_sa_svp_buffer_write], ta_sa_svp_buffer_write.c:23-75; the answer of [XSvpWrite] is
    that of [svp_write]. *)
Definition svp_buffer_write (h : Z) (in_ok offsets_ok : bool) (slot : Z) (u : uuid) : M unit :=
  require in_ok NULL_PARAMETER;;
  require offsets_ok NULL_PARAMETER;;
  with_client slot u (fun c =>
    with_svp c h u (fun p =>
      get_svp p;; external_or XSvpWrite INVALID_SVP_BUFFER;; ret tt)).

(** [ta_sa_svp_buffer_copy], ta_sa_svp_buffer_copy.c:23-80: the output is locked first. *)
Definition svp_buffer_copy (out input : Z) (offsets_ok : bool) (slot : Z) (u : uuid) : M unit :=
  require offsets_ok NULL_PARAMETER;;
  with_client slot u (fun c =>
    with_svp c out u (fun po =>
      with_svp c input u (fun pi =>
        get_svp po;; get_svp pi;; external_or XSvpCopy INVALID_SVP_BUFFER;; ret tt))).

(** [is_ree], porting/transport.c:49-51: the caller is the rich execution environment
    (its constant UUID, lines 29-32, as a number). *)
Definition REE_UUID : uuid := 1.
Definition is_ree (u : uuid) : bool := u =? REE_UUID.

(** [ta_sa_svp_buffer_check], ta_sa_svp_buffer_check.c:26-90.  [hash] is the hash's length
    unless NULL.  The digest of the range is [XDigestSvp]; its [a_num] is 0 when it equals
    the hash. *)
Definition svp_buffer_check (h offset length digest : Z) (hash : option Z) (slot : Z) (u : uuid) : M unit :=
  match hash with
  | None => brk NULL_PARAMETER
  | Some n =>
      require (negb (is_ree u)) OPERATION_NOT_ALLOWED;;
      require (n =? (if digest_supported digest then DIGEST_LENGTH digest else SIZE_MAX)) INVALID_PARAMETER;;
      with_client slot u (fun c =>
        with_svp c h u (fun p =>
          sb <- get_svp p;;
          match svp_digest_range sb offset length with
          | DNullDeref => fault
          | DFail => brk INTERNAL_ERROR
          | DRange _ _ =>
              a <- external_or XDigestSvp INTERNAL_ERROR;;
              require (a_num a =? 0) VERIFICATION_FAILED
          end))
  end.

(** [ta_sa_svp_key_check], ta_sa_svp_key_check.c:29-140.  [expected] is the length of the
    expected bytes unless NULL; a [UseDecrypt] that finds other bytes fails. *)
Definition svp_key_check (key : Z) (input : option ubuf) (n : Z) (expected : option Z) (slot : Z) (u : uuid) : M unit :=
  match input with
  | None => brk NULL_PARAMETER
  | Some inb =>
  require (n mod 16 =? 0) INVALID_PARAMETER;;
  match expected with
  | None => brk NULL_PARAMETER
  | Some e =>
  require (e =? n) INVALID_PARAMETER;;
  with_client slot u (fun c =>
    with_copy (key_unwrap c key u) (fun p k =>
      check_crypt F_DECRYPT (k_rights k) (k_type k);;
      require (negb (is_clear inb && negb (rights_allowed_clear (k_rights k)))) OPERATION_NOT_ALLOWED;;
      require (negb (is_svp inb && is_ree u)) OPERATION_NOT_ALLOWED;;
      require (key_type_supports_aes (k_type k) (k_size k)) INVALID_KEY_TYPE;;
      with_buffer c inb n u (fun _ =>
        use_or p k RDecrypt (place_of inb) PNone VERIFICATION_FAILED;; ret tt)))
  end
  end.

(** [ta_sa_crypto_random], ta_sa_crypto_random.c:23-45. *)
Definition crypto_random (out_ok : bool) : M unit :=
  require out_ok NULL_PARAMETER;; external_or XRandom INTERNAL_ERROR;; ret tt.

(** [ta_sa_init], ta_sa_init.c:24-50 and [client_store_add], client_store.c:195-232. *)
Definition sa_init (u : uuid) : M unit :=
  set_var VClient INVALID_HANDLE;;
  q <- new OClient;;
  match q with
  | None => brk INTERNAL_ERROR
  | Some q =>
      r <- add SClients q OClient u;;
      match r with
      | Got h => set_var VClient h
      | Failed s => free q OClient;; brk s
      end
  end.
(** [ta_sa_close], ta_sa_close.c:24-45. *)
Definition sa_close (slot : Z) (u : uuid) : M unit :=
  s <- remove SClients slot u;; require (status_eqb s OK) s.
