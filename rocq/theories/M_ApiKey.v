(** The key calls: taimpl/src/ta_sa_key_*.c, ta_sa_crypto_sign.c and the functions of
    internal/key_store.c they use.  [c] is the address of the client object, [slot] the
    client's handle, [u] the caller.  Pointers that may be NULL are [option]s.  Several
    [free] calls at the end of one C function are modelled in the order that undoes the
    allocations; NULL checks of arguments that the caller has just checked are left out. *)
From Verif Require Import Base M_ObjectStore M_Rights M_Svp M_Prog.

(** KEY_STORE slots: client_store.c:93, porting/otp and key_store.c:281-290 give every
    store 256 slots. *)
Definition NUM_SLOTS : Z := 256.
Definition ok (a : ans) : bool := status_eqb (a_status a) OK.

(** Acquire, run and release the client: client_store.c:255-305, called first and last by
    every API function.  After a failed acquire the object is NULL and the release
    refuses it without effect. *)
Definition with_client {A} (slot : Z) (u : uuid) (f : Z -> M A) : M A :=
  r <- (acquire SClients slot u);;
  match r with
  | Failed s => brk s
  | Got c => finally (f c) ((release SClients slot c u))
  end.

(** [stored_key_create] as the program sees it (stored_key.c:92-165): checks, then an
    allocation that may fail. *)
Definition create_key (r : rights) (parent : option rights) (key_type : Z) (ps : params)
    (size : Z) (bytes : list Z) : M (Z * stored_key) :=
  match stored_key_create (Some r) parent key_type ps size (Some bytes) true with
  | (_, Some k) =>
      p <- (new (OKey k));;
      match p with Some p => ret (p, k) | None => brk INTERNAL_ERROR end
  | (s, None) => brk s
  end.

(** Run [f] on a key copy and free the copy: the [stored_key_free] at the end of every
    function that holds one. *)
Definition with_copy {A} (m : M (Z * stored_key)) (f : Z -> stored_key -> M A) : M A :=
  '(p, k) <- m;; finally (f p k) (free p (OKey k)).

(** [validate_header_format], key_store.c:95-121 (the magic is constant in the model). *)
Definition validate_header (k : stored_key) : bool :=
  rights_validate_format (k_rights k) && key_type_supports_any (k_type k) (p_curve (k_params k)) (k_size k).

(** [key_store_import_stored_key], key_store.c:379-446.  [v] is the out-parameter; the
    value it gets is also the result. *)
Definition import_key_h (v : var) (c : Z) (k : stored_key) (u : uuid) : M Z :=
  (set_var v INVALID_HANDLE);;
  require (validate_header k) INVALID_KEY_FORMAT;;
  a <- (ext_call XRandom);;
  require (ok a) INTERNAL_ERROR;;
  w <- (new (OWrapped k));;
  match w with
  | None => brk INTERNAL_ERROR
  | Some w =>
      r <- (add (SKeys c) w (OWrapped k) u);;
      match r with
      | Got h => (set_var v h);; ret h
      | Failed s => free w (OWrapped k);; brk s
      end
  end.

Definition import_stored_key (v : var) (c : Z) (k : stored_key) (u : uuid) : M unit :=
  import_key_h v c k u;; ret tt.

(** [key_store_unwrap], key_store.c:549-625. *)
Definition key_unwrap (c h : Z) (u : uuid) : M (Z * stored_key) :=
  require (h <? NUM_SLOTS) INVALID_PARAMETER;;
  r <- (acquire (SKeys c) h u);;
  match r with
  | Failed s => brk s
  | Got w =>
      finally
        (k <- (get_wrapped w);;
         require (rights_allowed_uuid (k_rights k) u) OPERATION_NOT_ALLOWED;;
         now <- clock;;
         require (rights_allowed_time (k_rights k) now) OPERATION_NOT_ALLOWED;;
         v <- poll;;
         match v with
         | None => brk OPERATION_NOT_ALLOWED
         | Some v =>
             require (rights_allowed_video (k_rights k) v) OPERATION_NOT_ALLOWED;;
             p <- (new (OKey k));;
             match p with Some p => ret (p, k) | None => brk INTERNAL_ERROR end
         end)
        ((release (SKeys c) h w u))
  end.

(** [key_store_get_header], key_store.c:627-680. *)
Definition key_get_header (c h : Z) (u : uuid) : M stored_key :=
  require (h <? NUM_SLOTS) INVALID_PARAMETER;;
  r <- (acquire (SKeys c) h u);;
  match r with
  | Failed s => brk s
  | Got w => finally ((get_wrapped w)) ((release (SKeys c) h w u))
  end.

(** The rights checks of rights.c, with the clock (and, for ciphers, the outputs) they
    read; rights.c:185-340.  Reading them is modelled even where an earlier test of the
    same function already refuses. *)
Definition check_flag (f : Z) (r : rights) : M unit :=
  now <- clock;; require (rights_allowed_flag_time f r now) OPERATION_NOT_ALLOWED.
Definition check_crypt (f : Z) (r : rights) (key_type : Z) : M unit :=
  now <- clock;; v <- poll;; require (rights_allowed_crypt f r key_type now v) OPERATION_NOT_ALLOWED.

(** Use a key; a failing library call gives its status. *)
Definition use (p : Z) (k : stored_key) (ro : role) (src dst : place) : M ans :=
  a <- (use_key p k ro src dst);; require (ok a) (a_status a);; ret a.
Definition external (x : ext) : M ans :=
  a <- (ext_call x);; require (ok a) (a_status a);; ret a.
(** [external] whose failure status the caller replaces. *)
Definition external_or (x : ext) (s : status) : M ans :=
  a <- (ext_call x);; require (ok a) s;; ret a.
Definition use_or (p : Z) (k : stored_key) (ro : role) (src dst : place) (s : status) : M ans :=
  a <- (use_key p k ro src dst);; require (ok a) s;; ret a.

(** ** ta_sa_key_generate.c *)
Inductive gen_params :=
| GenSymmetric (length : option Z)
| GenEc (curve : option Z)
| GenRsa (modulus : option Z)
| GenDh (pg : option (option (list Z) * option (list Z)))
| GenOther (key_type : Z).

(** symmetric_generate_key symmetric.c:36-86, ec_generate_key ec.c:975-1095,
    rsa_generate_key rsa.c:580-665, dh_generate_key dh.c:255-460: the library makes the
    bytes, [stored_key_create] the key. *)
Definition generate (r : rights) (g : gen_params) : M (Z * stored_key) :=
  match g with
  | GenSymmetric (Some n) =>
      require ((16 <=? n) && (n <=? 512)) INVALID_PARAMETER;;
      a <- external_or XRandom INTERNAL_ERROR;;
      create_key r None KT_SYMMETRIC no_params n (a_bytes a)
  | GenEc (Some curve) =>
      require (negb (ec_key_size_from_curve curve =? 0)) INVALID_PARAMETER;;
      a <- external_or (XGenerate KT_EC) INTERNAL_ERROR;;
      create_key r None KT_EC (MkParams curve ([], [])) (ec_key_size_from_curve curve) (a_bytes a)
  | GenRsa (Some modulus) =>
      a <- external_or (XGenerate KT_RSA) INTERNAL_ERROR;;
      create_key r None KT_RSA no_params modulus (a_bytes a)
  | GenDh (Some (Some p, Some g)) =>
      require (key_type_supports_dh KT_DH (zlen p)) INVALID_PARAMETER;;
      require ((1 <=? zlen g) && (zlen g <=? zlen p)) INVALID_PARAMETER;;
      a <- external (XGenerate KT_DH);;
      create_key r None KT_DH (MkParams (nth 0 p 0) (p, g)) (zlen p) (a_bytes a)
  | GenDh (Some (Some p, None)) =>
      require (key_type_supports_dh KT_DH (zlen p)) INVALID_PARAMETER;; brk NULL_PARAMETER
  | GenOther _ => brk INVALID_PARAMETER
  | _ => brk NULL_PARAMETER
  end.

(** [ta_sa_key_generate], ta_sa_key_generate.c:30-356.  An unknown key type is refused
    before the out-parameter is written. *)
Definition key_generate (r : option rights) (g : gen_params) (slot : Z) (u : uuid) : M unit :=
  match r with
  | None => brk NULL_PARAMETER
  | Some r =>
      with_client slot u (fun c =>
        match g with
        | GenOther _ => brk INVALID_PARAMETER
        | _ =>
            (set_var VKey INVALID_HANDLE);;
            with_copy (generate r g) (fun _ k => import_stored_key VKey c k u)
        end)
  end.

(** ** ta_sa_key_import.c *)
Inductive import_params :=
| ImpSymmetric (r : option (option rights))
| ImpEc (p : option (option rights * Z))
| ImpRsa (r : option (option rights))
| ImpExported
| ImpSoc
| ImpTypeJ (p : option (Z * Z))              (* kcipher, khmac *)
| ImpProvision
| ImpOther.

(** [typej_unwrap] (typej.c:765-850), [soc_kc_unwrap] (soc_key_container.c:857) and
    key_store_import_exported (key_store.c:448-547, see M_KeyStore.v) check and open a
    container that carries the new key's rights, type, parameters and size.  What a
    container holds is left open: [made] is any such contents. *)
Record made := MkMade { md_rights : rights; md_type : Z; md_params : params; md_size : Z }.

(** import_key, unwrap.c:37-102: size of the key found in the decrypted bytes. *)
Definition unwrapped_key (r parent : rights) (key_type : Z) (curve : option Z) (bytes : list Z)
    : M (Z * stored_key) :=
  if key_type =? KT_SYMMETRIC then create_key r (Some parent) KT_SYMMETRIC no_params (zlen bytes) bytes
  else if key_type =? KT_EC then
    match curve with
    | None => brk NULL_PARAMETER
    | Some curve =>
        a <- (ext_call (XValidateEc curve));;
        require (negb (a_num a =? 0)) INTERNAL_ERROR;;
        create_key r (Some parent) KT_EC (MkParams curve ([], [])) (a_num a) bytes
    end
  else if key_type =? KT_RSA then
    a <- (ext_call XValidateRsa);;
    require (negb (a_num a =? 0)) INTERNAL_ERROR;;
    create_key r (Some parent) KT_RSA no_params (a_num a) bytes
  else brk INVALID_PARAMETER.

(** [ta_sa_key_import], ta_sa_key_import.c:32-623.  [md] is the contents of the container for
    the container formats.  A Type-J container holds a symmetric key wrapped with kcipher
    (typej.c:556, 665). *)
Definition key_import (ip : import_params) (input : option (list Z)) (md : made) (slot : Z)
    (u : uuid) : M unit :=
  match ip with
  | ImpOther => brk INVALID_PARAMETER
  | _ =>
  match input with
  | None => brk NULL_PARAMETER
  | Some b =>
      with_client slot u (fun c =>
        (set_var VKey INVALID_HANDLE);;
        match ip with
        | ImpSymmetric (Some (Some r)) =>
            require ((16 <=? zlen b) && (zlen b <=? 512)) INVALID_PARAMETER;;
            with_copy (create_key r None KT_SYMMETRIC no_params (zlen b) b)
              (fun _ k => import_stored_key VKey c k u)
        | ImpEc (Some (Some r, curve)) =>
            a <- (ext_call (XValidateEc curve));;
            require (negb (a_num a =? 0)) INVALID_PARAMETER;;
            with_copy (create_key r None KT_EC (MkParams curve ([], [])) (a_num a) b)
              (fun _ k => import_stored_key VKey c k u)
        | ImpRsa (Some (Some r)) =>
            a <- (ext_call XValidateRsa);;
            require (negb (a_num a =? 0)) INVALID_KEY_FORMAT;;
            require (valid_rsa_size (a_num a)) INVALID_PARAMETER;;
            with_copy (create_key r None KT_RSA no_params (a_num a) b)
              (fun _ k => import_stored_key VKey c k u)
        | ImpExported =>
            a <- external_or XExportedBlob INVALID_KEY_FORMAT;;
            with_copy (create_key (md_rights md) None (md_type md) (md_params md) (md_size md) (a_bytes a))
              (fun _ k => import_stored_key VKey c k u)
        | ImpSoc | ImpProvision =>
            require (0 <? zlen b) INVALID_KEY_FORMAT;;
            a <- external XContainer;;
            with_copy (create_key (md_rights md) None (md_type md) (md_params md) (md_size md) (a_bytes a))
              (fun _ k => import_stored_key VKey c k u)
        | ImpTypeJ (Some (kcipher, khmac)) =>
            with_copy (key_unwrap c khmac u) (fun pm km =>
              check_flag F_SIGN (k_rights km);;
              require (key_type_supports_hmac (k_type km) (k_size km)) INVALID_KEY_TYPE;;
              with_copy (key_unwrap c kcipher u) (fun pe ke =>
                check_flag F_UNWRAP (k_rights ke);;
                require (key_type_supports_aes (k_type ke) (k_size ke)) INVALID_KEY_TYPE;;
                use pm km RSign PClear PNone;;
                a <- use pe ke RUnwrap PClear PNone;;
                with_copy (unwrapped_key (md_rights md) (k_rights ke) KT_SYMMETRIC None (a_bytes a))
                  (fun _ k => import_stored_key VKey c k u)))
        | _ => brk NULL_PARAMETER
        end)
  end
  end.

(** ** ta_sa_key_unwrap.c *)
(** Algorithm-dependent requirements on the wrapping key and the arguments.  [UwBad null]
    stands for parameters the function refuses before it unwraps anything, as NULL or as invalid
    (NULL structures, wrong IV, nonce, counter or tag lengths: ta_sa_key_unwrap.c:58-72,
    158-182, 267-286, 372-403, 490-521, 603-636, 723-731, 822-835). *)
Inductive unwrap_alg := UwAes | UwChacha | UwRsa | UwEc | UwBad (null : bool) | UwOther.

(** [ta_sa_key_unwrap], ta_sa_key_unwrap.c:886-1004 with the eight functions above it. *)
Definition key_unwrap_api (r : option rights) (key_type : Z) (curve : option Z) (alg : unwrap_alg)
    (wrapping : Z) (input : option (list Z)) (slot : Z) (u : uuid) : M unit :=
  match r, input with
  | None, _ | _, None => brk NULL_PARAMETER
  | Some r, Some b =>
      with_client slot u (fun c =>
        match alg with
        | UwOther => brk INVALID_PARAMETER
        | UwBad null => (set_var VKey INVALID_HANDLE);; brk (if null then NULL_PARAMETER else INVALID_PARAMETER)
        | UwAes | UwChacha =>
            (set_var VKey INVALID_HANDLE);;
            with_copy (key_unwrap c wrapping u) (fun pw kw =>
              check_flag F_UNWRAP (k_rights kw);;
              require (match alg with
                       | UwAes => key_type_supports_aes (k_type kw) (k_size kw)
                       | _ => key_type_supports_chacha20 (k_type kw) (k_size kw)
                       end) INVALID_KEY_TYPE;;
              a <- use pw kw RUnwrap PClear PNone;;
              with_copy (unwrapped_key r (k_rights kw) key_type curve (a_bytes a))
                (fun _ k => import_stored_key VKey c k u))
        | UwRsa =>
            (set_var VKey INVALID_HANDLE);;
            require (key_type =? KT_SYMMETRIC) INVALID_PARAMETER;;
            with_copy (key_unwrap c wrapping u) (fun pw kw =>
              require (key_type_supports_rsa (k_type kw) (k_size kw)) INVALID_KEY_TYPE;;
              check_flag F_UNWRAP (k_rights kw);;
              require (zlen b =? k_size kw) INVALID_PARAMETER;;
              a <- use pw kw RUnwrap PClear PNone;;
              with_copy (unwrapped_key r (k_rights kw) KT_SYMMETRIC None (a_bytes a))
                (fun _ k => import_stored_key VKey c k u))
        | UwEc =>
            (set_var VKey INVALID_HANDLE);;
            require (key_type =? KT_SYMMETRIC) INVALID_PARAMETER;;
            with_copy (key_unwrap c wrapping u) (fun pw kw =>
              check_flag F_UNWRAP (k_rights kw);;
              require (key_type_supports_ec (k_type kw) (p_curve (k_params kw)) (k_size kw)) INVALID_KEY_TYPE;;
              a <- use pw kw RUnwrap PClear PNone;;
              with_copy (unwrapped_key r (k_rights kw) KT_SYMMETRIC None (a_bytes a))
                (fun _ k => import_stored_key VKey c k u))
        end)
  end.

(** ** ta_sa_key_derive.c *)
Inductive derive_alg :=
| DvLadder (inputs : list (option Z))    (* lengths of c1..c4, None for NULL *)
| DvHash (parent len digest : Z) (info_ok salt_ok hmac : bool)
    (* HKDF (hmac = true), concatenation and X9.63: *_ok is false for NULL with a length *)
| DvCmac (parent len counter : Z) (other_ok : bool)
| DvNetflix (kenc khmac : Z)
| DvOther.

Definition digest_supported (d : Z) : bool := (0 <=? d) && (d <=? 3).

(** Lengths of the ladder inputs, ta_sa_key_derive.c:70-106. *)
Fixpoint check_inputs (l : list (option Z)) : M unit :=
  match l with
  | [] => ret tt
  | None :: _ => brk NULL_PARAMETER
  | Some n :: l => require (n =? 16) INVALID_PARAMETER;; check_inputs l
  end.

(** kdf_netflix_wrapping, netflix.c:27-150; [ro] tells whether its keys are stored keys
    (key derivation) or were just computed (key exchange). *)
Definition netflix_wrapping (ro : role) (r parent : rights) (pe : Z) (ke : stored_key) (ph : Z) (kh : stored_key)
    : M (Z * stored_key) :=
  require (zlen (k_bytes ke) =? 16) INVALID_PARAMETER;;
  require (zlen (k_bytes kh) =? 32) INVALID_PARAMETER;;
  use pe ke ro PNone PNone;;
  a <- use ph kh ro PNone PNone;;
  create_key r (Some parent) KT_SYMMETRIC no_params 16 (a_bytes a).

(** [ta_sa_key_derive], ta_sa_key_derive.c:30-790. *)
Definition key_derive (r : option rights) (alg : option derive_alg) (slot : Z) (u : uuid) : M unit :=
  match r, alg with
  | None, _ | _, None => brk NULL_PARAMETER
  | Some r, Some alg =>
      with_client slot u (fun c =>
        match alg with
        | DvOther => brk INVALID_PARAMETER
        | DvLadder inputs =>
            (set_var VKey INVALID_HANDLE);;
            check_inputs inputs;;
            a <- external XLadder;;
            with_copy (create_key r None KT_SYMMETRIC no_params 16 (a_bytes a))
              (fun _ k => import_stored_key VKey c k u)
        | DvHash parent len digest info_ok salt_ok hmac =>
            (set_var VKey INVALID_HANDLE);;
            require info_ok NULL_PARAMETER;;
            require salt_ok NULL_PARAMETER;;
            require (len <=? 512) INVALID_PARAMETER;;
            require (digest_supported digest) INVALID_PARAMETER;;
            with_copy (key_unwrap c parent u) (fun pp kp =>
              check_flag F_DERIVE (k_rights kp);;
              require (k_type kp =? KT_SYMMETRIC) INVALID_KEY_TYPE;;
              require (if hmac then key_type_supports_hmac (k_type kp) (k_size kp) else true) INVALID_KEY_TYPE;;
              a <- use pp kp RDerive PNone PNone;;
              with_copy (create_key r (Some (k_rights kp)) KT_SYMMETRIC no_params len (a_bytes a))
                (fun _ k => import_stored_key VKey c k u))
        | DvCmac parent len counter other_ok =>
            (set_var VKey INVALID_HANDLE);;
            require other_ok NULL_PARAMETER;;
            require ((1 <=? counter) && (counter <=? 4)) INVALID_PARAMETER;;
            require (len mod 16 =? 0) INVALID_PARAMETER;;
            require (len / 16 <=? 5 - counter) INVALID_PARAMETER;;
            with_copy (key_unwrap c parent u) (fun pp kp =>
              check_flag F_DERIVE (k_rights kp);;
              require (k_type kp =? KT_SYMMETRIC) INVALID_KEY_TYPE;;
              require (key_type_supports_aes (k_type kp) (k_size kp)) INVALID_KEY_TYPE;;
              a <- use pp kp RDerive PNone PNone;;
              with_copy (create_key r (Some (k_rights kp)) KT_SYMMETRIC no_params len (a_bytes a))
                (fun _ k => import_stored_key VKey c k u))
        | DvNetflix kenc khmac =>
            (set_var VKey INVALID_HANDLE);;
            with_copy (key_unwrap c kenc u) (fun pe ke =>
              check_flag F_DERIVE (k_rights ke);;
              require (k_type ke =? KT_SYMMETRIC) INVALID_KEY_TYPE;;
              with_copy (key_unwrap c khmac u) (fun ph kh =>
                check_flag F_DERIVE (k_rights kh);;
                require (k_type kh =? KT_SYMMETRIC) INVALID_KEY_TYPE;;
                with_copy (netflix_wrapping RDerive r (k_rights ke) pe ke ph kh)
                  (fun _ k => import_stored_key VKey c k u)))
        end)
  end.

(** ** ta_sa_key_exchange.c *)
Inductive exchange_alg :=
| ExDh | ExEcdh
| ExNetflix (in_kw : Z) (rights_ke rights_kh : option rights)
| ExNetflixNull                           (* parameters == NULL *)
| ExOther.

(** dh_compute_shared_secret dh.c:118-260, ec_compute_ecdh_shared_secret ec.c:600-730:
    the secret becomes a symmetric key of its own length, a child of the private key. *)
Definition shared_secret (r : rights) (pp : Z) (kp : stored_key) : M (Z * stored_key) :=
  a <- use pp kp RExchange PClear PNone;;
  create_key r (Some (k_rights kp)) KT_SYMMETRIC no_params (zlen (a_bytes a)) (a_bytes a).
(** A failure of the computation is reported with another status. *)
Definition or_status {A} (m : M A) (s : status) : M A :=
  pbind m (fun r => match r with Brk _ => Ret (Brk s) | _ => Ret r end).

(** The cleanup of a failed Netflix exchange, ta_sa_key_exchange.c:365-382, for one
    out-parameter: remove what it names unless it is INVALID_HANDLE. *)
Definition remove_unless_invalid (c h : Z) (u : uuid) : M unit :=
  if h =? INVALID_HANDLE then no_op else (remove (SKeys c) h u);; no_op.

(** If [m] fails, run [undo]. *)
Definition on_failure {A} (m : M A) (undo : M unit) : M A :=
  pbind m (fun r => match r with Go _ => Ret r | _ => pbind undo (fun _ => Ret r) end).

(** [ta_sa_key_exchange_netflix_dh], ta_sa_key_exchange.c:201-385.  The handles found in
    the out-parameters at the end are those of the imports that succeeded; a handle equal
    to INVALID_HANDLE is not removed. *)
Definition exchange_netflix (r : rights) (private in_kw : Z) (rights_ke rights_kh : option rights)
    (c : Z) (u : uuid) : M unit :=
  (set_var VKey INVALID_HANDLE);;
  (set_var VKe INVALID_HANDLE);;
  match rights_ke with
  | None => brk NULL_PARAMETER
  | Some rke =>
  (set_var VKh INVALID_HANDLE);;
  match rights_kh with
  | None => brk NULL_PARAMETER
  | Some rkh =>
  with_copy (key_unwrap c in_kw u) (fun pi ki =>
    check_flag F_DERIVE (k_rights ki);;
    require (k_type ki =? KT_SYMMETRIC) INVALID_KEY_TYPE;;
    with_copy (key_unwrap c private u) (fun pp kp =>
      check_flag F_KEY_EXCHANGE (k_rights kp);;
      require (key_type_supports_dh (k_type kp) (k_size kp)) INVALID_KEY_TYPE;;
      with_copy (or_status (shared_secret (k_rights ki) pp kp) INVALID_PARAMETER) (fun ps ks =>
        require (zlen (k_bytes ki) =? 16) INVALID_PARAMETER;;
        use pi ki RDerive PNone PNone;;
        a <- use ps ks RInner PNone PNone;;
        with_copy (create_key rke (Some (k_rights ki)) KT_SYMMETRIC no_params 16 (firstn 16 (a_bytes a))) (fun pe ke =>
        with_copy (create_key rkh (Some (k_rights ki)) KT_SYMMETRIC no_params 32 (skipn 16 (a_bytes a))) (fun ph kh =>
          h1 <- import_key_h VKe c ke u;;
          on_failure
            (h2 <- import_key_h VKh c kh u;;
             on_failure
               (with_copy (netflix_wrapping RInner r (k_rights ki) pe ke ph kh)
                  (fun _ kw => import_stored_key VKey c kw u))
               (remove_unless_invalid c h2 u))
            (remove_unless_invalid c h1 u))))))
  end
  end.

(** [ta_sa_key_exchange], ta_sa_key_exchange.c:30-460. *)
Definition key_exchange (r : option rights) (alg : exchange_alg) (private : Z) (other_public : bool)
    (slot : Z) (u : uuid) : M unit :=
  match r with
  | None => brk NULL_PARAMETER
  | Some r =>
      require other_public NULL_PARAMETER;;
      with_client slot u (fun c =>
        match alg with
        | ExOther => brk INVALID_PARAMETER
        | ExNetflixNull => brk NULL_PARAMETER
        | ExDh =>
            (set_var VKey INVALID_HANDLE);;
            with_copy (key_unwrap c private u) (fun pp kp =>
              check_flag F_KEY_EXCHANGE (k_rights kp);;
              require (key_type_supports_dh (k_type kp) (k_size kp)) INVALID_KEY_TYPE;;
              with_copy (or_status (shared_secret r pp kp) INVALID_PARAMETER)
                (fun _ k => import_stored_key VKey c k u))
        | ExEcdh =>
            (set_var VKey INVALID_HANDLE);;
            with_copy (key_unwrap c private u) (fun pp kp =>
              check_flag F_KEY_EXCHANGE (k_rights kp);;
              require (key_type_supports_ec (k_type kp) (p_curve (k_params kp)) (k_size kp)) INVALID_KEY_TYPE;;
              with_copy (shared_secret r pp kp)
                (fun _ k => import_stored_key VKey c k u))
        | ExNetflix in_kw rke rkh => exchange_netflix r private in_kw rke rkh c u
        end)
  end.

(** ** ta_sa_key_export.c, key_store_export key_store.c:682-806.  [mixin] is the mixin's
    length if there is one; [out] the size of the output buffer if there is one;
    [required] the length an exported blob of this key has. *)
Definition key_export (mixin : option Z) (out : option Z) (h : Z) (required : stored_key -> Z)
    (slot : Z) (u : uuid) : M unit :=
  require (match mixin with Some n => n =? 16 | None => true end) INVALID_PARAMETER;;
  with_client slot u (fun c =>
    require (h <? NUM_SLOTS) INVALID_PARAMETER;;
    r <- (acquire (SKeys c) h u);;
    match r with
    | Failed s => brk s
    | Got w =>
        finally
          (k <- (get_wrapped w);;
           require (BIT_TEST (r_usage (k_rights k)) F_CACHEABLE) OPERATION_NOT_ALLOWED;;
           match out with
           | None => (set_var VLength (required k));; ret tt
           | Some n =>
               require (required k <=? n) INVALID_PARAMETER;;
               p <- (new (OKey k));;
               match p with
               | None => brk INTERNAL_ERROR
               | Some p =>
                   finally
                     (w' <- (new (OWrapped k));;
                      match w' with
                      | None => brk INTERNAL_ERROR
                      | Some w' =>
                          finally (use p k RExport PNone PClear;; (set_var VLength (required k));; ret tt)
                            (free w' (OWrapped k))
                      end)
                     (free p (OKey k))
               end
           end)
          ((release (SKeys c) h w u))
    end).

(** ** ta_sa_key_header.c:25-70, ta_sa_key_digest.c:24-95, ta_sa_key_release.c:24-60 *)
Definition key_header (h slot : Z) (u : uuid) : M stored_key :=
  with_client slot u (fun c => key_get_header c h u).
Definition key_digest (h slot : Z) (u : uuid) : M unit :=
  with_client slot u (fun c =>
    with_copy (key_unwrap c h u) (fun p k =>
      require (k_type k =? KT_SYMMETRIC) INVALID_PARAMETER;;
      use_or p k RDigest PNone PClear INTERNAL_ERROR;; ret tt)).
Definition key_release (h slot : Z) (u : uuid) : M unit :=
  with_client slot u (fun c =>
    s <- (remove (SKeys c) h u);; require (status_eqb s OK) s).

(** ** ta_sa_key_get_public.c:27-190 *)
Definition key_get_public (h slot : Z) (u : uuid) : M unit :=
  with_client slot u (fun c =>
    with_copy (key_unwrap c h u) (fun p k =>
      require ((k_type k =? KT_EC) || (k_type k =? KT_DH) || (k_type k =? KT_RSA)) INVALID_PARAMETER;;
      use p k RPublic PNone PClear;; ret tt)).

(** ** ta_sa_crypto_sign.c:29-470.  [digests] are the digest algorithms given (None when
    the parameters are NULL), [salt] the PSS salt length, [out] the size of the output
    buffer unless NULL. *)
Inductive sign_alg := SgPkcs1 | SgPss | SgEcdsa | SgEddsa | SgOther.
Definition DIGEST_LENGTH (d : Z) : Z := if d =? 0 then 20 else if d =? 1 then 32 else if d =? 2 then 48 else 64.
Definition ecdsa_curve (c : Z) : bool := (c =? 0) || (c =? 1) || (c =? 2) || (c =? 7) || (c =? 8).
Definition eddsa_curve (c : Z) : bool := (c =? 3) || (c =? 5).
Definition sign_checks (alg : sign_alg) (k : stored_key) (digests : option (list Z)) : M unit :=
  (match alg, digests with
   | SgEddsa, _ => ret tt
   | _, None => brk NULL_PARAMETER
   | _, Some ds => require (forallb digest_supported ds) INVALID_PARAMETER
   end);;
  match alg with
  | SgEcdsa =>
      require (ecdsa_curve (p_curve (k_params k))) INVALID_PARAMETER;;
      require (key_type_supports_ec (k_type k) (p_curve (k_params k)) (k_size k)) INVALID_KEY_TYPE
  | SgEddsa =>
      require (eddsa_curve (p_curve (k_params k))) INVALID_PARAMETER;;
      require (key_type_supports_ec (k_type k) (p_curve (k_params k)) (k_size k)) INVALID_KEY_TYPE
  | _ => require (key_type_supports_rsa (k_type k) (k_size k)) INVALID_KEY_TYPE
  end.
Definition signature_length (alg : sign_alg) (k : stored_key) : Z :=
  match alg with SgEcdsa | SgEddsa => 2 * k_size k | _ => k_size k end.
Definition salt_ok (alg : sign_alg) (k : stored_key) (digests : option (list Z)) (salt : Z) : bool :=
  match alg, digests with
  | SgPss, Some (d :: _) => salt <=? k_size k - DIGEST_LENGTH d - 2
  | _, _ => true
  end.
Definition crypto_sign (alg : sign_alg) (h : Z) (in_ok : bool) (digests : option (list Z)) (salt : Z)
    (out : option Z) (slot : Z) (u : uuid) : M unit :=
  match alg with
  | SgOther => brk INVALID_PARAMETER
  | _ =>
  require in_ok NULL_PARAMETER;;
  with_client slot u (fun c =>
    with_copy (key_unwrap c h u) (fun p k =>
      check_flag F_SIGN (k_rights k);;
      sign_checks alg k digests;;
      match out with
      | None => set_var VLength (signature_length alg k);; ret tt
      | Some n =>
          require (signature_length alg k <=? n) INVALID_PARAMETER;;
          require (salt_ok alg k digests salt) INVALID_PARAMETER;;
          use p k RSign PClear PClear;; ret tt
      end))
  end.
