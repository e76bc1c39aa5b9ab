(** The key objects of the OpenSSL provider, the contexts that hold them and the private keys behind
    the API that they stand for: reference/src/client/src/sa_provider_keymgt.c, sa_provider_keyexch.c,
    sa_provider_signature.c and sa_provider_asym_cipher.c.  Only what decides about the lives of these
    objects is modelled here; what contexts compute is in M_ProvSign.v and M_ProvAsym.v.  Failing
    OPENSSL_zalloc, which makes a call answer NULL without any effect, and NULL arguments, which are
    refused first of all, are left out. *)
From Coq Require Import List ZArith Bool Arith.
Import ListNotations.
Open Scope Z_scope.

(** ** State *)
(** [sa_provider_key_data], sa_provider_internal.h 37-46: the reference count, private_key (a handle,
    [None] for INVALID_HANDLE) and delete_key. *)
Record kobj := Kobj { rc : Z; priv : option nat; owned : bool }.
(** The contexts: sa_provider_signature.c 39-50, sa_provider_keyexch.c 31-36, sa_provider_asym_cipher.c
    39-50.  [ready]: evp_md_ctx is not NULL (signatures), both digests are not NULL (encryption).
    [dead]: the memory has been given back. *)
Inductive ckind := Signing | Exchange | Crypting.
Record cobj := Cobj { kind : ckind; key : option nat; peer : option nat; ready : bool; dead : bool }.
(** Memory and the keys that exist behind the API.  Objects are numbered in the order in which they
    are made, [None] is memory that is not allocated.  [pend]: objects whose count some thread has
    brought to zero and that this thread is about to destroy. *)
Record st := St { objs : nat -> option kobj; nobj : nat; ctxs : list cobj; keys : list nat; pend : list nat }.
Definition start : st := St (fun _ => None) 0 [] [] [].

(** What a call answers; [ANothing]: a choice of the environment that cannot happen. *)
Inductive ans := AOk | AFail | AKey (k : nat) | ACtx (c : nat) | ANull | ABool (b : bool) | ANothing.
(** How a call ends; [Crash]: use of a NULL pointer or of memory that is not allocated. *)
Inductive res := Ran (s : st) (a : ans) | Crash.

Definition upd {A} (f : nat -> A) (i : nat) (v : A) : nat -> A := fun j => if Nat.eqb j i then v else f j.
Fixpoint put {A} (l : list A) (i : nat) (v : A) : list A :=
  match l, i with
  | [], _ => []
  | _ :: r, O => v :: r
  | x :: r, S j => x :: put r j v
  end.
Definition mem (h : nat) (l : list nat) : bool := existsb (Nat.eqb h) l.
(** sa_key_release: the key is gone; a handle without a key is refused without effect. *)
Definition drop (h : nat) (l : list nat) : list nat := filter (fun x => negb (Nat.eqb x h)) l.
Definition drop_opt (h : option nat) (l : list nat) : list nat := match h with Some h => drop h l | None => l end.

(** ** Key objects *)
Definition set_obj (s : st) (k : nat) (o : option kobj) : st := St (upd (objs s) k o) (nobj s) (ctxs s) (keys s) (pend s).
(** [keymgmt_new], 207-233: one reference, no private key. *)
Definition add_obj (s : st) (o : kobj) : st := St (upd (objs s) (nobj s) (Some o)) (S (nobj s)) (ctxs s) (keys s) (pend s).
(** [keymgmt_dup], 252-264, [sa_provider_key_data_dup], 1080-1083. *)
Definition dup_key (s : st) (k : nat) : option st :=
  match objs s k with
  | Some o => Some (set_obj s k (Some (Kobj (rc o + 1) (priv o) (owned o))))
  | None => None
  end.
(** The same of a pointer that may be NULL: sa_provider_key_data_dup does not look. *)
Definition dup_slot (s : st) (k : option nat) : option st := match k with Some k => dup_key s k | None => None end.
(** [keymgmt_free], 235-241: the count is decremented, and tested, atomically. *)
Definition free_key (s : st) (k : nat) : option st :=
  match objs s k with
  | Some o =>
      let s' := set_obj s k (Some (Kobj (rc o - 1) (priv o) (owned o))) in
      Some (if rc o - 1 =? 0 then St (objs s') (nobj s') (ctxs s') (keys s') (k :: pend s') else s')
  | None => None
  end.
Definition free_slot (s : st) (k : option nat) : option st := match k with Some k => free_key s k | None => Some s end.
(** [keymgmt_free], 242-249: the thread that brought the count to zero goes on. *)
Definition destroy (s : st) (k : nat) : res :=
  if mem k (pend s) then
    match objs s k with
    | Some o => Ran (St (upd (objs s) k None) (nobj s) (ctxs s) (if owned o then drop_opt (priv o) (keys s) else keys s) (drop k (pend s))) AOk
    | None => Crash
    end
  else Ran s ANothing.
(** [keymgmt_match], 279-297: key_data2 is keydata1 as well. *)
Definition match_keys (s : st) (k1 k2 : nat) : res :=
  match objs s k1, objs s k2 with
  | Some o1, Some _ => Ran s (ABool (match priv o1, priv o1 with Some a, Some b => Nat.eqb a b | None, None => true | _, _ => false end))
  | _, _ => Crash
  end.

(** [keymgmt_import], 299-525.  What the parameters and the libraries make of it: a handle is given
    (327-332); a private key in the clear is given, which sa_key_import puts under the handle [h]
    (335-402); there is no private key, and what there is can be read or not (405-474).  [good]: the
    public key, the header and the parameter SA_KEY_DELETE can be read (405-425); [del] is this
    parameter, if there. *)
Inductive source := Handle (h : nat) (good : bool) (del : option bool) | Clear (h : nat) (good : bool) (del : option bool) | Public (good : bool).
(** 476-484: the old private key is released whoever owns it. *)
Definition accept (s : st) (k : nat) (o : kobj) (h : option nat) (own : bool) (ks : list nat) : res :=
  Ran (St (upd (objs s) k (Some (Kobj (rc o) h own))) (nobj s) (ctxs s) (drop_opt (priv o) ks) (pend s)) (ABool true).
(** 513-523: so it is when the import fails; delete_key stays. *)
Definition refuse (s : st) (k : nat) (o : kobj) (ks : list nat) : res :=
  Ran (St (upd (objs s) k (Some (Kobj (rc o) None (owned o)))) (nobj s) (ctxs s) (drop_opt (priv o) ks) (pend s)) (ABool false).
Definition import_key (s : st) (k : nat) (src : source) : res :=
  match objs s k with
  | None => Crash
  | Some o =>
      match src with
      | Handle h good del =>
          if good && mem h (keys s) then accept s k o (Some h) (match del with Some d => d | None => false end) (keys s)
          else refuse s k o (keys s)
      | Clear h good del =>
          if mem h (keys s) then Ran s ANothing else
          if good then accept s k o (Some h) (match del with Some d => d | None => true end) (h :: keys s)
          else refuse s k o (h :: keys s)
      | Public good => if good then accept s k o None false (keys s) else refuse s k o (keys s)
      end
  end.
(** [keymgmt_gen], 858-946, of a key pair.  [h]: the handle that sa_key_generate gives, if any;
    [good]: public key and header can be read.  On failure the object, which nobody else knows, is
    freed on the spot. *)
Definition generate_key (s : st) (h : option nat) (good : bool) : res :=
  match h with
  | None => Ran s ANull
  | Some h =>
      if mem h (keys s) then Ran s ANothing else
      if good then
        let s' := add_obj s (Kobj 1 (Some h) true) in
        Ran (St (objs s') (nobj s') (ctxs s') (h :: keys s') (pend s')) (AKey (nobj s))
      else Ran s ANull
  end.

(** ** Contexts *)
Definition ctx (s : st) (c : nat) : option cobj :=
  match nth_error (ctxs s) c with Some x => if dead x then None else Some x | None => None end.
Definition set_ctx (s : st) (c : nat) (x : cobj) : st := St (objs s) (nobj s) (put (ctxs s) c x) (keys s) (pend s).
Definition add_ctx (s : st) (x : cobj) : st := St (objs s) (nobj s) (ctxs s ++ [x]) (keys s) (pend s).
(** [signature_sign_init], sa_provider_signature.c 190-208, and the same for verification;
    [keyexch_init], sa_provider_keyexch.c 113-131; [asym_cipher_encrypt_init],
    sa_provider_asym_cipher.c 142-160.  [params]: the answer of set_ctx_params. *)
Definition init_ctx (s : st) (c k : nat) (params : bool) : res :=
  match ctx s c with
  | None => Crash
  | Some x =>
      match dup_key s k with
      | None => Crash
      | Some s => Ran (set_ctx s c (Cobj (kind x) (Some k) (peer x) (ready x) false)) (ABool params)
      end
  end.
(** [signature_digest_sign_init], 431-507, and the same for verification.  [good]: nothing fails;
    [plain]: an Ed25519 or Ed448 key, without a digest.  The answer is always 1. *)
Definition digest_init (s : st) (c k : nat) (good plain : bool) : res :=
  match ctx s c with
  | None => Crash
  | Some x =>
      match kind x with
      | Signing =>
          match dup_key s k with
          | None => Crash
          | Some s =>
              Ran (set_ctx s c (if good then Cobj Signing (Some k) (peer x) (negb plain) false else Cobj Signing None (peer x) false false)) (ABool true)
          end
      | _ => Ran s ANothing
      end
  end.
(** [keyexch_set_peer], sa_provider_keyexch.c 206-222. *)
Definition set_peer (s : st) (c k : nat) : res :=
  match ctx s c with
  | None => Crash
  | Some x =>
      match kind x with
      | Exchange =>
          match dup_key s k with
          | None => Crash
          | Some s => Ran (set_ctx s c (Cobj Exchange (key x) (Some k) (ready x) false)) (ABool true)
          end
      | _ => Ran s ANothing
      end
  end.
(** [asym_cipher_set_ctx_params], as far as it decides whether both digests are there. *)
Definition settle (s : st) (c : nat) (b : bool) : res :=
  match ctx s c with
  | None => Crash
  | Some x => match kind x with Crypting => Ran (set_ctx s c (Cobj Crypting (key x) (peer x) b false)) (ABool true) | _ => Ran s ANothing end
  end.
(** [signature_dupctx], sa_provider_signature.c 133-188: a failure after the key has been duplicated
    (EVP_MD_CTX_copy from NULL is one) frees the new context and answers its address all the same.
    [keyexch_dupctx], sa_provider_keyexch.c 91-111.  [asym_cipher_dupctx], sa_provider_asym_cipher.c
    107-140: EVP_MD_up_ref does not expect NULL.  [room]: the allocations and copies in between
    succeed. *)
Definition dup_ctx (s : st) (c : nat) (room : bool) : res :=
  match ctx s c with
  | None => Crash
  | Some x =>
      match dup_slot s (key x) with
      | None => Crash
      | Some s1 =>
          match kind x with
          | Signing =>
              if ready x && room then Ran (add_ctx s1 (Cobj Signing (key x) None true false)) (ACtx (length (ctxs s)))
              else Ran (add_ctx s1 (Cobj Signing (key x) None false true)) (ACtx (length (ctxs s)))
          | Exchange =>
              match dup_slot s1 (peer x) with
              | None => Crash
              | Some s2 => Ran (add_ctx s2 (Cobj Exchange (key x) (peer x) false false)) (ACtx (length (ctxs s)))
              end
          | Crypting =>
              if ready x then
                if room then Ran (add_ctx s1 (Cobj Crypting (key x) None true false)) (ACtx (length (ctxs s)))
                else Ran s1 ANull
              else Crash
          end
      end
  end.
(** [signature_freectx], 116-131; [keyexch_freectx], 80-89; [asym_cipher_freectx], 91-105. *)
Definition free_ctx (s : st) (c : nat) : res :=
  match ctx s c with
  | None => Crash
  | Some x =>
      match free_slot s (key x) with
      | None => Crash
      | Some s =>
          match free_slot s (peer x) with
          | None => Crash
          | Some s => Ran (set_ctx s c (Cobj (kind x) (key x) (peer x) (ready x) true)) AOk
          end
      end
  end.
Definition see (s : st) (k : option nat) (null : res) : res :=
  match k with None => null | Some k => match objs s k with Some _ => Ran s AOk | None => Crash end end.
(** The work itself: signing and verification look for a missing key (232, 368, 591, 690),
    [keyexch_derive] (133-204), [asym_cipher_encrypt] (186) and [asym_cipher_decrypt] (287) do not. *)
Definition use_ctx (s : st) (c : nat) : res :=
  match ctx s c with
  | None => Crash
  | Some x =>
      match kind x with
      | Signing => see s (key x) (Ran s AFail)
      | Exchange => match see s (key x) Crash with Crash => Crash | _ => see s (peer x) Crash end
      | Crypting => see s (key x) Crash
      end
  end.
(** [signature_get_ctx_params] of the algorithm identifier, 730-749, does not either. *)
Definition ask_ctx (s : st) (c : nat) : res :=
  match ctx s c with
  | None => Crash
  | Some x => match kind x with Signing => see s (key x) Crash | _ => Ran s ANothing end
  end.

(** ** Calls *)
(** [OKey] and [ORelease]: the application makes and releases a key of its own by the API.
    [ODestroy]: a thread inside keymgmt_free goes on. *)
Inductive op :=
  | ONew | OGen (h : option nat) (good : bool) | ODup (k : nat) | OFree (k : nat) | OLook (k : nat) | OMatch (k1 k2 : nat) | OImport (k : nat) (src : source)
  | OCtx (kd : ckind) | OInit (c k : nat) (params : bool) | ODigest (c k : nat) (good plain : bool) | OPeer (c k : nat) | OSettle (c : nat) (b : bool)
  | ODupCtx (c : nat) (room : bool) | OFreeCtx (c : nat) | OUse (c : nat) | OAsk (c : nat)
  | OKey (h : nat) | ORelease (h : nat) | ODestroy (k : nat).
Definition step (s : st) (o : op) : res :=
  match o with
  | ONew => Ran (add_obj s (Kobj 1 None false)) (AKey (nobj s))
  | OGen h good => generate_key s h good
  | ODup k => match dup_key s k with Some s => Ran s (AKey k) | None => Crash end
  | OFree k => match free_key s k with Some s => Ran s AOk | None => Crash end
  | OLook k => match objs s k with Some o => Ran s (ABool (match priv o with Some _ => true | None => false end)) | None => Crash end
  | OMatch k1 k2 => match_keys s k1 k2
  | OImport k src => import_key s k src
  | OCtx kd => Ran (add_ctx s (Cobj kd None None false false)) (ACtx (length (ctxs s)))
  | OInit c k params => init_ctx s c k params
  | ODigest c k good plain => digest_init s c k good plain
  | OPeer c k => set_peer s c k
  | OSettle c b => settle s c b
  | ODupCtx c room => dup_ctx s c room
  | OFreeCtx c => free_ctx s c
  | OUse c => use_ctx s c
  | OAsk c => ask_ctx s c
  | OKey h => if mem h (keys s) then Ran s ANothing else Ran (St (objs s) (nobj s) (ctxs s) (h :: keys s) (pend s)) AOk
  | ORelease h => Ran (St (objs s) (nobj s) (ctxs s) (drop h (keys s)) (pend s)) AOk
  | ODestroy k => destroy s k
  end.
