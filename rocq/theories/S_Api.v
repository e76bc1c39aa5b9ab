(** What a call must have done before each of its steps.  [h] is what the call has done so
    far, newest first; it starts empty when the call starts, so a clock or output reading
    found in it was made during this call. *)
From Verif Require Import Base M_ObjectStore M_Rights S_Rights M_Svp M_Prog M_ApiKey M_ApiCipher M_Api.

(** The usage flag a use of a stored key needs. *)
Definition needs_flag (r : role) : option Z :=
  match r with
  | REncrypt => Some 3                      (* SA_USAGE_FLAG_ENCRYPT *)
  | RDecrypt | RDecryptAsym => Some 4       (* SA_USAGE_FLAG_DECRYPT *)
  | RSign | RMacStart => Some 5             (* SA_USAGE_FLAG_SIGN *)
  | RUnwrap => Some 2                       (* SA_USAGE_FLAG_UNWRAP *)
  | RDerive => Some 1                       (* SA_USAGE_FLAG_DERIVE *)
  | RExchange => Some 0                     (* SA_USAGE_FLAG_KEY_EXCHANGE *)
  | RExport => Some 13                      (* SA_USAGE_FLAG_CACHEABLE *)
  | RMacRun | RMacKey | RDigest | RPublic | RInner => None
  end.
Definition flag_ok (k : stored_key) (r : role) : Prop :=
  forall f, needs_flag r = Some f -> has_flag (k_rights k) f.

(** The keys an algorithm can be used with, by type (0 symmetric, 1 EC, 2 RSA) and size in
    bytes: ciphers 0-5 are AES modes, 6 and 7 RSA, 8 EC ElGamal, 9 and 10 ChaCha20; MAC 0 is
    CMAC with AES, 1 HMAC. *)
Definition cipher_key (alg : Z) (k : stored_key) : Prop :=
  (0 <= alg <= 5 /\ k_type k = 0 /\ (k_size k = 16 \/ k_size k = 32)) \/
  (6 <= alg <= 7 /\ k_type k = 2 /\ In (k_size k) [128; 256; 384; 512]) \/
  (alg = 8 /\ k_type k = 1 /\
     In (p_curve (k_params k), k_size k)
       [(7, 24); (8, 28); (0, 32); (1, 48); (2, 66); (3, 32); (4, 32); (5, 57); (6, 56)]) \/
  (9 <= alg <= 10 /\ k_type k = 0 /\ k_size k = 32).
Definition mac_key (alg : Z) (k : stored_key) : Prop :=
  (alg = 0 /\ k_type k = 0 /\ (k_size k = 16 \/ k_size k = 32)) \/
  (alg = 1 /\ k_type k = 0 /\ 16 <= k_size k <= 512).

(** The clock was read and stood inside the key's validity period; the outputs were
    polled and all of them are permitted. *)
Definition time_ok (h : list ev) (k : stored_key) : Prop :=
  exists now, In (EClock now) h /\ in_window (k_rights k) now.
Definition outputs_ok (h : list ev) (k : stored_key) : Prop :=
  exists v, In (EPoll (Some v)) h /\ outputs_permitted (k_rights k) v.

(** Uses whose time is checked by the code: all but the export of a key, later work of a
    MAC context, and keys that have no handle yet. *)
Definition timed (r : role) : Prop :=
  match r with RExport | RMacRun | RInner => False | _ => True end.
(** Uses for which the outputs are polled: of these all but asymmetric decryption. *)
Definition output_bound (r : role) : Prop :=
  match r with RExport | RMacRun | RInner | RDecryptAsym => False | _ => True end.
(** Uses of a key named by a key handle in this call, for which the allow list is read. *)
Definition by_handle (h : list ev) (p : Z) (k : stored_key) : Prop :=
  exists c kh w u, In (EAcquire (SKeys c) kh u (Got w)) h /\ In (EWrapped w k) h /\
                   In (ENew (OKey k) (Some p)) h.
(** Uses of a key through a cipher context acquired in this call; [alg] is its algorithm. *)
Definition by_context (h : list ev) (p : Z) (k : stored_key) (alg : Z) : Prop :=
  exists c ch q u ci, In (EAcquire (SCiphers c) ch u (Got q)) h /\ In (ECipher q ci) h /\
     ci_key ci = p /\ ci_alg ci = alg /\ In (EGetKey p k) h.
(** ... and of the key a MAC context was started with. *)
Definition by_mac (h : list ev) (p : Z) (k : stored_key) : Prop :=
  exists c mh q u m st, In (EAcquire (SMacs c) mh u (Got q)) h /\ In (EMac q m) h /\
                        mc_ctx m = p /\ In (EMacState p st) h /\ ms_key st = k.

(** The algorithms that may read or write secure memory: the unauthenticated symmetric
    ones. *)
Definition svp_algorithm (alg : Z) : Prop :=
  In alg [A_ECB; A_ECB_PKCS7; A_CBC; A_CBC_PKCS7; A_CTR; A_CHACHA20].

Definition is_crypt (r : role) : Prop :=
  match r with REncrypt | RDecrypt | RDecryptAsym => True | _ => False end.

(** Nobody replaced an object between two looks at it during this call. *)
Definition undisturbed (h : list ev) : Prop :=
  (forall s x u p u' p', In (EAcquire s x u (Got p)) h -> In (EAcquire s x u' (Got p')) h -> p = p') /\
  (forall p a b, In (ECipher p a) h -> In (ECipher p b) h -> a = b) /\
  (forall p a b, In (EGetKey p a) h -> In (EGetKey p b) h -> a = b).

(** [issues k slot u c h]: call [k] can come to the point where it issues command [c]
    after having done [h]. *)
Definition issues (k : call) (slot : Z) (u : uuid) (c : cmd) (h : list ev) : Prop :=
  exists cont, reach (api k slot u) [] (Do c cont) h.
(** [returns k slot u h s]: call [k] can complete with status [s] having done [h]. *)
Definition returns (k : call) (slot : Z) (u : uuid) (h : list ev) (s : status) : Prop :=
  execution (api k slot u) h s.

(** The rights a call was asked to give to its new key (or keys). *)
Definition requests (k : call) (r : rights) : Prop :=
  match k with
  | KKeyGenerate r' _ => r' = Some r
  | KKeyImport (ImpSymmetric r') _ _ => r' = Some (Some r)
  | KKeyImport (ImpEc (Some (r', _))) _ _ => r' = Some r
  | KKeyImport (ImpRsa r') _ _ => r' = Some (Some r)
  | KKeyImport _ _ md => md_rights md = r
  | KKeyUnwrap r' _ _ _ _ _ => r' = Some r
  | KKeyDerive r' _ => r' = Some r
  | KKeyExchange r' (ExNetflix _ rke rkh) _ _ => r' = Some r \/ rke = Some r \/ rkh = Some r
  | KKeyExchange r' _ _ _ => r' = Some r
  | _ => False
  end.
(** Calls whose new key comes out of another stored key. *)
Definition has_parent (k : call) : Prop :=
  match k with
  | KKeyImport (ImpTypeJ _) _ _ => True
  | KKeyUnwrap _ _ _ _ _ _ | KKeyExchange _ _ _ _ => True
  | KKeyDerive _ (Some (DvLadder _)) => False
  | KKeyDerive _ _ => True
  | _ => False
  end.
(** [parent_of h p kp]: in this call the stored key [kp] was used to make a new key. *)
Definition parent_of (h : list ev) (p : Z) (kp : stored_key) : Prop :=
  by_handle h p kp /\ exists ro src dst a, In (EUse p kp ro src dst a) h /\ In ro [RUnwrap; RDerive; RExchange].
(** What a child with rights [new], requested as [r], may have got from parent [p]. *)
Definition child_rights (new r p : rights) : Prop :=
  same_but_usage new r /\ (forall f, 0 <= f -> has_flag new f -> has_flag r f) /\
     (~ (unwrap_only p /\ r_child_usage p <> 0) ->
     forall f, is_output_flag f -> has_flag new f -> has_flag p f) /\
     (unwrap_only p -> r_child_usage p <> 0 ->
     forall f, is_usage_flag f -> has_flag new f -> Z.testbit (r_child_usage p) f = true).

(** ** Accounts: what a call still owes after [h] *)
Definition hit {A} (dec : forall a b : A, {a = b} + {a <> b}) (a b : A) : Z := if dec a b then 1 else 0.
Definition sid_dec : forall a b : sid, {a = b} + {a <> b}.
Proof. repeat decide equality. Defined.
Definition ref_dec : forall a b : sid * Z * Z, {a = b} + {a <> b}.
Proof. repeat decide equality. Defined.
(** References on object [p], named by handle [x] of store [s], not given back. *)
Fixpoint refs (h : list ev) (s : sid) (x p : Z) : Z :=
  match h with
  | [] => 0
  | EAcquire s' x' _ (Got p') :: h => hit ref_dec (s', x', p') (s, x, p) + refs h s x p
  | ERelease s' x' p' _ :: h => - hit ref_dec (s', x', p') (s, x, p) + refs h s x p
  | _ :: h => refs h s x p
  end.
(** Locks on object [p] not given back. *)
Fixpoint locks (h : list ev) (p : Z) : Z :=
  match h with
  | [] => 0
  | ELock p' :: h => hit Z.eq_dec p' p + locks h p
  | EUnlock p' :: h => - hit Z.eq_dec p' p + locks h p
  | _ :: h => locks h p
  end.
(** References on [p] under any name. *)
Fixpoint refs_on (h : list ev) (p : Z) : Z :=
  match h with
  | [] => 0
  | EAcquire _ _ _ (Got p') :: h => hit Z.eq_dec p' p + refs_on h p
  | ERelease _ _ p' _ :: h => - hit Z.eq_dec p' p + refs_on h p
  | _ :: h => refs_on h p
  end.
Fixpoint count (p : Z) (l : list Z) : Z :=
  match l with [] => 0 | q :: l => hit Z.eq_dec q p + count p l end.
(** Allocations at [p] that belong to the call: allocated, and neither freed nor handed to
    a store, directly or inside another object. *)
Fixpoint owned (h : list ev) (p : Z) : Z :=
  match h with
  | [] => 0
  | ENew _ (Some p') :: h => hit Z.eq_dec p' p + owned h p
  | EFree p' o :: h => - count p (p' :: children o) + owned h p
  | EAdd _ p' o _ (Got _) :: h => - count p (p' :: children o) + owned h p
  | _ :: h => owned h p
  end.
(** Nothing is owed. *)
Definition settled (h : list ev) : Prop :=
  (forall s x p, refs h s x p = 0) /\ (forall p, locks h p = 0) /\ (forall p, owned h p = 0).

(** Handles made by a call, newest first, and those whose destruction it has asked for. *)
Fixpoint made_handles (h : list ev) : list (sid * Z) :=
  match h with
  | [] => []
  | EAdd s _ _ _ (Got x) :: h => (s, x) :: made_handles h
  | _ :: h => made_handles h
  end.
Fixpoint undone_handles (h : list ev) : list (sid * Z) :=
  match h with
  | [] => []
  | ERemove s x _ _ :: h => (s, x) :: undone_handles h
  | _ :: h => undone_handles h
  end.
(** The value of an out-parameter, if it was written. *)
Fixpoint out_value (h : list ev) (v : var) : option Z :=
  match h with
  | [] => None
  | ESetVar v' z :: h' =>
      match v, v' with
      | VClient, VClient | VKey, VKey | VKe, VKe | VKh, VKh | VContext, VContext | VSvp, VSvp
      | VLength, VLength | VMemory, VMemory | VSize, VSize => Some z
      | _, _ => out_value h' v
      end
  | _ :: h => out_value h v
  end.
(** The situations in which the code is known to lose or repeat a step (the refuted
    theorems show each of them); everything else is [calm]: a cipher context whose OAEP
    label cannot be set once the context has been stored; a buffer of unknown type given to
    cipher processing; an SVP object whose buffer another thread has already taken away. *)
Definition known_buffer (b : option ubuf) : Prop := forall t, b <> Some (UBad t).
Definition calm (k : call) (h : list ev) : Prop :=
  match k with
  | KCipherInit _ _ _ _ _ =>
      (forall c x v s, ~ In (EAcquire (SCiphers c) x v (Failed s)) h) /\
      (forall a, In (EExt XAlloc a) h -> a_status a = OK)
  | KCipherProcess out _ inp _ | KCipherProcessLast out _ inp _ _ => known_buffer out /\ known_buffer inp
  | KSvpRelease _ | KSvpCheck _ _ _ _ _ => forall p, ~ In (ESvp p None) h
  | _ => True
  end.

(** Objects a call may look at after [h]: acquired; acquired and locked; the key or MAC
    state inside an acquired and locked context; or an allocation of the call itself. *)
Definition held (h : list ev) (p : Z) : Prop := exists s x, 1 <= refs h s x p.
Definition held_locked (h : list ev) (p : Z) : Prop := held h p /\ 1 <= locks h p.
Definition key_part (h : list ev) (p : Z) : Prop :=
  exists q ci, held_locked h q /\ In (ECipher q ci) h /\ ci_key ci = p.
Definition mac_part (h : list ev) (p : Z) : Prop :=
  exists q m, held_locked h q /\ In (EMac q m) h /\ mc_ctx m = p.
(** The client a store belongs to; a call uses the stores of a client only while it holds
    the client. *)
Definition client_of (s : sid) : option Z :=
  match s with SClients => None | SKeys c | SCiphers c | SMacs c | SSvps c => Some c end.
Definition client_held (h : list ev) (s : sid) : Prop :=
  forall c, client_of s = Some c -> exists x, 1 <= refs h SClients x c.
(** A store gets objects of its kind, with contents as they were allocated. *)
Definition kind_ok (h : list ev) (s : sid) (p : Z) (o : obj) : Prop :=
  In (ENew o (Some p)) h /\
  match s, o with
  | SClients, OClient | SKeys _, OWrapped _ | SSvps _, OSvp _ => True
  | SCiphers _, OCipher ci =>
      exists k, In (ENew (OKey k) (Some (ci_key ci))) h /\
                (forall y, ci_sym ci = Some y -> In (ENew (OSym k) (Some y)) h)
  | SMacs _, OMac m => exists st, In (ENew (OMacState st) (Some (mc_ctx m))) h
  | _, _ => False
  end.
(** An object is overwritten without changing what it owns or which key it is for. *)
Definition same_kind (h : list ev) (p : Z) (o : obj) : Prop :=
  match o with
  | OCipher ci' => held_locked h p /\ exists ci, In (ECipher p ci) h /\ ci_alg ci' = ci_alg ci /\
       ci_mode ci' = ci_mode ci /\ ci_sym ci' = ci_sym ci /\ ci_key ci' = ci_key ci
  | OSvp _ => held_locked h p /\ exists b, In (ESvp p b) h
  | OMacState st' => mac_part h p /\ exists st, In (EMacState p st) h /\ ms_key st' = ms_key st
  | _ => False
  end.
(** [c] is a step a call may take after [h] without losing, repeating or racing: it gives
    back only what it holds, a lock before its reference and everything of a client before
    the client, waits only for objects it does not hold itself, destroys or hands over only
    what it owns, and reads and writes objects only under their reference and lock. *)
Definition in_order (h : list ev) (c : cmd) : Prop :=
  match c with
  | CAcquire s _ _ => client_held h s
  | CRelease s x p _ => (1 <= refs h s x p /\ locks h p + 1 <= refs_on h p) /\ client_held h s /\
      (s = SClients -> forall s' y q, client_of s' = Some p -> refs h s' y q <= 0)
  | CRemove s x _ => client_held h s /\ forall p, refs h s x p <= 0
  | CLock p => held h p /\ locks h p + 1 <= refs_on h p
  | CUnlock p => held_locked h p
  | CFree p o => forall x, count x (p :: children o) <= owned h x
  | CAdd s p o _ => (forall x, count x (p :: children o) <= owned h x) /\ client_held h s /\ kind_ok h s p o
  | CGetWrapped p => held h p
  | CGetCipher p | CGetMac p | CGetSvp p => held_locked h p
  | CSetObj p o => same_kind h p o
  | CGetKey p => key_part h p
  | CGetMacState p => mac_part h p
  | CUse p k _ _ _ =>
      (1 <= owned h p /\ In (ENew (OKey k) (Some p)) h) \/
      (key_part h p /\ In (EGetKey p k) h) \/
      (mac_part h p /\ exists st, In (EMacState p st) h /\ ms_key st = k)
  | CFault => False
  | _ => True
  end.

(** The kinds of objects in the order in which calls take them. *)
Definition rank (s : sid) : Z :=
  match s with SClients => 0 | SKeys _ => 1 | SCiphers _ | SMacs _ => 2 | SSvps _ => 3 end.
(** A call that waits for the users of an object, or for an object's lock, holds only objects
    of earlier kinds, that object itself, or other buffers. *)
Definition waits (h : list ev) (c : cmd) : Prop :=
  match c with
  | CRemove s _ _ => forall s' x' p', 1 <= refs h s' x' p' -> rank s' < rank s
  | CLock p => exists s x, 1 <= refs h s x p /\
      forall s' x' p', 1 <= refs h s' x' p' -> rank s' < rank s \/ p' = p \/ (rank s = 3 /\ rank s' = 3)
  | _ => True
  end.

(** Calls that make one handle, and the out-parameter it is returned in. *)
Definition creates (k : call) : option var :=
  match k with
  | KInit => Some VClient
  | KKeyExchange _ (ExNetflix _ _ _) _ _ => None
  | KKeyGenerate _ _ | KKeyImport _ _ _ | KKeyUnwrap _ _ _ _ _ _ | KKeyDerive _ _ | KKeyExchange _ _ _ _ => Some VKey
  | KCipherInit _ _ _ _ _ | KMacInit _ _ _ => Some VContext
  | KSvpCreate _ _ => Some VSvp
  | _ => None
  end.

(** The handle discipline of a completed call: a creating call that succeeds has made one
    handle and returns it; one that fails has made none and returns none.  The Netflix
    key exchange makes three, or has asked for the destruction of all it made.  Other
    calls make none. *)
Definition no_handle (h : list ev) (v : var) : Prop :=
  out_value h v = None \/ out_value h v = Some INVALID_HANDLE.
Definition one_handle (h : list ev) (s : status) (v : var) : Prop :=
  (s = OK -> exists st x, made_handles h = [(st, x)] /\ undone_handles h = [] /\
             x <> INVALID_HANDLE /\ out_value h v = Some x) /\
  (s <> OK -> made_handles h = [] /\ no_handle h v).
Definition three_handles (h : list ev) (s : status) : Prop :=
  (s = OK -> exists st a b d, made_handles h = [(st, a); (st, b); (st, d)] /\ undone_handles h = [] /\
             a <> INVALID_HANDLE /\ b <> INVALID_HANDLE /\ d <> INVALID_HANDLE /\
             out_value h VKey = Some a /\ out_value h VKh = Some b /\ out_value h VKe = Some d) /\
  (s <> OK -> (forall x, In x (made_handles h) -> In x (undone_handles h)) /\ no_handle h VKey).
Definition handles_ok (k : call) (h : list ev) (s : status) : Prop :=
  match k with
  | KKeyExchange _ (ExNetflix _ _ _) _ _ => three_handles h s
  | _ => match creates k with Some v => one_handle h s v | None => made_handles h = [] end
  end.
