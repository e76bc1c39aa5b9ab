(** Vocabulary for statements about calls and about the whole system. *)
From Verif Require Import Base M_ObjectStore P_ObjectStore M_Rights M_Svp M_Prog M_ApiKey M_ApiCipher M_Api S_Api M_World.

(** Common encryption looks its context up twice; [not_raced] says that, if call [k] is
    such a call, it found the same both times. *)
Definition is_cenc (k : call) : Prop := exists l, k = KCenc l.
Definition not_raced (k : call) (h : list ev) : Prop := is_cenc k -> undisturbed h.

(** No call of the system is in one of the situations in which the code is known to go
    wrong. *)
Definition calm_system (sy : system) : Prop :=
  forall i t, nth_error (s_threads sy) i = Some t -> calm (t_call t) (t_hist t).

(** [doing sy i k slot u h c]: the system can be in state [sy], where its [i]th call, [k] of
    caller [u] with client handle [slot], has done [h] and is about to do [c];
    [done ... s]: has returned [s]. *)
Definition doing (sy : system) (i : nat) (k : call) (slot : Z) (u : uuid) (h : list ev) (c : cmd) : Prop :=
  reaches sy /\ exists cont, nth_error (s_threads sy) i = Some (MkThread k slot u (Do c cont) h).
Definition done (sy : system) (i : nat) (k : call) (slot : Z) (u : uuid) (h : list ev) (s : status) : Prop :=
  reaches sy /\ nth_error (s_threads sy) i = Some (MkThread k slot u (Ret s) h).

(** The object a release call names, in the stores of client [c]. *)
Definition released (k : call) (c : Z) : option (sid * Z) :=
  match k with
  | KKeyRelease x => Some (SKeys c, x)
  | KCipherRelease x => Some (SCiphers c, x)
  | KMacRelease x => Some (SMacs c, x)
  | _ => None
  end.

(** ** The whole system *)
(** A call of the system, in state [sy], and what it has done. *)
Definition has_call (sy : system) (k : call) (slot : Z) (u : uuid) (h : list ev) : Prop :=
  exists i p, nth_error (s_threads sy) i = Some (MkThread k slot u p h).

(** The handles given to a call in its arguments, by kind of object. *)
Definition svp_arg (b : option ubuf) : list Z := match b with Some (USvp x _) => [x] | _ => [] end.
Definition key_args (k : call) : list Z :=
  match k with
  | KKeyImport (ImpTypeJ (Some (a, b))) _ _ => [a; b]
  | KKeyUnwrap _ _ _ _ x _ => [x]
  | KKeyDerive _ (Some (DvHash x _ _ _ _ _)) | KKeyDerive _ (Some (DvCmac x _ _ _)) => [x]
  | KKeyDerive _ (Some (DvNetflix a b)) => [a; b]
  | KKeyExchange _ (ExNetflix a _ _) x _ => [a; x]
  | KKeyExchange _ _ x _ => [x]
  | KKeyExport _ _ x _ | KKeyHeader x | KKeyDigest x | KKeyRelease x | KKeyPublic x => [x]
  | KSign _ x _ _ _ _ | KCipherInit _ _ x _ _ | KMacInit _ _ x | KMacProcessKey _ x | KSvpKeyCheck x _ _ _ => [x]
  | _ => []
  end.
Definition cipher_args (k : call) : list Z :=
  match k with
  | KCipherProcess _ x _ _ | KCipherProcessLast _ x _ _ _ | KCipherUpdateIv x _ | KCipherRelease x => [x]
  | KCenc (Some l) => map cs_context l
  | _ => []
  end.
Definition mac_args (k : call) : list Z :=
  match k with
  | KMacProcess x _ | KMacProcessKey x _ | KMacCompute x _ _ | KMacRelease x => [x]
  | _ => []
  end.
Definition svp_args (k : call) : list Z :=
  match k with
  | KCipherProcess o _ i _ | KCipherProcessLast o _ i _ _ => svp_arg o ++ svp_arg i
  | KCenc (Some l) => flat_map (fun s => svp_arg (cs_out s) ++ svp_arg (cs_in s)) l
  | KSvpRelease x | KSvpWrite x _ _ | KSvpCheck x _ _ _ _ => [x]
  | KSvpCopy a b _ => [a; b]
  | KSvpKeyCheck _ b _ _ => svp_arg b
  | _ => []
  end.
(** Call [k], made with client handle [slot], was given handle [x] for an object of store [s]. *)
Definition was_given (k : call) (slot : Z) (s : sid) (x : Z) : Prop :=
  match s with
  | SClients => x = slot
  | SKeys _ => In x (key_args k)
  | SCiphers _ => In x (cipher_args k)
  | SMacs _ => In x (mac_args k)
  | SSvps _ => In x (svp_args k)
  end.
(** The call has made handle [x] itself. *)
Definition has_made (h : list ev) (s : sid) (x : Z) : Prop := In (s, x) (made_handles h).

(** In this call, key handle [x] of client [c] stood for key [key]. *)
Definition stood_for (h : list ev) (c x : Z) (u : uuid) (key : stored_key) : Prop :=
  exists w, In (EAcquire (SKeys c) x u (Got w)) h /\ In (EWrapped w key) h.

(** The flag needed for any use of a key; running a MAC needs the one starting it needs. *)
Definition flag_for (r : role) : option Z :=
  match r with RMacRun => Some 5 | _ => needs_flag r end.

(** [context_made sy c x u ci key]: some call of [u] was sa_crypto_cipher_init for the algorithm
    and mode of [ci] and a key handle that then stood for [key], and got context handle [x];
    [mac_made]: the same for sa_crypto_mac_init. *)
Definition context_made (sy : system) (c x : Z) (u : uuid) (ci : cipher) (key : stored_key) : Prop :=
  exists kh s1 s2 slot h q, has_call sy (KCipherInit (ci_alg ci) (ci_mode ci) kh s1 s2) slot u h /\
    stood_for h c kh u key /\ exists ci0, In (EAdd (SCiphers c) q (OCipher ci0) u (Got x)) h.
Definition mac_made (sy : system) (c x : Z) (u : uuid) (alg : Z) (key : stored_key) : Prop :=
  exists kh d slot h q, has_call sy (KMacInit alg d kh) slot u h /\
    stood_for h c kh u key /\ exists m, In (EAdd (SMacs c) q (OMac m) u (Got x)) h.
