(** C67: key objects of the OpenSSL provider live as long as they are used and no longer.  A history is
    a list of calls, by any number of threads, with every choice that the environment makes; [l] is the
    ledger that the program keeps of it, [s] the memory of the provider and the keys behind the API. *)
From Coq Require Import List ZArith Bool Arith.
From Verif Require Import M_ProvKeys S_ProvKeys P_ProvKeys2 P_ProvKeysRuns.
Import ListNotations.

(** No history crashes or touches memory that has been given back, if the program uses only what it
    has ([may]) and neither copies nor uses contexts that are not set up ([careful]).  Missing: the
    second condition, which no document states. *)
Theorem C67_safe_partial : forall ops, obeys (fun l o => may l o /\ careful l o) start blank ops -> exec start blank ops <> None.
Proof. exact safe_all. Qed.
Print Assumptions C67_safe_partial.
(** Every object to which the program or one of its contexts refers exists, and so does its private
    key if the provider is to delete it; keys that are the application's to release are never
    released by the provider.  Missing: histories in which a key is imported over another one. *)
Theorem C67_kept_partial : forall ops s l, obeys (fun l o => (may l o /\ careful l o) /\ fresh l o) start blank ops -> exec start blank ops = Some (s, l) ->
  (forall k, (0 < refs l k)%nat -> whole s k) /\
  (forall c x k, mine l c <> None -> nth_error (ctxs s) c = Some x -> key x = Some k \/ peer x = Some k -> whole s k) /\
  (forall h, own l h = true -> In h (keys s)).
Proof. exact kept_all. Qed.
Print Assumptions C67_kept_partial.
(** When everything has been given back nothing is left, neither memory nor keys, but the keys of the
    application.  Missing: histories in which a context is set up twice or without success, or the
    import of a key in the clear fails or asks to keep the key. *)
Theorem C67_nothing_left_partial : forall ops s l, obeys (fun l o => ((may l o /\ careful l o) /\ fresh l o) /\ tidy l o) start blank ops -> exec start blank ops = Some (s, l) -> returned s l ->
  (forall k, objs s k = None) /\ (forall c x, nth_error (ctxs s) c = Some x -> dead x = true) /\ (forall h, In h (keys s) <-> own l h = true).
Proof. exact clean_all. Qed.
Print Assumptions C67_nothing_left_partial.
(** A history of 24 calls with two keys and four contexts that meets every condition; in the middle
    only contexts refer to the generated key, at the end only the application's key is left. *)
Example C67_case : obeys (fun l o => ((may l o /\ careful l o) /\ fresh l o) /\ tidy l o) start blank shared_life /\
  (exists s l x, exec start blank (firstn 14 shared_life) = Some (s, l) /\ refs l 0 = 0%nat /\ mine l 2 <> None /\ nth_error (ctxs s) 2 = Some x /\ key x = Some 0%nat /\
    objs s 0 = Some (Kobj 2 (Some 7%nat) true) /\ In 7%nat (keys s)) /\
  (exists s l, exec start blank shared_life = Some (s, l) /\ refs l 0 = 0%nat /\ refs l 1 = 0%nat /\ mine l 0 = None /\ mine l 1 = None /\ mine l 2 = None /\ mine l 3 = None /\ pend s = [] /\ keys s = [3%nat] /\
    own l 3 = true /\ own l 7 = false /\ objs s 0 = None /\ objs s 1 = None /\ nobj s = 2%nat /\ length (ctxs s) = 4%nat).
Proof. split; [exact shared_perfect|]. split; [exact shared_middle|exact shared_end]. Qed.

(** Copying a key exchange context without keys uses a NULL pointer. *)
Theorem C67_copy_empty_refuted : exists ops, obeys may start blank ops /\ exec start blank ops = None /\ ops = [OCtx Exchange; ODupCtx 0 true].
Proof. exact crash_copy_empty. Qed.
Print Assumptions C67_copy_empty_refuted.
(** The copy of a signature context without a digest is memory that has already been given back; to
    free it is to free it twice. *)
Theorem C67_copy_undigested_refuted : exists ops, obeys may start blank ops /\ exec start blank ops = None /\ ops = [ONew; OCtx Signing; OInit 0 0 true; ODupCtx 0 true; OFreeCtx 1].
Proof. exact crash_copy_undigested. Qed.
Print Assumptions C67_copy_undigested_refuted.
(** Deriving without keys uses a NULL pointer. *)
Theorem C67_use_empty_refuted : exists ops, obeys may start blank ops /\ exec start blank ops = None /\ ops = [OCtx Exchange; OUse 0].
Proof. exact crash_use_empty. Qed.
Print Assumptions C67_use_empty_refuted.
(** An initialisation that fails answers success; asking the context for its algorithm then crashes,
    and the program cannot know. *)
Theorem C67_failed_init_refuted : exists ops s s' l c k, obeys may start blank ops /\ exec start blank ops = Some (s, l) /\ may l (ODigest c k false false) /\
  step s (ODigest c k false false) = Ran s' (ABool true) /\ may (note l (ODigest c k false false) (ABool true)) (OAsk c) /\ step s' (OAsk c) = Crash.
Proof. exact crash_after_answer. Qed.
Print Assumptions C67_failed_init_refuted.
(** A peer set twice stays for ever, with its private key. *)
Theorem C67_peer_twice_refuted : exists ops s l, obeys (fun l o => (may l o /\ careful l o) /\ fresh l o) start blank ops /\ exec start blank ops = Some (s, l) /\ returned s l /\
  exists k h, objs s k <> None /\ In h (keys s) /\ own l h = false /\ ops = [OGen (Some 7%nat) true; OCtx Exchange; OPeer 0 0; OPeer 0 0; OFreeCtx 0; OFree 0].
Proof. exact leak_peer. Qed.
Print Assumptions C67_peer_twice_refuted.
(** A key imported in the clear stays behind the API for ever if its header cannot be read, *)
Theorem C67_failed_import_refuted : exists ops s l, obeys (fun l o => (may l o /\ careful l o) /\ fresh l o) start blank ops /\ exec start blank ops = Some (s, l) /\ returned s l /\
  exists h, In h (keys s) /\ own l h = false /\ ops = [ONew; OImport 0 (Clear 7 false None); OFree 0; ODestroy 0].
Proof. exact leak_import. Qed.
Print Assumptions C67_failed_import_refuted.
(** or if the parameter about deletion, meant for handles, comes along. *)
Theorem C67_kept_import_refuted : exists ops s l, obeys (fun l o => (may l o /\ careful l o) /\ fresh l o) start blank ops /\ exec start blank ops = Some (s, l) /\ returned s l /\
  exists h, In h (keys s) /\ own l h = false /\ ops = [ONew; OImport 0 (Clear 7 true (Some false)); OFree 0; ODestroy 0].
Proof. exact leak_keep. Qed.
Print Assumptions C67_kept_import_refuted.
(** An import over another one, even one that fails, releases the key of the application. *)
Theorem C67_import_over_refuted : exists ops s l h, obeys (fun l o => (may l o /\ careful l o) /\ tidy l o) start blank ops /\ exec start blank ops = Some (s, l) /\ own l h = true /\ ~ In h (keys s) /\
  ops = [OKey 3; ONew; OImport 0 (Handle 3 true None); OImport 0 (Public false)].
Proof. exact lose_own. Qed.
Print Assumptions C67_import_over_refuted.
(** Different keys are said to match. *)
Theorem C67_match_refuted : exists ops s l, obeys (fun l o => ((may l o /\ careful l o) /\ fresh l o) /\ tidy l o) start blank ops /\ exec start blank ops = Some (s, l) /\
  exists k1 k2 o1 o2, objs s k1 = Some o1 /\ objs s k2 = Some o2 /\ priv o1 <> priv o2 /\ may l (OMatch k1 k2) /\ step s (OMatch k1 k2) = Ran s (ABool true).
Proof. exact all_match. Qed.
Print Assumptions C67_match_refuted.
