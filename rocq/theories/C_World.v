(** C03, C08, C11, C27, C61, C62 for the whole system: any number of calls of any callers, in any
    interleaving.  [doing sy i k slot u h c]: the system can be in state [sy], where its [i]th
    call, [k] of caller [u] with client handle [slot], has done [h] and is about to do [c];
    [has_call sy k slot u h]: a call of the system and what it has done; [CUse p key r src dst]:
    the library uses key [key] in role [r]. *)
From Verif Require Import Base M_ObjectStore M_Rights S_Rights M_Svp M_Prog M_ApiKey M_ApiCipher M_ApiMac
  M_Api S_Api M_World S_World S_System P_ApiRuns P_World P_WorldRuns.

(** C08.  Whenever key material is put to use, anywhere in the system, the key has the flag the
    use needs: also when a cipher or MAC context made earlier is used, and whatever other calls
    do meanwhile. *)
Theorem C08_use_needs_flag : forall sy i k slot u h p key r src dst f,
  doing sy i k slot u h (CUse p key r src dst) -> flag_for r = Some f -> has_flag (k_rights key) f.
Proof. exact use_flag_always. Qed.
Print Assumptions C08_use_needs_flag.

Example C08_system_nontrivial :
  (exists sy i l slot u h p key, doing sy i (KCenc l) slot u h (CUse p key RDecrypt PClear PClear) /\ ~ not_raced (KCenc l) h) /\
  (exists sy i slot u h p key, doing sy i (KMacProcess 31 true) slot u h (CUse p key RMacRun PClear PNone) /\
     runs_mac (KMacProcess 31 true)) /\ flag_for RMacRun = Some F_SIGN /\ flag_for RDecrypt = Some F_DECRYPT.
Proof. exact (conj raced_case (conj mac_case (conj eq_refl eq_refl))). Qed.

(** C11.  The caller on whose behalf a key is used is on the key's allow list: also when the key
    is used through a context made earlier.  Missing: export (refuted). *)
Theorem C11_user_is_listed_partial : forall sy i k slot u h p key r src dst,
  doing sy i k slot u h (CUse p key r src dst) -> r <> RInner -> r <> RExport -> listed (k_rights key) u.
Proof. exact use_listed_always. Qed.
Print Assumptions C11_user_is_listed_partial.

(** C27.  Every key that is used has an allowed size for its type, and a terminated identifier. *)
Theorem C27_used_keys_allowed : forall sy i k slot u h p key r src dst,
  doing sy i k slot u h (CUse p key r src dst) -> r <> RInner ->
  size_allowed (k_type key) (p_curve (k_params key)) (k_size key) /\
  (length (r_id (k_rights key)) = 64%nat -> id_terminated (k_rights key)).
Proof. exact use_size_always. Qed.
Print Assumptions C27_used_keys_allowed.

(** C03.  Every object a call gets hold of was stored by a call of the same caller, under the same
    handle, and with the same client. *)
Theorem C03_objects_come_from_own_calls : forall sy k slot u h s x v p,
  reaches sy -> has_call sy k slot u h -> In (EAcquire s x v (Got p)) h ->
  v = u /\ exists k' slot' h' o, has_call sy k' slot' u h' /\ In (EAdd s p o u (Got x)) h' /\
  forall c, client_of s = Some c -> In (EAcquire SClients slot u (Got c)) h /\ In (EAcquire SClients slot' u (Got c)) h'.
Proof. exact own_makers. Qed.
Print Assumptions C03_objects_come_from_own_calls.

(** C61.  The key found under a key handle is the one that the call which made the handle put
    there, with all its contents. *)
Theorem C61_key_handle_fixed : forall sy k slot u h c x w key,
  reaches sy -> has_call sy k slot u h -> In (EAcquire (SKeys c) x u (Got w)) h -> In (EWrapped w key) h ->
  exists k' slot' h', has_call sy k' slot' u h' /\ In (EAdd (SKeys c) w (OWrapped key) u (Got x)) h'.
Proof. exact key_handle_stands. Qed.
Print Assumptions C61_key_handle_fixed.

(** C61.  A call that runs a cipher context uses the context its argument names, in the direction
    and with the algorithm and the key that sa_crypto_cipher_init was given when it made the
    handle, and the key is one the algorithm can be used with. *)
Theorem C61_cipher_context_fixed : forall sy i k slot u h p key r src dst,
  doing sy i k slot u h (CUse p key r src dst) -> is_crypt r -> runs_cipher k ->
  exists c x q ci, In x (cipher_args k) /\ In (EAcquire (SCiphers c) x u (Got q)) h /\
    In (ECipher q ci) h /\ ci_key ci = p /\ ci_mode ci = direction r /\ In (EGetKey p key) h /\
    context_made sy c x u ci key /\ cipher_key (ci_alg ci) key.
Proof. exact context_stands. Qed.
Print Assumptions C61_cipher_context_fixed.

(** C61.  The same for MAC contexts. *)
Theorem C61_mac_context_fixed : forall sy i k slot u h p key src dst,
  doing sy i k slot u h (CUse p key RMacRun src dst) -> runs_mac k ->
  exists c x q m, In x (mac_args k) /\ In (EAcquire (SMacs c) x u (Got q)) h /\
    In (EMac q m) h /\ mc_ctx m = p /\ mac_made sy c x u (mc_alg m) key /\ mac_key (mc_alg m) key.
Proof. exact mac_stands. Qed.
Print Assumptions C61_mac_context_fixed.

(** The key of the context has been released and its handle, 31, now names another key. *)
Example C61_nontrivial : exists sy h p, doing sy 5 process 31 9 h (CUse p k1_key RDecrypt PClear PClear) /\
  runs_cipher process /\ cipher_args process = [31] /\
  exists h' key, has_call sy (generate (granted [F_SIGN] 100 200 ALL)) 31 9 h' /\
    out_value h' VKey = Some 31 /\ In (EAdd (SKeys 1) 8 (OWrapped key) 9 (Got 31)) h' /\ key <> k1_key.
Proof. exact reuse_case. Qed.

(** C62.  The objects a call looks up or destroys are those named by the handles it was given, and
    those it has made itself. *)
Theorem C62_only_named_objects : forall k slot u c h, issues k slot u c h ->
  match c with
  | CAcquire s x _ | CRemove s x _ => was_given k slot s x \/ has_made h s x
  | _ => True
  end.
Proof. exact given_or_made. Qed.
Print Assumptions C62_only_named_objects.

Example C62_nontrivial :
  (exists h c, issues oaep_init 31 9 (CAcquire (SCiphers c) 31 9) h /\
     cipher_args oaep_init = [] /\ has_made h (SCiphers c) 31) /\
  ~ was_given oaep_init 31 (SKeys 1) 30.
Proof. split; [exact again_case|]. intros [H|[]]. discriminate H. Qed.
