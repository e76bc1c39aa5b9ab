(** C03, C06, C08-C12, C15, C19, C27, C30, C31, C33, C39, C40 at the level of whole API
    calls.  [issues k slot u c h] means: call [k], made by [u] with client handle [slot],
    can come to the point where it does [c] having done [h], whatever everything around it
    answers; [returns k slot u h s]: it can complete with status [s] having done [h].
    The refuted theorems use [doing] and [done]: the same in a state that the whole system,
    with concurrent calls, reaches from its start. *)
From Verif Require Import Base M_ObjectStore S_ObjectStore M_Rights S_Rights M_Svp M_Prog M_ApiKey M_ApiCipher M_ApiMac
  M_ApiSvp M_Api S_Api M_World S_World P_Api P_ApiRuns P_ObjectStore.

(** C08.  Whenever a call puts key material to a use that needs a usage flag, the key has the
    flag, whatever the call was answered before (for common encryption, as long as it was
    answered the same way twice; C08_use_needs_flag in C_World.v covers it in any state the
    whole system can reach). *)
Theorem C08_call_checks_flag : forall k slot u p key r src dst h,
  issues k slot u (CUse p key r src dst) h -> not_raced k h -> flag_ok key r.
Proof. exact use_flag. Qed.
Print Assumptions C08_call_checks_flag.

(** C08-C11.  A cipher context is only stored for a key that the caller may use at this
    time, with these outputs, and in this direction. *)
Theorem C08_cipher_context_needs_rights : forall k slot u s p ci v h,
  issues k slot u (CAdd s p (OCipher ci) v) h ->
  exists key, by_handle h (ci_key ci) key /\ listed (k_rights key) u /\ time_ok h key /\ outputs_ok h key /\
  ((ci_mode ci = ENCRYPT /\ has_flag (k_rights key) F_ENCRYPT) \/
   (ci_mode ci = DECRYPT /\ has_flag (k_rights key) F_DECRYPT)).
Proof. exact add_cipher. Qed.
Print Assumptions C08_cipher_context_needs_rights.

(** C08-C11.  The same for MAC contexts. *)
Theorem C08_mac_context_needs_rights : forall k slot u s p m v h,
  issues k slot u (CAdd s p (OMac m) v) h ->
  exists key q, In (ENew (OMacState (MkMacState key false)) (Some (mc_ctx m))) h /\ by_handle h q key /\
    listed (k_rights key) u /\ time_ok h key /\ outputs_ok h key /\ has_flag (k_rights key) F_SIGN.
Proof. exact add_mac. Qed.
Print Assumptions C08_mac_context_needs_rights.

Example C08_nontrivial :
  (exists h p key, issues process 31 9 (CUse p key RDecrypt PClear PClear) h /\
     ~ is_cenc process /\ r_usage (k_rights key) = 2 ^ 4 + 2 ^ 10 + 2 ^ 12 /\ length h = 7%nat) /\
  (exists h p key, issues (KCenc (Some [sample])) 31 9 (CUse p key RDecrypt PClear PClear) h /\
     not_raced (KCenc (Some [sample])) h) /\
  (exists h s p ci, issues (KCipherInit A_CTR DECRYPT 31 OK OK) 31 9 (CAdd s p (OCipher ci) 9) h) /\
  (exists h, returns (KCipherInit A_CTR DECRYPT 31 OK OK) 31 9 h OPERATION_NOT_ALLOWED /\
     made_handles h = [] /\ out_value h VContext = Some INVALID_HANDLE).
Proof. exact (conj crypt_case (conj cenc_ok_case (conj context_case refused_case))). Qed.

(** C09.  In each call that uses a key, the clock was read during this call and stood inside
    the key's validity period.  Missing: export, MAC processing, and common encryption
    whose context was replaced meanwhile. *)
Theorem C09_use_inside_window_partial : forall k slot u p key r src dst h,
  issues k slot u (CUse p key r src dst) h -> not_raced k h -> timed r -> time_ok h key.
Proof. exact use_time. Qed.
Print Assumptions C09_use_inside_window_partial.

(** C09 refuted: two calls of one client, racing with a common-encryption call, make it
    decrypt with a key whose validity period the clock was never seen in. *)
Theorem C09_cenc_race_refuted :
  exists sy i l slot u h p key, doing sy i (KCenc l) slot u h (CUse p key RDecrypt PClear PClear) /\ ~ time_ok h key.
Proof. exact race_time. Qed.
Print Assumptions C09_cenc_race_refuted.

(** C09 refuted: MAC processing never reads the clock. *)
Theorem C09_mac_untimed_refuted :
  exists sy i slot u h p key, doing sy i (KMacProcess 31 true) slot u h (CUse p key RMacRun PClear PNone) /\
    forall now, ~ In (EClock now) h.
Proof. exact mac_untimed. Qed.
Print Assumptions C09_mac_untimed_refuted.

(** C09 refuted: nor does the export of a key. *)
Theorem C09_export_untimed_refuted :
  exists sy i k slot u h p key, doing sy i k slot u h (CUse p key RExport PNone PClear) /\
    forall now, ~ In (EClock now) h.
Proof. exact export_untimed. Qed.
Print Assumptions C09_export_untimed_refuted.

(** C10.  In each call that uses a key, the outputs were polled during this call and were all
    permitted (DTCP excepted: see C10_dtcp_output_not_gated_refuted).  Missing: export, MAC
    processing, asymmetric decryption and raced common encryption. *)
Theorem C10_outputs_polled_each_call_partial : forall k slot u p key r src dst h,
  issues k slot u (CUse p key r src dst) h -> not_raced k h -> output_bound r -> outputs_ok h key.
Proof. exact use_outputs. Qed.
Print Assumptions C10_outputs_polled_each_call_partial.

Theorem C10_cenc_race_refuted :
  exists sy i l slot u h p key, doing sy i (KCenc l) slot u h (CUse p key RDecrypt PClear PClear) /\ ~ outputs_ok h key.
Proof. exact race_outputs. Qed.
Print Assumptions C10_cenc_race_refuted.

(** C11.  Key material comes from a key handle or a context acquired in this call; when it
    comes from a key handle, the caller is on the key's allow list.  Missing: export.  (For
    contexts, see C11_user_is_listed_partial in C_World.v.) *)
Theorem C11_use_needs_listing_partial : forall k slot u p key r src dst h,
  issues k slot u (CUse p key r src dst) h -> r <> RInner ->
  (by_handle h p key /\ (r <> RExport -> listed (k_rights key) u)) \/
  (exists alg, by_context h p key alg) \/ by_mac h p key.
Proof. exact use_origin. Qed.
Print Assumptions C11_use_needs_listing_partial.

(** C11 refuted: a key can be exported by a caller that its allow list excludes. *)
Theorem C11_export_unlisted_refuted :
  exists sy i k slot u h p key, doing sy i k slot u h (CUse p key RExport PNone PClear) /\ ~ listed (k_rights key) u.
Proof. exact export_unlisted. Qed.
Print Assumptions C11_export_unlisted_refuted.

(** C12.  A key made from a stored key gets the requested rights, cut down by those of the
    key it was made from.  Missing: what the refuted C12 theorems show. *)
Theorem C12_call_restricts_child_partial : forall k slot u s p key v h,
  issues k slot u (CAdd s p (OWrapped key) v) h -> has_parent k ->
  exists r q kp, requests k r /\ parent_of h q kp /\ child_rights (k_rights key) r (k_rights kp).
Proof. exact add_child. Qed.
Print Assumptions C12_call_restricts_child_partial.

(** C12.  Every other new key gets exactly the requested rights. *)
Theorem C12_root_key_rights : forall k slot u s p key v h,
  issues k slot u (CAdd s p (OWrapped key) v) h -> ~ has_parent k -> requests k (k_rights key).
Proof. exact add_root. Qed.
Print Assumptions C12_root_key_rights.

Example C12_call_nontrivial :
  exists h s p key, issues derive_call 31 9 (CAdd s p (OWrapped key) 9) h /\ has_parent derive_call /\
  r_usage want = 2 ^ 4 + 2 ^ 10 + 2 ^ 12 /\ r_usage (k_rights key) = 2 ^ 4 + 2 ^ 10.
Proof. exact derive_case. Qed.

(** C15.  Data are only written to clear memory if the key allows it and they did not come
    from secure memory.  Missing: raced common encryption. *)
Theorem C15_clear_output_needs_flag_partial : forall k slot u p key r src h,
  issues k slot u (CUse p key r src PClear) h -> not_raced k h -> is_crypt r ->
  has_flag (k_rights key) F_SVP_OPTIONAL /\ src <> PSvp.
Proof. exact use_clear. Qed.
Print Assumptions C15_clear_output_needs_flag_partial.

(** C15.  Secure memory is only written with an unauthenticated symmetric cipher. *)
Theorem C15_svp_output_algorithms : forall k slot u p key r src dst h,
  issues k slot u (CUse p key r src dst) h -> is_crypt r -> dst = PSvp ->
  r <> RDecryptAsym /\ exists alg, by_context h p key alg /\ svp_algorithm alg.
Proof. exact use_svp. Qed.
Print Assumptions C15_svp_output_algorithms.

(** C15 refuted: common encryption can be raced into writing clear output with a key that
    does not allow it. *)
Theorem C15_cenc_race_refuted :
  exists sy i l slot u h p key, doing sy i (KCenc l) slot u h (CUse p key RDecrypt PClear PClear) /\
    ~ has_flag (k_rights key) F_SVP_OPTIONAL.
Proof. exact race_clear. Qed.
Print Assumptions C15_cenc_race_refuted.

(** C27.  Every key handed to a store, by whatever call, has an allowed size for its type
    and a terminated identifier. *)
Theorem C27_every_route : forall k slot u s p key v h,
  issues k slot u (CAdd s p (OWrapped key) v) h ->
  size_allowed (k_type key) (p_curve (k_params key)) (k_size key) /\
  (length (r_id (k_rights key)) = 64%nat -> id_terminated (k_rights key)).
Proof. exact add_key_size. Qed.
Print Assumptions C27_every_route.

(** C03.  A call works only with the caller's identity, on the caller's client and on stores
    of that client. *)
Theorem C03_calls_use_caller_identity : forall k slot u c h, issues k slot u c h ->
  match c with
  | CAcquire s x v | CRelease s x _ v | CRemove s x v =>
      v = u /\ (s = SClients -> x = slot) /\
      forall cl, client_of s = Some cl -> In (EAcquire SClients slot u (Got cl)) h
  | CAdd s _ _ v => v = u /\ forall cl, client_of s = Some cl -> In (EAcquire SClients slot u (Got cl)) h
  | _ => True
  end.
Proof. exact own_objects. Qed.
Print Assumptions C03_calls_use_caller_identity.

(** C06, C30, C31, C33.  Every call that completes has given back all references and locks,
    has freed or handed over all it allocated, and has made handles exactly as its status
    says: one if it succeeded and none if not; three or, each removed again, none for the
    Netflix exchange.  Missing: the situations outside [calm]. *)
Theorem C06_call_settles_partial : forall k slot u h s, returns k slot u h s -> calm k h -> settled h /\ handles_ok k h s.
Proof. exact final_state. Qed.
Print Assumptions C06_call_settles_partial.

Theorem C31_handle_iff_success : forall k slot u h s v, returns k slot u h s -> creates k = Some v -> v = VKey ->
  one_handle h s v.
Proof. exact created_handle. Qed.
Print Assumptions C31_handle_iff_success.

Theorem C30_exchange_all_or_nothing : forall r x rke rkh priv pub slot u h s,
  returns (KKeyExchange r (ExNetflix x rke rkh) priv pub) slot u h s -> settled h /\ three_handles h s.
Proof. exact exchange_handles. Qed.
Print Assumptions C30_exchange_all_or_nothing.

(** C33.  Missing: a label that cannot be set once the context is stored (next theorem). *)
Theorem C33_failed_init_leaves_nothing_partial : forall alg mode key s1 s2 slot u h s,
  returns (KCipherInit alg mode key s1 s2) slot u h s -> calm (KCipherInit alg mode key s1 s2) h ->
  settled h /\ one_handle h s VContext.
Proof. exact init_handles. Qed.
Print Assumptions C33_failed_init_leaves_nothing_partial.

(** C33 refuted: an OAEP initialisation overlapping a release of the handle it is about to
    return frees its key a second time. *)
Theorem C33_key_freed_twice_refuted :
  exists sy i slot u h p o, doing sy i oaep_init slot u h (CFree p o) /\
  w_heap (s_world sy) p = None /\ (exists o', In (ENew o' (Some p)) h) /\ forall ch, run_step sy i ch = RunCrash.
Proof. exact double_free. Qed.
Print Assumptions C33_key_freed_twice_refuted.

Example C30_C31_C33_nontrivial :
  (exists h, returns exchange_call 31 9 h OK /\ calm exchange_call h /\
     made_handles h = [(SKeys 1, 27); (SKeys 1, 28); (SKeys 1, 29)]) /\
  (exists h, returns exchange_call 31 9 h INTERNAL_ERROR /\
     made_handles h = [(SKeys 1, 28); (SKeys 1, 29)] /\ undone_handles h = [(SKeys 1, 29); (SKeys 1, 28)]) /\
  (exists h, returns (KCipherInit A_CTR DECRYPT 31 OK OK) 31 9 h OPERATION_NOT_ALLOWED /\
     made_handles h = [] /\ out_value h VContext = Some INVALID_HANDLE).
Proof. exact (conj exchange_case (conj exchange_failed refused_case)). Qed.

(** C06 refuted: processing with a buffer of unknown type returns with the client and the
    context still referenced and the context locked; closing the client then waits for ever. *)
Theorem C06_unknown_buffer_type_leaks_refuted :
  exists sy i slot u h s c p, done sy i bad_process slot u h s /\ s <> OK /\
  refs h SClients slot c = 1 /\ refs h (SCiphers c) 31 p = 1 /\ locks h p = 1 /\
  exists t, run_step (MkSystem (s_world sy) (s_threads sy ++ [t])) (length (s_threads sy)) fine = RunBlocked /\
            t = start KClose slot u.
Proof. exact leak. Qed.
Print Assumptions C06_unknown_buffer_type_leaks_refuted.

(** C42.  A cipher context comes into being only for a key of the kind and size its
    algorithm requires, a MAC context likewise. *)
Theorem C42_cipher_key_fits : forall k slot u s p ci v h, issues k slot u (CAdd s p (OCipher ci) v) h ->
  exists key, by_handle h (ci_key ci) key /\ cipher_key (ci_alg ci) key.
Proof. exact add_cipher_fits. Qed.
Print Assumptions C42_cipher_key_fits.
Theorem C42_mac_key_fits : forall k slot u s p m v h, issues k slot u (CAdd s p (OMac m) v) h ->
  exists key q, In (ENew (OMacState (MkMacState key false)) (Some (mc_ctx m))) h /\ by_handle h q key /\
    mac_key (mc_alg m) key.
Proof. exact add_mac_fits. Qed.
Print Assumptions C42_mac_key_fits.
Example C42_nontrivial : exists h s p ci, issues (KCipherInit A_CTR DECRYPT 31 OK OK) 31 9 (CAdd s p (OCipher ci) 9) h.
Proof. exact context_case. Qed.

(** C19.  A successful release of a secure buffer has removed the handle and hands back the
    memory and size the buffer had.  Missing: two releases of the same buffer at the same
    time. *)
Theorem C19_release_removes_partial : forall x slot u h,
  returns (KSvpRelease x) slot u h OK -> (forall p, ~ In (ESvp p None) h) ->
  exists c p b, In (EAcquire SClients slot u (Got c)) h /\ In (EAcquire (SSvps c) x u (Got p)) h /\
    In (ESvp p (Some b)) h /\ out_value h VMemory = Some (sb_memory b) /\ out_value h VSize = Some (sb_size b) /\
    In (ERemove (SSvps c) x u OK) h.
Proof. exact svp_release_removes. Qed.
Print Assumptions C19_release_removes_partial.

Example C19_nontrivial : exists h, returns (KSvpRelease 31) 31 9 h OK /\ calm (KSvpRelease 31) h /\
  In (ERemove (SSvps 1) 31 9 OK) h /\ out_value h VMemory = Some 5000 /\ out_value h VSize = Some 64.
Proof. exact release_case. Qed.

(** C19 refuted: of two simultaneous releases one returns success with the buffer's entry
    still there, referenced and locked by the finished call, and the other waits for ever. *)
Theorem C19_simultaneous_release_refuted :
  exists sy slot u h1 h2 c, done sy 3 (KSvpRelease 31) slot u h1 OK /\
  doing sy 2 (KSvpRelease 31) slot u h2 (CRemove (SSvps c) 31 u) /\
  (exists st p, w_stores (s_world sy) (SSvps c) = Some st /\ view st 31 = Some (p, u, 1) /\
                w_heap (s_world sy) p = Some (OSvp None) /\ w_mutex (s_world sy) = [(p, 3%nat)]) /\
  forall ch, run_step sy 2 ch = RunBlocked.
Proof. exact release_race. Qed.
Print Assumptions C19_simultaneous_release_refuted.

(** C39.  Releasing a key or a context has destroyed what the handle named. *)
Theorem C39_release_removes : forall k slot u h, returns k slot u h OK -> released k 0 <> None ->
  exists c s x, In (EAcquire SClients slot u (Got c)) h /\ released k c = Some (s, x) /\ In (ERemove s x u OK) h.
Proof. exact release_removes. Qed.
Print Assumptions C39_release_removes.

Example C39_nontrivial : exists h, returns (KCipherRelease 31) 31 9 h OK.
Proof. exact cipher_release_case. Qed.

(** C40.  A call gives back only what it holds, waits only for what it does not hold, frees
    only what it owns, and reads or writes shared objects only while holding their reference
    and lock; it never follows a NULL pointer.  Missing: the situations outside [calm]. *)
Theorem C40_calls_in_order_partial : forall k slot u c h, issues k slot u c h -> calm k h -> in_order h c.
Proof. exact order_steps. Qed.
Print Assumptions C40_calls_in_order_partial.

Example C40_nontrivial : exists h p key,
  issues process 31 9 (CUse p key RDecrypt PClear PClear) h /\ calm process h /\ length h = 7%nat.
Proof. exact order_case. Qed.

(** C40 refuted: checking a secure buffer while it is released follows a NULL pointer. *)
Theorem C40_null_buffer_refuted : exists sy i k slot u h, doing sy i k slot u h CFault.
Proof. exact null_buffer. Qed.
Print Assumptions C40_null_buffer_refuted.
