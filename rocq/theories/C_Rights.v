(** C09, C10, C11 (the individual checks; the calls are in C_Api.v), C12 (child keys),
    C27 (key sizes), C38 (usage words of key containers).
    Rights words are meant as in S_Rights.v. *)
From Verif Require Import Base M_ObjectStore M_Rights S_Rights P_Rights.

(** C09: the time check accepts exactly the validity window. *)
Theorem C09_window_check_exact : forall r t, rights_allowed_time r t = true <-> in_window r t.
Proof. exact allowed_time_iff. Qed.
Print Assumptions C09_window_check_exact.
Example C09_window_case :
  let r := MkRights (repeat 0 64) 0 0 100 200 [] in
  map (rights_allowed_time r) [99; 100; 199; 200] = [false; true; true; false].
Proof. vm_compute. reflexivity. Qed.

(** C11: the allow list check accepts exactly the callers the list names. *)
Theorem C11_allow_list_exact : forall r u, rights_allowed_uuid r u = true <-> listed r u.
Proof. exact allowed_uuid_iff. Qed.
Print Assumptions C11_allow_list_exact.
Example C11_list_case :
  let r tas := MkRights (repeat 0 64) 0 0 0 0 tas in
  rights_allowed_uuid (r [0; 5; 0; 9]) 9 = true /\ rights_allowed_uuid (r [0; 5; 0; 9]) 0 = false /\
  rights_allowed_uuid (r [0; ALL_MATCH]) 7 = true /\ rights_allowed_uuid (r [0; 5]) 7 = false.
Proof. vm_compute. repeat split. Qed.

(** C10: the output check accepts exactly when every active output the platform
    interface reports is permitted. *)
Theorem C10_outputs_check_exact_partial : forall r v,
  rights_allowed_video r v = true <-> outputs_permitted r v.
Proof. exact allowed_video_iff. Qed.
Print Assumptions C10_outputs_check_exact_partial.
Example C10_outputs_case :
  let r u := MkRights (repeat 0 64) u 0 0 0 [] in
  let v := MkVideo 0 0 0 0 1 true in
  rights_allowed_video (r (2 ^ 10)) v = true /\ rights_allowed_video (r (2 ^ 9)) v = false.
Proof. vm_compute. repeat split. Qed.

(** C10 is false for DTCP: no check can refuse an output of which the poll does not
    tell, and none looks at the DTCP flag. *)
Theorem C10_dtcp_output_not_gated_refuted : exists r o now,
  ~ all_outputs_permitted r o /\
  rights_allowed_decrypt r KT_SYMMETRIC now (Some (o_video o)) = true.
Proof. exact dtcp_not_gated. Qed.
Print Assumptions C10_dtcp_output_not_gated_refuted.

(** C08, C09, C10: what the combined checks decide. *)
Theorem C08_flag_and_time_check_exact : forall f r t, 0 <= f ->
  (rights_allowed_flag_time f r t = true <-> has_flag r f /\ in_window r t).
Proof. exact flag_time_iff. Qed.
Print Assumptions C08_flag_and_time_check_exact.
Theorem C08_cipher_check_exact : forall f r kt t p, 0 <= f ->
  (rights_allowed_crypt f r kt t p = true <->
   has_flag r f /\ in_window r t /\
   (kt = KT_SYMMETRIC -> exists v, p = Some v /\ outputs_permitted r v)).
Proof. exact crypt_iff. Qed.
Print Assumptions C08_cipher_check_exact.
Theorem C08_operation_checks_exact : forall r now,
  (rights_allowed_exchange r now = true <-> has_flag r 0 /\ in_window r now) /\
  (rights_allowed_derive r now = true <-> has_flag r 1 /\ in_window r now) /\
  (rights_allowed_unwrap r now = true <-> has_flag r 2 /\ in_window r now) /\
  (rights_allowed_sign r now = true <-> has_flag r 5 /\ in_window r now).
Proof. exact operations_iff. Qed.
Print Assumptions C08_operation_checks_exact.
Theorem C08_encrypt_decrypt_exact : forall r kt now p,
  (rights_allowed_encrypt r kt now p = true <->
   has_flag r 3 /\ in_window r now /\ (kt = 0 -> exists v, p = Some v /\ outputs_permitted r v)) /\
  (rights_allowed_decrypt r kt now p = true <->
   has_flag r 4 /\ in_window r now /\ (kt = 0 -> exists v, p = Some v /\ outputs_permitted r v)).
Proof. exact ciphers_iff. Qed.
Print Assumptions C08_encrypt_decrypt_exact.
Example C08_cipher_case :
  let r u := MkRights (repeat 0 64) u 0 0 1000 [] in
  rights_allowed_decrypt (r (2 ^ 4 + 2 ^ 10)) 0 5 (Some (MkVideo 0 0 0 0 1 true)) = true /\
  rights_allowed_encrypt (r (2 ^ 4 + 2 ^ 10)) 0 5 (Some (MkVideo 0 0 0 0 1 true)) = false /\
  rights_allowed_decrypt (r (2 ^ 4)) KT_RSA 5 None = true.
Proof. vm_compute. repeat split. Qed.

(** C12 is false: a parent with only UNWRAP set (and child flags) passes on output
    flags it does not have. *)
Theorem C12_child_gains_output_flag_refuted : exists parent child,
  unwrap_only parent /\ ~ has_flag parent F_SVP_OPTIONAL /\
  has_flag (restrict_child_rights child (Some parent)) F_SVP_OPTIONAL.
Proof. exact child_gains_output_flag. Qed.
Print Assumptions C12_child_gains_output_flag_refuted.
(** C12 is false: child flags of zero, which permit no usage, restrict nothing. *)
Theorem C12_zero_child_flags_ignored_refuted : exists parent child,
  unwrap_only parent /\ r_child_usage parent = 0 /\
  has_flag (restrict_child_rights child (Some parent)) F_DECRYPT.
Proof. exact child_flags_zero_ignored. Qed.
Print Assumptions C12_zero_child_flags_ignored_refuted.

(** C12, the part that holds: with any other parent the child loses exactly the output
    flags the parent lacks.  Missing: parents with only UNWRAP and child flags. *)
Theorem C12_output_flags_inherited_partial : forall c p f,
  ~ (unwrap_only p /\ r_child_usage p <> 0) -> 0 <= f ->
  (has_flag (restrict_child_rights c (Some p)) f <->
   has_flag c f /\ (is_output_flag f -> has_flag p f)).
Proof. exact restrict_outputs. Qed.
Print Assumptions C12_output_flags_inherited_partial.
(** C12, the part that holds: non-zero child flags of an unwrap-only parent limit the
    usage flags of the child exactly.  Missing: child flags equal to zero. *)
Theorem C12_child_flags_applied_partial : forall c p f,
  unwrap_only p -> r_child_usage p <> 0 -> 0 <= f ->
  (has_flag (restrict_child_rights c (Some p)) f <->
   has_flag c f /\ (is_usage_flag f -> Z.testbit (r_child_usage p) f = true)).
Proof. exact restrict_children. Qed.
Print Assumptions C12_child_flags_applied_partial.
(** C12: no flag is ever added and nothing but the usage flags changes. *)
Theorem C12_nothing_added : forall c p f, 0 <= f ->
  has_flag (restrict_child_rights c p) f -> has_flag c f.
Proof. exact restrict_never_adds. Qed.
Print Assumptions C12_nothing_added.
Theorem C12_rest_unchanged : forall c p, same_but_usage (restrict_child_rights c p) c.
Proof. exact restrict_rest. Qed.
Print Assumptions C12_rest_unchanged.
Example C12_case :
  r_usage (restrict_child_rights (all_rights (2 ^ 14 - 1) 0) (Some (all_rights (2 + 2 ^ 10) 0))) =
  2 ^ 14 - 1 - (2 ^ 6 + 2 ^ 7 + 2 ^ 8 + 2 ^ 9 + 2 ^ 11 + 2 ^ 12) /\
  r_usage (restrict_child_rights (all_rights (2 ^ 14 - 1) 0) (Some (all_rights 4 (2 + 16)))) =
  2 ^ 14 - 1 - (1 + 4 + 8 + 32).
Proof. vm_compute. repeat split. Qed.

(** C27: key creation succeeds exactly for allowed sizes and terminated identifiers,
    and a created key has the type, size, parameters and bytes asked for. *)
Theorem C27_creation_iff_allowed : forall r parent t ps s b, length (r_id r) = 64%nat ->
  (fst (stored_key_create (Some r) parent t ps s (Some b) true) = OK <->
   size_allowed t (p_curve ps) s /\ id_terminated r).
Proof. exact create_iff. Qed.
Print Assumptions C27_creation_iff_allowed.
Theorem C27_created_key_allowed : forall r parent t ps s b alloc k,
  length (r_id r) = 64%nat ->
  stored_key_create (Some r) parent t ps s (Some b) alloc = (OK, Some k) ->
  size_allowed (k_type k) (p_curve (k_params k)) (k_size k) /\ id_terminated (k_rights k) /\
  k_type k = t /\ k_params k = ps /\ k_size k = s /\ k_bytes k = b /\
  k_rights k = restrict_child_rights r parent.
Proof. exact create_ok. Qed.
Print Assumptions C27_created_key_allowed.
Example C27_case :
  let mk t c s := fst (stored_key_create (Some (all_rights 63 0)) None t (MkParams c ([], [])) s (Some [1]) true) in
  mk KT_SYMMETRIC 0 16 = OK /\ mk KT_SYMMETRIC 0 15 = INVALID_PARAMETER /\ mk KT_EC 2 66 = OK /\
  mk KT_EC 2 65 = INVALID_PARAMETER /\ mk KT_RSA 0 257 = INVALID_PARAMETER /\ mk KT_DH 0 512 = OK.
Proof. vm_compute. repeat split. Qed.

(** C38: the usage word of a key container decides exactly the six usage flags and
    leaves the others; an unknown word is refused. *)
Theorem C38_usage_word_exact : forall u ku kt sub f, 0 <= f -> 0 <= ku <= 3 ->
  snd (key_usage_to_usage_flags u ku kt sub) = OK /\
  Z.testbit (fst (key_usage_to_usage_flags u ku kt sub)) f =
  (if f <=? 5 then usage_table ku kt sub f else Z.testbit u f).
Proof. exact usage_flags_table. Qed.
Print Assumptions C38_usage_word_exact.
Theorem C38_unknown_usage_word_refused : forall u ku kt sub, ~ (0 <= ku <= 3) ->
  snd (key_usage_to_usage_flags u ku kt sub) = INVALID_KEY_FORMAT.
Proof. exact usage_flags_other. Qed.
Print Assumptions C38_unknown_usage_word_refused.
Example C38_case :
  fst (key_usage_to_usage_flags (2 ^ 12 + 63) 1 KT_EC 2) = 2 ^ 12 + 1 + 2 + 32 /\
  fst (key_usage_to_usage_flags (2 ^ 12 + 63) 2 KT_EC 0) = 2 ^ 12 + 4.
Proof. vm_compute. repeat split. Qed.
