(** Type-J key containers: property theorems. *)
From Verif Require Import Base M_ObjectStore M_Memory M_Rights M_Mac M_KeyStore M_Unwrap M_Json M_TypeJ
  S_Bytes S_Rights S_Mac S_Unwrap S_Json S_TypeJ P_TypeJ2 P_TypeJ3 P_Unwrap.

(** A key that comes out of a container was put there by the holder of the MAC key, has the
    rights the container states (cut down to those of the wrapping key) and is the plaintext of
    the content key.  (The bytes that are base64 may depend on up to three characters that are
    not in the container: see below.) *)
Theorem C50_genuine : forall J e, good_jlib J -> good_surroundings e ->
  forall input wmac wenc now k, honest (j_ulib J) wenc -> zlen input < 2 ^ 30 - 4 -> import_typej J e input wmac wenc now = Made k ->
  may_sign wmac now /\ (k_type wmac = 0 /\ 16 <= k_size wmac <= 512) /\
  exists header payload mac fs r alg, three_parts input header payload mac /\ genuine J header payload mac wmac /\ states J payload fs /\
    stated_rights J (some_content (j_bio J)) fs r /\
    exists encrypted bytes, stated_transport (some_content (j_bio J)) fs alg /\ stated_key (some_content (j_bio J)) fs encrypted /\
      unwrappable (j_ulib J) alg r 0 None wenc now encrypted bytes /\ stated_length fs (zlen bytes) /\
      key_made (j_ulib J) r wenc 0 None bytes k.
Proof. exact import_sound. Qed.
Print Assumptions C50_genuine.
Example C50_genuine_case : good_case plain_fields /\ zlen (toy_container toy_head (toy_wrapping 0 16)) < 2 ^ 30 - 4 /\
  exists k, toy_import plain_fields toy_head no_junk = Made k /\ k_size k = 16.
Proof. split; [apply toy_case; short_texts|]. split; [vm_compute; reflexivity|]. eexists. split; vm_compute; reflexivity. Qed.

(** A genuine container that states all that is needed, in padded base64, is imported. *)
Theorem C50_accepted : forall J e, good_jlib J -> good_surroundings e ->
  forall input wmac wenc now header payload mac hd fs r alg enc bytes, no_failure e -> honest (j_ulib J) wenc -> zlen input < 2 ^ 30 - 4 ->
  may_sign wmac now -> k_type wmac = 0 /\ 16 <= k_size wmac <= 512 ->
  three_parts input header payload mac -> url_content (j_bio J) header hd -> genuine J header payload mac wmac -> states J payload fs ->
  short_names (JObject fs) = true -> known_tas fs -> stated_rights J (padded_content (j_bio J)) fs r ->
  stated_transport (padded_content (j_bio J)) fs alg -> stated_key (padded_content (j_bio J)) fs enc ->
  unwrappable (j_ulib J) alg r 0 None wenc now enc bytes -> stated_length fs (zlen bytes) ->
  exists k, import_typej J e input wmac wenc now = Made k.
Proof. exact import_complete. Qed.
Print Assumptions C50_accepted.
Example C50_accepted_case : exists hd r alg enc bytes payload mac, let J := toy_jlib plain_fields in let w := toy_wrapping 0 16 in
  good_jlib J /\ good_surroundings (toy_e no_junk) /\ no_failure (toy_e no_junk) /\ honest (j_ulib J) w /\ zlen (toy_container toy_head w) < 2 ^ 30 - 4 /\
  may_sign w 5 /\ three_parts (toy_container toy_head w) toy_head payload mac /\ url_content (j_bio J) toy_head hd /\
  genuine J toy_head payload mac w /\ states J payload plain_fields /\ short_names (JObject plain_fields) = true /\ known_tas plain_fields /\
  stated_rights J (padded_content (j_bio J)) plain_fields r /\ stated_transport (padded_content (j_bio J)) plain_fields alg /\
  stated_key (padded_content (j_bio J)) plain_fields enc /\ unwrappable (j_ulib J) alg r 0 None w 5 enc bytes /\ stated_length plain_fields (zlen bytes).
Proof. exact toy_accept_case. Qed.

(** A usage that is not a number counts as 0, every usage. *)
Theorem C50_usage_type_refuted : exists J e input wmac wenc now fs k text, accepted J e input wmac wenc now fs k /\ says fs "contentKeyUsage" (JString text) /\
  has_flag (k_rights k) 1 /\ has_flag (k_rights k) 2 /\ has_flag (k_rights k) 3 /\ has_flag (k_rights k) 4 /\ has_flag (k_rights k) 5.
Proof. exact usage_type. Qed.
Print Assumptions C50_usage_type_refuted.
(** A key that expired one second before 1970 does not expire. *)
Theorem C50_expiry_refuted : exists J e input wmac wenc now fs k text, accepted J e input wmac wenc now fs k /\ says fs "contentKeyNotOnOrAfter" (JString text) /\
  j_time J text = Some (-1) /\ r_not_on_or_after (k_rights k) = 2 ^ 64 - 1.
Proof. exact expiry_wraps. Qed.
Print Assumptions C50_expiry_refuted.
(** A TA identifier that is not one is accepted as some other identifier. *)
Theorem C50_ta_text_refuted : exists J e input wmac wenc now fs k text, accepted J e input wmac wenc now fs k /\ says fs "entitledTaIds" (JArray [JString text]) /\
  (forall id, ~ uuid_text text id) /\ hd 0 (r_tas (k_rights k)) <> 0.
Proof. exact ta_malformed. Qed.
Print Assumptions C50_ta_text_refuted.
(** Unpadded base64 is completed with what was left in memory, which then decides. *)
Theorem C50_leftover_refuted : exists J e e' input wmac wenc now fs k, accepted J e input wmac wenc now fs k /\ good_surroundings e' /\ same_but_junk e e' /\
  import_typej J e' input wmac wenc now = Failed (Refused INVALID_KEY_FORMAT).
Proof. exact junk_decides. Qed.
Print Assumptions C50_leftover_refuted.

(** Containers in which every base64 text is one and the fields have the right types do no
    harm: a key or a reported failure. *)
Theorem C51_typej_partial : forall J e, good_jlib J -> good_surroundings e -> no_failure e ->
  forall input wmac wenc now, honest (j_ulib J) wenc -> zlen input < 2 ^ 30 - 4 ->
  (forall header payload mac, three_parts input header payload mac -> tidy J header payload mac) ->
  match import_typej J e input wmac wenc now with Made _ => True | Failed i => harmless i end.
Proof. exact import_safe. Qed.
Print Assumptions C51_typej_partial.
Example C51_tidy_case : exists payload mac, three_parts (toy_container toy_head (toy_wrapping 0 16)) toy_head payload mac /\ tidy (toy_jlib plain_fields) toy_head payload mac.
Proof. exact toy_tidy. Qed.

(** A header that is not base64 makes the library release memory twice, before the MAC is
    checked: no key is needed for that. *)
Theorem C51_typej_header_refuted : forall J e, good_jlib J -> no_failure e ->
  forall input wmac wenc now header payload mac, three_parts input header payload mac -> mac <> [] -> (forall d, ~ url_content (j_bio J) header d) ->
  may_sign wmac now -> k_type wmac = 0 /\ 16 <= k_size wmac <= 512 -> may_unwrap wenc now -> k_type wenc = 0 /\ (k_size wenc = 16 \/ k_size wenc = 32) ->
  import_typej J e input wmac wenc now = Failed DoubleFree.
Proof. exact header_twice. Qed.
Print Assumptions C51_typej_header_refuted.
Example C51_header_case : toy_import plain_fields (txt "!!") no_junk = Failed DoubleFree /\ forall d, ~ url_content base64 (txt "!!") d.
Proof.
  split; [vm_compute; reflexivity|]. intros d (k & Hk & M & B). revert M B.
  destruct k as [|[|[|[|k]]]]; try discriminate.
Qed.
(** Genuine containers: a content key that is not base64, a TA list that is not a list. *)
Theorem C51_typej_key_refuted : harmful DoubleFree.
Proof. exact key_harm. Qed.
Print Assumptions C51_typej_key_refuted.
Theorem C51_typej_iv_refuted : harmful_iv DoubleFree.
Proof. exact iv_harm. Qed.
Print Assumptions C51_typej_iv_refuted.
Theorem C51_typej_tas_refuted : harmful BadAccess.
Proof. exact tas_harm. Qed.
Print Assumptions C51_typej_tas_refuted.
