(** SoC key containers: property theorems. *)
From Verif Require Import Base M_ObjectStore M_Memory M_Rights M_Mac M_KeyStore M_Kdf M_Unwrap M_Json M_TypeJ M_Soc
  S_Bytes S_Rights S_Mac S_Unwrap S_Json S_TypeJ S_Soc P_TypeJ3 P_Soc2 P_Soc3 P_Soc4 P_Soc5.

(** A key that comes out of a container is the plaintext of its encrypted key, authenticated
    together with everything that decides about it by a key only the device has; its type,
    size, usage and TAs are those stated, its identifier is the caller's. *)
Theorem C52_genuine : forall J e v, good_jlib J -> good_surroundings e -> good_soc v ->
  forall input parameters k, zlen input < 2 ^ 30 - 4 -> import_soc J e v input parameters = Made k ->
  good_parameters parameters /\
  exists header payload mac hs fs tag p, three_parts input header payload mac /\ url_content (j_bio J) mac tag /\ zlen tag <= 16 /\
    states J header hs /\ says hs "alg" (JString (txt "A128GCM")) /\ states J payload fs /\ says_somehow J v fs p /\ usable p /\ y_type p <> [] /\
    exists name t bytes, In (name, t) key_types /\ taken_for v (y_type p) name /\ (y_usage p = 2 -> snd (fst t) <> 2) /\
      authentic J v p tag bytes /\ right_size (j_ulib J) t bytes /\ made_of parameters p t bytes k.
Proof. exact soc_sound. Qed.
Print Assumptions C52_genuine.
(** If nobody but the provisioner can make what decrypts on the device, every key imported is
    one the provisioner sealed, with the type, usage and TAs the provisioner stated - however
    loosely the fields are read. *)
Theorem C52_sealed : forall J e v, good_jlib J -> good_surroundings e -> good_soc v ->
  forall sealed input parameters k, unforgeable J v sealed -> zlen input < 2 ^ 30 - 4 -> import_soc J e v input parameters = Made k ->
  exists q t bytes, sealed q t bytes /\ right_size (j_ulib J) t bytes /\ made_of parameters q t bytes k.
Proof. exact soc_sealed. Qed.
Print Assumptions C52_sealed.
Example C52_genuine_case : exists k, good_jlib (soc_jlib one_gcm toy_fs) /\ good_surroundings (toy_e no_junk) /\ good_soc (toy_soc false) /\
  zlen (soc_input (repeat 3 16)) < 2 ^ 30 - 4 /\ soc_toy one_gcm toy_fs false (repeat 3 16) = Made k /\ k_size k = 16 /\ k_bytes k = repeat 1 16 /\
  unforgeable (soc_jlib one_gcm toy_fs) (toy_soc false) toy_sealed.
Proof. exact soc_genuine_case. Qed.

(** A container that states all that is needed in the documented way is imported. *)
Theorem C52_accepted : forall J e v, good_jlib J -> good_surroundings e -> good_soc v -> no_failure e -> soc_works v ->
  forall input parameters header payload mac hs fs tag p t bytes, zlen input < 2 ^ 30 - 4 -> good_parameters parameters ->
  three_parts input header payload mac -> mac <> [] -> url_content (j_bio J) mac tag -> zlen tag <= 16 ->
  states J header hs -> short_names (JObject hs) = true -> says hs "alg" (JString (txt "A128GCM")) ->
  states J payload fs -> short_names (JObject fs) = true -> says_plainly J fs p -> documented p t ->
  authentic J v p tag bytes -> right_size (j_ulib J) t bytes ->
  exists k, import_soc J e v input parameters = Made k /\ made_of parameters p t bytes k.
Proof. exact soc_complete. Qed.
Print Assumptions C52_accepted.
Example C52_accepted_case : soc_works (toy_soc false) /\ no_failure (toy_e no_junk) /\ three_parts (soc_input (repeat 3 16)) soc_header soc_body (encode (repeat 3 16)) /\
  states (soc_jlib one_gcm toy_fs) soc_header soc_head /\ says soc_head "alg" (JString (txt "A128GCM")) /\ states (soc_jlib one_gcm toy_fs) soc_body toy_fs /\
  short_names (JObject toy_fs) = true /\ says_plainly (soc_jlib one_gcm toy_fs) toy_fs toy_p /\ documented toy_p aes /\
  authentic (soc_jlib one_gcm toy_fs) (toy_soc false) toy_p (repeat 3 16) (repeat 1 16).
Proof.
  split; [apply toy_works|]. split; [apply toy_quiet|]. split; [apply soc_three|]. split; [apply soc_states_head|]. split; [apply soc_says_alg|].
  split; [apply soc_states_body|]. split; [vm_compute; reflexivity|]. split; [now apply toy_says|]. split; [apply toy_documented|].
  eexists. split; [eexists; do 2 eexists; repeat split|]. vm_compute. reflexivity.
Qed.

(** The tag may be cut to one byte: whatever is stated, one of 256 containers is imported,
    without any key of the provisioner.  (The key has unknown bytes, but the usage and the TAs
    are those of the forger.) *)
Theorem C52_short_tag_refuted : forall J e v, good_jlib J -> good_surroundings e -> good_soc v -> no_failure e -> soc_works v ->
  forall parameters header payload hs fs p t (text : Z -> list Z), cuts_tags (j_ulib J) -> (forall root, v_root v root <> None) ->
  (forall b, 0 <= b < 256 -> url_content (j_bio J) (text b) [b] /\ text b <> []) ->
  (forall b, 0 <= b < 256 -> zlen (header ++ [46] ++ payload ++ [46] ++ text b) < 2 ^ 30 - 4) -> ~ In 46 header -> ~ In 46 payload ->
  good_parameters parameters -> states J header hs -> short_names (JObject hs) = true -> says hs "alg" (JString (txt "A128GCM")) ->
  states J payload fs -> short_names (JObject fs) = true -> says_plainly J fs p -> documented p t ->
  (forall bytes, zlen bytes = zlen (y_key p) -> right_size (j_ulib J) t bytes) ->
  exists b bytes k, 0 <= b < 256 /\ import_soc J e v (header ++ [46] ++ payload ++ [46] ++ text b) parameters = Made k /\ made_of parameters p t bytes k.
Proof. exact short_tag. Qed.
Print Assumptions C52_short_tag_refuted.
Example C52_short_tag_case : cuts_tags (j_ulib (soc_jlib cut_gcm toy_fs)) /\ good_jlib (soc_jlib cut_gcm toy_fs) /\
  (forall b, 0 <= b < 256 -> url_content base64 (encode [b]) [b] /\ encode [b] <> []) /\
  (forall bytes, zlen bytes = zlen (y_key toy_p) -> right_size (j_ulib (soc_jlib cut_gcm toy_fs)) aes bytes) /\
  says_plainly (soc_jlib cut_gcm toy_fs) toy_fs toy_p /\ documented toy_p aes /\
  exists k, soc_toy cut_gcm toy_fs false [104] = Made k.
Proof.
  split; [apply cut_cuts|]. split; [apply soc_jgood; [apply cut_length|apply toy_texts]|]. split; [apply one_byte|]. split; [intros bytes H; exact H|].
  split; [now apply toy_says|]. split; [apply toy_documented|]. eexists. vm_compute. reflexivity.
Qed.

(** Containers that are tidy do no harm. *)
Theorem C51_soc_partial : forall J e v, good_jlib J -> good_surroundings e -> good_soc v -> no_failure e -> no_failure (v_header v) ->
  forall input parameters, zlen input < 2 ^ 30 - 4 ->
  (forall header payload mac fs, three_parts input header payload mac -> states J payload fs -> soc_tidy J v fs) ->
  match import_soc J e v input parameters with Made _ => True | Failed i => harmless i end.
Proof. exact soc_safe. Qed.
Print Assumptions C51_soc_partial.
Example C51_soc_case : three_parts (soc_input (repeat 3 16)) soc_header soc_body (encode (repeat 3 16)) /\ states (soc_jlib one_gcm toy_fs) soc_body toy_fs /\
  forall fs, states (soc_jlib one_gcm toy_fs) soc_body fs -> soc_tidy (soc_jlib one_gcm toy_fs) (toy_soc true) fs.
Proof. split; [apply soc_three|]. split; [apply soc_states_body|exact soc_tidy_case]. Qed.

(** Others do, and whoever makes them needs no key: an IV or a key ladder input that is too
    long, too many TAs, a long key type, a key that is not base64. *)
Theorem C51_soc_iv_refuted : soc_harmful long_iv false BadAccess.
Proof. exact iv_harm. Qed.
Print Assumptions C51_soc_iv_refuted.
Theorem C51_soc_ladder_refuted : soc_harmful long_c1 false BadAccess.
Proof. exact c1_harm. Qed.
Print Assumptions C51_soc_ladder_refuted.
Theorem C51_soc_tas_refuted : soc_harmful many_tas false BadAccess.
Proof. exact socta_harm. Qed.
Print Assumptions C51_soc_tas_refuted.
Theorem C51_soc_type_refuted : soc_harmful long_type false BadAccess.
Proof. exact type_harm. Qed.
Print Assumptions C51_soc_type_refuted.
Theorem C51_soc_key_refuted : soc_harmful bad_key false DoubleFree.
Proof. exact enckey_harm. Qed.
Print Assumptions C51_soc_key_refuted.
(** A documented container is compared beyond the end of the names of shorter key types. *)
Theorem C51_soc_overread_refuted : soc_harmful all_documented true BadAccess.
Proof. exact overread_harm. Qed.
Print Assumptions C51_soc_overread_refuted.
