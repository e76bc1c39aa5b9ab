(** C65: signatures made and verified with the OpenSSL provider.  [L] is OpenSSL behind the API, [V]
    the verification of OpenSSL in the caller's process, [c] a context, [k] the key behind the handle
    of the key data [kd], [local] the bytes of a local buffer before the call. *)
From Verif Require Import Base S_Bytes M_Rights M_Mac M_Unwrap M_Asym S_Rights S_Asym P_Kdf P_Unwrap P_Asym P_Asym2 M_ProvSign S_ProvSign P_ProvSign P_ProvSignRuns.

(** A signature over a digest is of the settings of the context: digest, padding, digest of MGF1
    and length of the salt; ECDSA signatures are DER.  Missing: digests that the API does not have,
    PSS without a digest for MGF1, PSS when OpenSSL fails or the digest has the wrong length. *)
Theorem C65_valid_partial : forall L c k kd d now buf tbs local coins answer buf' n,
  good_alib L -> well_formed L k -> data_of L k kd -> c_key c = Some kd -> c_md c = Some d -> known_digest d ->
  (uses_pss c k -> answer = true /\ whole L k /\ zlen tbs = digest_length d /\ mgf1_settled c d /\ int_salt c) ->
  signature_sign L c now (Some buf) (Bytes tbs) local coins answer = Signed true buf' n ->
  may_sign k now /\ exists sig, buf' = sig ++ skipn (length sig) buf /\ n = Some (zlen sig) /\ zlen sig <= zlen buf /\ as_asked L c k d tbs sig.
Proof. exact sign_valid. Qed.
Print Assumptions C65_valid_partial.
Example C65_valid_case : good_alib mlib /\ well_formed mlib rsa_pair /\ data_of mlib rsa_pair (kd_of rsa_pair) /\
  let c := set_up rsa_pair (Name (Some 2)) (pss (Some 1) (-2)) in uses_pss c rsa_pair /\ mgf1_settled c 2 /\ int_salt c /\
  exists buf, signature_sign mlib c 5 (Some (repeat 0 260)) (Bytes (repeat 3 48)) junk 0 true = Signed true buf (Some 256) /\ skipn 256 buf = [0; 0; 0; 0].
Proof.
  split; [exact mlib_good|]. split; [exact rsa_pair_ok|]. split; [exact (kd_of_ok _ rsa_pair_ok)|]. cbv zeta. split; [split; reflexivity|].
  split; [cbn; tauto|]. split; [split; (discriminate || reflexivity)|]. eexists. split; vm_compute; reflexivity.
Qed.

(** The size asked for first is big enough, and with a buffer of that size every signature that the
    settings allow is made. *)
Theorem C65_announced_partial : forall L c k kd d now tbs local coins answer, good_alib L -> well_formed L k -> whole L k -> data_of L k kd ->
  c_key c = Some kd -> c_md c = Some d -> known_digest d -> (uses_pss c k -> mgf1_settled c d \/ c_mgf1 c = None) -> can_sign c k d -> may_sign k now ->
  signature_sign L c now None tbs local coins answer = Signed true [] (Some (announced k)).
Proof. exact sign_announced. Qed.
Print Assumptions C65_announced_partial.
Theorem C65_complete_partial : forall L c k kd d now buf tbs local coins, good_alib L -> well_formed L k -> whole L k -> data_of L k kd ->
  c_key c = Some kd -> c_md c = Some d -> known_digest d -> (uses_pss c k -> mgf1_settled c d \/ c_mgf1 c = None) -> can_sign c k d -> may_sign k now ->
  zlen tbs = digest_length d -> zlen local = 512 -> announced k <= zlen buf ->
  exists buf' n, signature_sign L c now (Some buf) (Bytes tbs) local coins true = Signed true buf' (Some n).
Proof. exact sign_succeeds. Qed.
Print Assumptions C65_complete_partial.
Example C65_complete_case : well_formed mlib ec_pair /\ whole mlib ec_pair /\
  let c := set_up ec_pair (Name (Some 1)) no_sparams in can_sign c ec_pair 1 /\ may_sign ec_pair 5 /\ announced ec_pair = 73 /\
  signature_sign mlib c 5 None (Bytes []) junk 0 true = Signed true [] (Some 73).
Proof.
  split; [exact ec_pair_ok|]. split; [discriminate|]. cbv zeta. split; [left; split; [reflexivity|]; split; [left; reflexivity|apply sz_ec; cbn; tauto]|].
  split; [apply may_sign_toy|]. split; vm_compute; reflexivity.
Qed.

(** Verification accepts exactly the signatures that the settings ask for; for EC keys among the
    well formed DER structures. *)
Theorem C65_accepts : forall L V c k kd d msg sig, good_vlib L V -> well_formed L k -> public_of L k kd -> c_key c = Some kd -> c_md c = Some d -> In (c_pad c) [1; 6] ->
  (k_type k = 1 -> exists r s, ecdsa_der r s sig) -> (signature_verify V c sig msg = true <-> as_asked L c k d msg sig).
Proof. exact verify_iff. Qed.
Print Assumptions C65_accepts.
Example C65_accepts_case : good_vlib mlib mverify /\ public_of mlib rsa_pair (kd_of rsa_pair) /\
  let c := set_up rsa_pair (Name (Some 1)) no_sparams in c_key c = Some (kd_of rsa_pair) /\ c_md c = Some 1 /\ In (c_pad c) [1; 6] /\
  signature_verify mverify c (repeat 0 256) (repeat 3 32) = false.
Proof. split; [exact mverify_good|]. split; [repeat split|]. repeat split; try (vm_compute; tauto). Qed.

(** Data signed in pieces verifies, cut into other pieces, with a context set up likewise with the
    public key.  Missing: as for [C65_valid_partial]. *)
Theorem C65_round_trip_partial : forall L V k kd kd' d o c0 c0' ps ps' c1 c1' now buf md local coins answer buf' n c2,
  good_alib L -> good_vlib L V -> well_formed L k -> data_of L k kd -> public_of L k kd' -> known_digest d ->
  digest_init new_sctx (Name (Some d)) kd o = (true, c0) -> c_key c0 <> None ->
  digest_init new_sctx (Name (Some d)) kd' o = (true, c0') ->
  (uses_pss c0 k -> answer = true /\ whole L k /\ mgf1_settled c0 d /\ int_salt c0) ->
  updates c0 ps = Some c1 -> updates c0' ps' = Some c1' -> concat ps = concat ps' ->
  digest_sign_final L c1 now (Some buf) md local coins answer = (Signed true buf' n, c2) ->
  exists c2' sig, n = Some (zlen sig) /\ buf' = sig ++ skipn (length sig) buf /\ digest_verify_final L V c1' sig = Some (true, c2').
Proof. exact round_trip. Qed.
Print Assumptions C65_round_trip_partial.
Example C65_round_trip_case :
  (let c := set_up rsa_pair (Name (Some 2)) (pss (Some 2) (-1)) in
   exists c1 buf, updates c [[1; 2]; [3]] = Some c1 /\ fst (digest_sign_final mlib c1 5 (Some (repeat 0 300)) [] junk 0 true) = Signed true buf (Some 256) /\
     exists c2 c3, updates c [[1]; []; [2; 3]] = Some c2 /\ digest_verify_final mlib mverify c2 (firstn 256 buf) = Some (true, c3)) /\
  (let c := set_up ec_pair (Name (Some 1)) no_sparams in
   exists c1 buf, updates c [[1; 2; 3]] = Some c1 /\ fst (digest_sign_final mlib c1 5 (Some (repeat 0 73)) [] junk 0 true) = Signed true buf (Some 9) /\
     exists c3, digest_verify_final mlib mverify c1 (firstn 9 buf) = Some (true, c3)).
Proof. exact signed_case. Qed.

(** Once finished, a context makes no other signature. *)
Theorem C65_once : forall L c now buf md local coins answer c1 r, digest_sign_final L c now (Some buf) md local coins answer = (r, c1) -> r <> Crashes ->
  forall now2 buf2 md2 local2 coins2 answer2, digest_sign_final L c1 now2 (Some buf2) md2 local2 coins2 answer2 = (Signed false buf2 None, c1).
Proof. exact final_once. Qed.
Print Assumptions C65_once.
Example C65_once_case : exists buf c1, digest_sign_final mlib (set_up rsa_pair (Name (Some 2)) no_sparams) 5 (Some (repeat 0 256)) [] junk 0 true = (Signed true buf (Some 256), c1).
Proof. do 2 eexists. vm_compute. reflexivity. Qed.

(** Ed25519 and Ed448. *)
Theorem C65_edwards : forall L V c k kd now buf tbs coins answer buf' n, good_alib L -> good_vlib L V -> well_formed L k -> data_of L k kd -> c_key c = Some kd ->
  digest_sign L c now (Some buf) (Bytes tbs) coins answer = Signed true buf' n ->
  k_type k = 1 /\ In (p_curve (k_params k)) [3; 5] /\ may_sign k now /\
  exists sig, buf' = sig ++ skipn (length sig) buf /\ n = Some (zlen sig) /\ zlen sig <= zlen buf /\
    forall c' kd', c_key c' = Some kd' -> public_of L k kd' -> digest_verify V c' sig tbs = true.
Proof. exact ed_valid. Qed.
Print Assumptions C65_edwards.
Example C65_edwards_case : well_formed mlib ed_pair /\
  exists buf, digest_sign mlib (set_up ed_pair NoName no_sparams) 5 (Some (repeat 0 64)) (Bytes [1; 2]) 0 true = Signed true buf (Some 64) /\
    digest_verify mverify (set_up ed_pair NoName no_sparams) buf [1; 2] = true.
Proof. split; [exact ed_pair_ok|exact ed_case]. Qed.

(** The AlgorithmIdentifier read back.  Missing: RSA with SHA-1 and with PSS. *)
Theorem C65_identifier_partial : forall L c k kd d, data_of L k kd -> c_md c = Some d -> known_digest d ->
  k_type k = 2 /\ d <> 0 /\ c_pad c = 1 \/ k_type k = 1 /\ (nist (p_curve (k_params k)) \/ In (p_curve (k_params k)) [3; 5]) ->
  exists l, algorithm_id c kd = Some l /\ identifier k false d = Some l.
Proof. exact identifier_right. Qed.
Print Assumptions C65_identifier_partial.
Example C65_identifier_case : algorithm_id (set_up ec_pair (Name (Some 2)) no_sparams) (kd_of ec_pair) = Some [48; 10; 6; 8; 42; 134; 72; 206; 61; 4; 3; 3].
Proof. reflexivity. Qed.

(** ** Where it is false *)
(** PSS without a digest for MGF1: the provider does not accept its own signature. *)
Theorem C65_mgf1_refuted : exists L V k kd o c c1 buf' n,
  good_alib L /\ good_vlib L V /\ well_formed L k /\ whole L k /\ data_of L k kd /\
  digest_init new_sctx (Name (Some 2)) kd o = (true, c) /\ o_mgf1 o = None /\ updates c [[1; 2; 3]] = Some c1 /\
  fst (digest_sign_final L c1 5 (Some (repeat 0 256)) [] junk 0 true) = Signed true buf' (Some n) /\
  exists c2, digest_verify_final L V c1 (firstn (Z.to_nat n) buf') = Some (false, c2).
Proof. exact mgf1_differs. Qed.
Print Assumptions C65_mgf1_refuted.
(** With any 32-byte digest that the API does not have, e.g. SHA3-256, the signature made is one
    with SHA-256 instead, and reported as a success. *)
Theorem C65_other_digest_refuted : forall L c k kd d now buf tbs local coins, good_alib L -> well_formed L k -> whole L k -> data_of L k kd ->
  c_key c = Some kd -> c_md c = Some d -> ~ known_digest d -> k_type k = 2 -> c_pad c = 1 -> size_allowed 2 0 (k_size k) -> may_sign k now ->
  zlen tbs = 32 -> zlen local = 512 -> k_size k <= zlen buf ->
  exists sig, signature_sign L c now (Some buf) (Bytes tbs) local coins true = Signed true (sig ++ skipn (length sig) buf) (Some (zlen sig)) /\
    a_verify L (Pkcs1 1) (a_public L (k_bytes k)) tbs sig = true.
Proof. exact other_digest. Qed.
Print Assumptions C65_other_digest_refuted.
Example C65_other_digest_case : c_md (set_up rsa_pair (Name (Some 7)) no_sparams) = Some 7 /\ ~ known_digest 7 /\ size_allowed 2 0 (k_size rsa_pair).
Proof. split; [reflexivity|]. split; [unfold known_digest; cbn; lia|]. constructor; cbn; tauto. Qed.
(** The size of the caller's buffer is not looked at. *)
Theorem C65_small_buffer_refuted : exists L c k kd d buf tbs local,
  good_alib L /\ well_formed L k /\ whole L k /\ data_of L k kd /\ c_key c = Some kd /\ c_md c = Some d /\ known_digest d /\ can_sign c k d /\ may_sign k 5 /\
  zlen tbs = digest_length d /\ zlen local = 512 /\ zlen buf = 16 /\
  signature_sign L c 5 (Some buf) (Bytes tbs) local 0 true = Overruns.
Proof. exact small_buffer. Qed.
Print Assumptions C65_small_buffer_refuted.
(** Not even the announced size is enough: with PSS and a digest of another length ... *)
Theorem C65_pss_overruns_refuted : exists L c k kd buf tbs local,
  good_alib L /\ well_formed L k /\ whole L k /\ data_of L k kd /\ c_key c = Some kd /\ uses_pss c k /\ may_sign k 5 /\ zlen tbs = 28 /\ zlen local = 512 /\
  signature_sign L c 5 None (Bytes tbs) local 0 true = Signed true [] (Some (zlen buf)) /\
  signature_sign L c 5 (Some buf) (Bytes tbs) local 0 true = Overruns.
Proof. exact pss_overruns. Qed.
Print Assumptions C65_pss_overruns_refuted.
(** ... and with a modulus that is not a whole number of bytes. *)
Theorem C65_odd_overruns_refuted : exists L c k kd buf tbs local,
  good_alib L /\ well_formed L k /\ data_of L k kd /\ c_key c = Some kd /\ c_md c = Some 1 /\ c_pad c = 1 /\ may_sign k 5 /\ zlen tbs = 32 /\ zlen local = 512 /\
  signature_sign L c 5 None (Bytes tbs) local 0 true = Signed true [] (Some (zlen buf)) /\
  signature_sign L c 5 (Some buf) (Bytes tbs) local 0 true = Overruns.
Proof. exact odd_overruns. Qed.
Print Assumptions C65_odd_overruns_refuted.
(** An initialisation with an unknown digest answers 1 and the next data makes the process crash. *)
Theorem C65_init_refuted : forall c kd o data, data <> [] -> is_edwards kd = false ->
  exists c', digest_init c (Name None) kd o = (true, c') /\ digest_update c' data = None.
Proof. exact init_then_crash. Qed.
Print Assumptions C65_init_refuted.
Example C65_init_case : is_edwards (kd_of rsa_pair) = false.
Proof. reflexivity. Qed.
(** A refused padding is stored nevertheless. *)
Theorem C65_padding_refuted : exists c o c', set_sparams c o = (false, c') /\ c_pad c' <> c_pad c.
Proof. exact padding_kept. Qed.
Print Assumptions C65_padding_refuted.
(** The identifiers of RSA with SHA-1 and with PSS are those of PKCS#1 v1.5 with SHA-256. *)
Theorem C65_identifier_sha1_refuted : exists L c k kd, data_of L k kd /\ c_md c = Some 0 /\ c_pad c = 1 /\ k_type k = 2 /\
  algorithm_id c kd = identifier k false 1 /\ algorithm_id c kd <> identifier k false 0.
Proof. exact id_sha1. Qed.
Print Assumptions C65_identifier_sha1_refuted.
Theorem C65_identifier_pss_refuted : exists L c k kd, data_of L k kd /\ uses_pss c k /\ algorithm_id c kd = identifier k false 1.
Proof. exact id_pss. Qed.
Print Assumptions C65_identifier_pss_refuted.
(** Without a digest, asking for the identifier makes the process crash. *)
Theorem C65_identifier_crash_refuted : forall k kd L, data_of L k kd -> k_type k = 2 \/ k_type k = 1 /\ nist (p_curve (k_params k)) ->
  exists c, sign_init new_sctx kd no_sparams = (true, c) /\ algorithm_id c kd = None.
Proof. exact id_crash. Qed.
Print Assumptions C65_identifier_crash_refuted.
Example C65_identifier_crash_case : data_of mlib rsa_pair (kd_of rsa_pair) /\ k_type rsa_pair = 2.
Proof. split; [exact (kd_of_ok _ rsa_pair_ok)|reflexivity]. Qed.
