(** C53 to C56, and C46 for RSA and ElGamal: asymmetric keys on bytes.  [L] is OpenSSL, [k] the key
    behind a handle, [now] the trusted time; [answer]: no other call of OpenSSL fails. *)
From Verif Require Import Base S_Bytes M_Rights M_Mac M_Unwrap M_Kdf S_Rights S_Unwrap P_Kdf P_Unwrap M_Asym S_Asym P_Asym P_Asym2.

(** Success means that the key may sign, that it fits the algorithm, and that the buffer begins
    with a signature of exactly the data, valid for the public key of [k] and of the reported
    length, which is the size announced by a query if the modulus is a whole number of bytes.
    Missing: RSA-PSS when OpenSSL fails or the caller's digest has the wrong length (see
    [C53_pss_refuted]). *)
Theorem C53_sound_partial : forall L alg k now buf data coins answer buf' n, good_alib L -> well_formed L k -> wide_salt alg ->
  (is_pss alg = true -> answer = true /\ whole L k /\ digest_given alg (in_bytes data)) ->
  crypto_sign L alg k now (Some buf) data coins answer = Done OK buf' n ->
  signs_with alg k /\ may_sign k now /\ data_given data /\ salt_fits alg k /\
  exists sig, buf' = sig ++ skipn (length sig) buf /\ n = zlen sig /\ zlen sig <= zlen buf /\
    valid_signature L alg k (in_bytes data) sig /\ (whole L k -> zlen sig = signature_size alg k).
Proof. exact sign_sound. Qed.
Print Assumptions C53_sound_partial.
Example C53_sound_case : good_alib toy_alib /\ well_formed toy_alib (toy_pair 1 0 32 256 9) /\
  (exists buf', crypto_sign toy_alib (SEcdsa (Some (1, false))) (toy_pair 1 0 32 256 9) 5 (Some (repeat 0 70)) (Bytes [1; 2; 3]) 0 true = Done OK buf' 64 /\
     nth 31 buf' 0 = 9 /\ nth 69 buf' 0 = 0) /\
  (exists buf', crypto_sign toy_alib (SPss (Some (1, 1, 20, true))) (toy_pair 2 0 128 1024 9) 5 (Some (repeat 0 130)) (Bytes (repeat 4 32)) 0 true = Done OK buf' 128 /\
     firstn 2 buf' = [13; 13] /\ skipn 128 buf' = [0; 0]).
Proof.
  split; [exact toy_good|]. split; [apply toy_pair_ok; cbn; try tauto; try lia; reflexivity|].
  split; eexists; (split; [vm_compute; reflexivity|]); split; reflexivity.
Qed.

(** Every request that is in order is fulfilled, for keys whose modulus is a whole number of bytes
    (see [C53_odd_refuted]). *)
Theorem C53_complete_partial : forall L alg k now buf data coins, good_alib L -> well_formed L k -> wide_salt alg -> whole L k ->
  signs_with alg k -> may_sign k now -> data_given data -> salt_fits alg k -> digest_given alg (in_bytes data) ->
  signature_size alg k <= zlen buf ->
  exists buf', crypto_sign L alg k now (Some buf) data coins true = Done OK buf' (signature_size alg k).
Proof. exact sign_complete. Qed.
Print Assumptions C53_complete_partial.
Example C53_complete_case : let k := toy_pair 1 5 57 456 9 in well_formed toy_alib k /\ whole toy_alib k /\ signs_with SEddsa k /\ may_sign k 5 /\
  signature_size SEddsa k = 114.
Proof.
  cbv zeta. split; [apply toy_pair_ok; cbn; try tauto; try lia; reflexivity|]. split; [discriminate|].
  split; [split; [reflexivity|split; [right; reflexivity|apply sz_ec; cbn; tauto] ]|]. split; [split; [reflexivity|split; vm_compute; (discriminate || reflexivity)]|reflexivity].
Qed.

(** A query (no buffer) succeeds exactly if key, rights and parameters are in order, and reports
    the size; smaller buffers are refused and left alone. *)
Theorem C53_size : forall L alg k now data coins answer n,
  (exists buf, crypto_sign L alg k now None data coins answer = Done OK buf n) <->
  signs_with alg k /\ may_sign k now /\ data_given data /\ n = signature_size alg k.
Proof. exact sign_query. Qed.
Print Assumptions C53_size.
Example C53_size_case : crypto_sign toy_alib (SPkcs1 (Some (3, false))) (toy_pair 2 0 256 2048 9) 5 None (Bytes [1]) 0 true = Done OK [] 256.
Proof. reflexivity. Qed.
Theorem C53_short : forall L alg k now buf data coins answer st buf' n, zlen buf < signature_size alg k ->
  crypto_sign L alg k now (Some buf) data coins answer = Done st buf' n -> st <> OK /\ buf' = buf.
Proof. exact sign_short. Qed.
Print Assumptions C53_short.
Example C53_short_case : zlen (repeat 0 63) < signature_size SEddsa (toy_pair 1 3 32 256 9) /\
  crypto_sign toy_alib SEddsa (toy_pair 1 3 32 256 9) 5 (Some (repeat 0 63)) (Bytes [1]) 0 true = Done INVALID_PARAMETER (repeat 0 63) 63.
Proof. split; reflexivity. Qed.

(** A call that fails does not touch the buffer. *)
Theorem C53_unchanged : forall L alg k now buf data coins answer st buf' n, good_alib L -> well_formed L k -> wide_salt alg ->
  crypto_sign L alg k now (Some buf) data coins answer = Done st buf' n -> st <> OK -> buf' = buf.
Proof. exact sign_unchanged. Qed.
Print Assumptions C53_unchanged.
Example C53_unchanged_case :
  crypto_sign toy_alib (SPkcs1 (Some (1, true))) (toy_pair 2 0 128 1024 9) 5 (Some (repeat 8 128)) (Bytes [1]) 0 true = Done INTERNAL_ERROR (repeat 8 128) 128.
Proof. reflexivity. Qed.

(** With RSA-PSS, a digest of the wrong length, or any failure of OpenSSL, is reported as success
    although nothing is signed: the buffer is as it was. *)
Theorem C53_pss_refuted : forall L d mgf1 salt pre k now buf data coins answer, good_alib L -> well_formed L k -> whole L k -> 0 <= salt < 2 ^ 64 ->
  let alg := SPss (Some (d, mgf1, salt, pre)) in
  signs_with alg k -> may_sign k now -> data_given data -> salt_fits alg k -> k_size k <= zlen buf ->
  answer = false \/ (pre = true /\ zlen (in_bytes data) <> digest_length d) ->
  crypto_sign L alg k now (Some buf) data coins answer = Done OK buf (zlen buf).
Proof. exact pss_unsigned. Qed.
Print Assumptions C53_pss_refuted.
Example C53_pss_case : let k := toy_pair 2 0 128 1024 9 in let alg := SPss (Some (1, 1, 20, true)) in
  well_formed toy_alib k /\ whole toy_alib k /\ signs_with alg k /\ may_sign k 5 /\ salt_fits alg k /\
  crypto_sign toy_alib alg k 5 (Some (repeat 0 128)) (Bytes (repeat 4 31)) 0 true = Done OK (repeat 0 128) 128 /\
  ~ valid_signature toy_alib alg k (repeat 4 31) (repeat 0 128).
Proof.
  cbv zeta. split; [apply toy_pair_ok; cbn; try tauto; try lia; try reflexivity; discriminate|]. split; [intros _; exists 1024; split; reflexivity|].
  split; [repeat split; try (cbn; tauto); apply sz_rsa; cbn; tauto|]. split; [split; [reflexivity|split; vm_compute; (discriminate || reflexivity)]|].
  split; [vm_compute; discriminate|]. split; [reflexivity|]. intros H. vm_compute in H. discriminate.
Qed.

(** An RSA key whose number of bits is no multiple of 8 is accepted, its size is rounded down, and
    it never signs into a buffer of the size that was announced. *)
Theorem C53_odd_refuted : forall L d pre k now buf data coins answer bits, good_alib L -> well_formed L k ->
  let alg := SPkcs1 (Some (d, pre)) in
  signs_with alg k -> may_sign k now -> data_given data -> a_parse L 6 (k_bytes k) = Some bits -> bits mod 8 <> 0 ->
  zlen buf = signature_size alg k -> exists st n, st <> OK /\ crypto_sign L alg k now (Some buf) data coins answer = Done st buf n.
Proof. exact odd_never_signs. Qed.
Print Assumptions C53_odd_refuted.
Example C53_odd_case : let k := toy_pair 2 0 128 1027 9 in let alg := SPkcs1 (Some (1, false)) in
  well_formed toy_alib k /\ signs_with alg k /\ a_parse toy_alib 6 (k_bytes k) = Some 1027 /\
  crypto_sign toy_alib alg k 5 None (Bytes [1]) 0 true = Done OK [] 128 /\
  crypto_sign toy_alib alg k 5 (Some (repeat 0 128)) (Bytes [1]) 0 true = Done INTERNAL_ERROR (repeat 0 128) 128.
Proof.
  cbv zeta. split; [apply toy_pair_ok; cbn; try tauto; try lia; try reflexivity; discriminate|].
  split; [repeat split; try (cbn; tauto); apply sz_rsa; cbn; tauto|]. repeat split.
Qed.

(** Asking for a public key yields the public key of the private key, no more and no less, and
    symmetric keys have none. *)
Theorem C54_public : forall L k buf buf' n answer, well_formed L k -> size_allowed (k_type k) (p_curve (k_params k)) (k_size k) ->
  let public := a_public L (k_bytes k) in
  (key_get_public L k (Some buf) answer = Done OK buf' n <->
   k_type k <> 0 /\ answer = true /\ zlen public <= zlen buf /\ buf' = public ++ skipn (length public) buf /\ n = zlen public).
Proof. exact public_written. Qed.
Print Assumptions C54_public.
Example C54_public_case : well_formed toy_alib (toy_pair 3 0 100 800 9) /\ size_allowed 3 0 100 /\
  key_get_public toy_alib (toy_pair 3 0 100 800 9) (Some [0; 0; 0; 7]) true = Done OK [28; 800; 10; 7] 3.
Proof. split; [apply toy_pair_ok; cbn; try tauto; try lia; discriminate|]. split; [apply sz_dh; lia|reflexivity]. Qed.
Theorem C54_size : forall L k n answer, well_formed L k -> size_allowed (k_type k) (p_curve (k_params k)) (k_size k) ->
  (exists buf, key_get_public L k None answer = Done OK buf n) <-> k_type k <> 0 /\ answer = true /\ n = zlen (a_public L (k_bytes k)).
Proof. exact public_query. Qed.
Print Assumptions C54_size.
Example C54_size_case : key_get_public toy_alib (toy_pair 1 4 32 256 9) None true = Done OK [] 3 /\
  key_get_public toy_alib (MkKey plain_rights 0 no_params 16 (repeat 7 16)) None true = Done INVALID_PARAMETER [] 0.
Proof. split; reflexivity. Qed.
Theorem C54_unchanged : forall L k buf buf' st n answer, key_get_public L k (Some buf) answer = Done st buf' n -> st <> OK -> buf' = buf.
Proof. exact public_unchanged. Qed.
Print Assumptions C54_unchanged.
Example C54_unchanged_case : key_get_public toy_alib (toy_pair 2 0 128 1024 9) (Some [5; 5]) true = Done INVALID_PARAMETER [5; 5] 2.
Proof. reflexivity. Qed.

(** A secret is agreed on exactly if the private key may be used for it, is of the kind it takes,
    and the other public key is of its type; the key made is symmetric, it is the secret, and its
    rights are those asked for within what the private key hands on. *)
Theorem C55_agrees : forall L dh rights k other now answer alloc k', well_formed L k ->
  exchange L dh rights k other now answer alloc = Makes k' <->
  may_exchange k now /\ agrees_with dh k /\
  a_pub_type L other = Some (pkey_type k) /\ answer = true /\ alloc = true /\ rights_validate_format rights = true /\
  exists secret, a_derive L (k_bytes k) other = Some secret /\ 16 <= zlen secret <= 512 /\
    k' = MkKey (restrict_child_rights rights (Some (k_rights k))) 0 no_params (zlen secret) secret.
Proof. exact exchange_iff. Qed.
Print Assumptions C55_agrees.
Example C55_agrees_case : well_formed toy_alib (toy_pair 1 1 48 384 9) /\
  (exists k, exchange toy_alib false plain_rights (toy_pair 1 1 48 384 9) [408; 384; 6] 5 true true = Makes k /\ k_bytes k = repeat 45 48) /\
  exchange toy_alib false plain_rights (toy_pair 1 3 32 256 9) [1087; 256; 6] 5 true true = Fails OPERATION_NOT_ALLOWED.
Proof. split; [apply toy_pair_ok; cbn; try tauto; try lia; reflexivity|]. split; [eexists; split; reflexivity|reflexivity]. Qed.

(** Two parties that give each other their public keys obtain the same secret. *)
Theorem C55_same : forall L dh r1 r2 k1 k2 now1 now2 s1, agreeing L -> well_formed L k1 -> well_formed L k2 ->
  pkey_type k1 = pkey_type k2 -> agrees_with dh k2 -> may_exchange k2 now2 -> rights_validate_format r2 = true ->
  exchange L dh r1 k1 (a_public L (k_bytes k2)) now1 true true = Makes s1 ->
  exists s2, exchange L dh r2 k2 (a_public L (k_bytes k1)) now2 true true = Makes s2 /\ k_bytes s2 = k_bytes s1 /\ k_size s2 = k_size s1 /\
    k_type s2 = 0 /\ k_type s1 = 0.
Proof. exact parties_agree. Qed.
Print Assumptions C55_same.
Example C55_same_case : let k1 := toy_pair 3 0 100 800 9 in let k2 := toy_pair 3 0 100 800 31 in
  agreeing toy_alib /\ well_formed toy_alib k1 /\ well_formed toy_alib k2 /\ agrees_with true k2 /\
  (exists s1, exchange toy_alib true plain_rights k1 (a_public toy_alib (k_bytes k2)) 5 true true = Makes s1 /\ k_bytes s1 = repeat 23 100) /\
  exists s2, exchange toy_alib true plain_rights k2 (a_public toy_alib (k_bytes k1)) 5 true true = Makes s2 /\ k_bytes s2 = repeat 23 100.
Proof.
  cbv zeta. split; [exact toy_agreeing|]. split; [apply toy_pair_ok; cbn; try tauto; try lia; discriminate|].
  split; [apply toy_pair_ok; cbn; try tauto; try lia; discriminate|]. split; [split; [reflexivity|apply sz_dh; cbn; lia]|].
  split; eexists; split; reflexivity.
Qed.

(** When padding cannot be switched on, a DH exchange is refused for a pointer the caller never
    gave, and what OpenSSL allocated is never released. *)
Theorem C55_pad_refuted : forall L rights k other now answer alloc, well_formed L k -> may_exchange k now -> agrees_with true k ->
  a_pub_type L other = Some 28 -> exchange_dh L rights k other now false answer alloc = Leaks NULL_PARAMETER.
Proof. exact pad_leaks. Qed.
Print Assumptions C55_pad_refuted.
Example C55_pad_case : let k := toy_pair 3 0 100 800 9 in well_formed toy_alib k /\ may_exchange k 5 /\ agrees_with true k /\
  a_pub_type toy_alib [28; 800; 6] = Some 28.
Proof.
  cbv zeta. split; [apply toy_pair_ok; cbn; try tauto; try lia; discriminate|].
  split; [split; [reflexivity|split; vm_compute; (discriminate || reflexivity)]|]. split; [split; [reflexivity|apply sz_dh; cbn; lia]|reflexivity].
Qed.

(** A key that is generated is the one asked for: type, parameters, size, exactly the rights given,
    and the bytes OpenSSL made for those parameters; and its bytes are a key of that kind.  It is
    made exactly if parameters and rights are in order. *)
Theorem C56_generated : forall L alg rights rand coins answer alloc k, generating L rand ->
  (key_generate L alg rights rand coins answer alloc = Makes k <->
   alloc = true /\ (answer = true \/ exists n, alg = GSymmetric (Some n)) /\
   exists t ps size bytes, wanted alg = Some (t, ps, size) /\ made_by L alg rand coins bytes /\ k = MkKey rights t ps size bytes /\
     size_allowed t (p_curve ps) size /\ rights_validate_format rights = true /\ generator_ok alg).
Proof. exact generate_iff. Qed.
Print Assumptions C56_generated.
Example C56_generated_case : generating toy_alib toy_rand /\
  key_generate toy_alib (GDh (Some (Bytes [0; 1; 2; 9], Bytes [5]))) plain_rights toy_rand 8 true true =
    Makes (MkKey plain_rights 3 (MkParams 0 ([0; 1; 2; 9], [5])) 4 [28; 32; 8]) /\
  key_generate toy_alib (GSymmetric (Some 15)) plain_rights toy_rand 8 true true = Fails INVALID_PARAMETER.
Proof. split; [exact toy_generating|]. split; reflexivity. Qed.
Theorem C56_usable : forall L alg rights rand coins answer alloc k, generating L rand ->
  key_generate L alg rights rand coins answer alloc = Makes k ->
  (exists t ps size bytes, wanted alg = Some (t, ps, size) /\ made_by L alg rand coins bytes /\ k = MkKey rights t ps size bytes /\
     size_allowed t (p_curve ps) size /\ rights_validate_format rights = true /\ generator_ok alg) /\
  well_formed L k /\ whole L k /\ (k_type k = 0 -> zlen (k_bytes k) = k_size k).
Proof. exact generate_makes. Qed.
Print Assumptions C56_usable.
Example C56_usable_case : exists k, key_generate toy_alib (GRsa (Some 256)) plain_rights toy_rand 8 true true = Makes k /\ k_bytes k = [6; 2048; 8] /\ k_size k = 256.
Proof. eexists. split; [reflexivity|]. split; reflexivity. Qed.

(** The computation of the number of bits is defined for moduli below 2^28 bytes; from there on it
    is not, although such a length is just one to be refused. *)
Theorem C56_defined_partial : forall L alg rights rand coins answer alloc, sane_modulus alg -> key_generate L alg rights rand coins answer alloc <> Undefined.
Proof. exact modulus_defined. Qed.
Print Assumptions C56_defined_partial.
Example C56_defined_case : sane_modulus (GRsa (Some 1000)) /\ key_generate toy_alib (GRsa (Some 1000)) plain_rights toy_rand 8 true true = Fails INVALID_PARAMETER.
Proof. split; [cbn; lia|reflexivity]. Qed.
Theorem C56_modulus_refuted : forall L n rights rand coins answer alloc, 2 ^ 28 <= n < 2 ^ 32 - 2 ^ 28 ->
  key_generate L (GRsa (Some n)) rights rand coins answer alloc = Undefined.
Proof. exact modulus_overflows. Qed.
Print Assumptions C56_modulus_refuted.
Example C56_modulus_case : key_generate toy_alib (GRsa (Some (2 ^ 28))) plain_rights toy_rand 8 true true = Undefined.
Proof. reflexivity. Qed.

(** RSA and ElGamal: a call decrypts exactly if the rights, the sizes and the text are in order; it
    writes the message and nothing else, inside the buffer, and reports its length; otherwise it
    leaves buffer and count alone. *)
Theorem C46_asymmetric : forall U alg k now buf inb n answer, good_ulib U -> honest U k -> decrypts_with alg k -> 0 <= n ->
  exists st buf' n', process_asymmetric U alg k now (Some buf) inb n answer = Some (Done st buf' n') /\
    (st <> OK -> buf' = buf /\ n' = n) /\
    (st = OK <-> may_decrypt_clear k now /\ k_size k <= zlen buf /\ n <= zlen inb /\ n = text_size alg k /\ answer = true /\
       exists msg, decryption_of U alg k (firstn (Z.to_nat n) inb) msg) /\
    (forall msg, st = OK -> decryption_of U alg k (firstn (Z.to_nat n) inb) msg -> buf' = msg ++ skipn (length msg) buf /\ n' = zlen msg).
Proof. exact asymmetric_decrypts. Qed.
Print Assumptions C46_asymmetric.
Example C46_asymmetric_case : let r := MkRights (repeat 0 64) (2 ^ 13 - 1) 0 0 (2 ^ 60) [] in
  let k := MkKey r 2 no_params 128 (repeat 7 128) in
  good_ulib toy_ulib /\ honest toy_ulib k /\ decrypts_with DPkcs1 k /\
  exists buf, process_asymmetric toy_ulib DPkcs1 k 5 (Some (repeat 0 130)) (2 :: repeat 1 127) 128 true = Some (Done OK buf 127) /\ skipn 127 buf = [0; 0; 0].
Proof.
  cbv zeta. split; [exact toy_ugood|]. split; [split; [discriminate|reflexivity]|]. split; [split; [reflexivity|apply sz_rsa; cbn; tauto]|].
  eexists. split; vm_compute; reflexivity.
Qed.
