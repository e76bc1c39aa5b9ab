(** C73: signatures and RSA encryption with keys of the engine. *)
From Verif Require Import Base M_EngPkey S_EngPkey P_EngPkey P_EngPkey2.

(** For every history of contexts: what is asked of the secure API is a signature by the context's key, with the
    padding and the digest asked of that context, or of the one it was copied from, *)
Theorem C73_sign_pkcs1 : forall l c q bits d, heard (snd (run l start)) c = Some q -> q_purpose q = ToSign -> q_type q = RSA bits ->
  padding q = PKCS1 -> digest q = Some (Sha d) ->
  snd (step (Sign c) (fst (run l start))) = AskSign (q_key q) (Pkcs1v15 d).
Proof. exact sign_pkcs1. Qed.
Print Assumptions C73_sign_pkcs1.
(** for PSS also with the mask's digest and a salt of the length asked for, where the longest is that of RFC 8017, *)
Theorem C73_sign_pss_partial : forall l c q bits d g, heard (snd (run l start)) c = Some q -> q_purpose q = ToSign -> q_type q = RSA bits ->
  padding q = PSS -> digest q = Some (Sha d) -> mgf1 q = Sha g -> -3 <= salt q < 2 ^ 31 ->
  let n := salt_of bits (Sha d) (salt q) in
  snd (step (Sign c) (fst (run l start))) = if n <? 0 then Refused else AskSign (q_key q) (RsaPss d g n).
Proof. exact sign_pss. Qed.
Print Assumptions C73_sign_pss_partial.
(** and for ECDSA with the digest; *)
Theorem C73_sign_ec : forall l c q d, heard (snd (run l start)) c = Some q -> q_purpose q = ToSign -> q_type q = EC ->
  digest q = Some (Sha d) -> snd (step (Sign c) (fst (run l start))) = AskSign (q_key q) (Ecdsa d).
Proof. exact sign_ec. Qed.
Print Assumptions C73_sign_ec.
(** other digests and paddings are refused. *)
Theorem C73_sign_only : forall l c q, heard (snd (run l start)) c = Some q -> q_purpose q = ToSign ->
  (forall d, digest q <> Some (Sha d)) \/ (exists bits, q_type q = RSA bits /\ padding q <> PKCS1 /\ padding q <> PSS) \/
  (exists bits n, q_type q = RSA bits /\ padding q = PSS /\ mgf1 q = OtherMd n) ->
  snd (step (Sign c) (fst (run l start))) = Refused.
Proof. exact sign_only. Qed.
Print Assumptions C73_sign_only.

(** Settings are taken exactly where they mean something, *)
Theorem C73_settings : forall l c q, heard (snd (run l start)) c = Some q ->
  let fine o := snd (step o (fst (run l start))) = Fine in
  let rsa := exists bits, q_type q = RSA bits in
  let to_sign := q_purpose q = ToSign \/ q_purpose q = ToVerify in
  (forall p, fine (SetPad c p) <-> rsa) /\ (forall n, fine (SetSalt c n) <-> rsa /\ to_sign /\ padding q = PSS) /\
  (forall m, fine (SetMd c m) <-> to_sign) /\ (forall m, fine (SetMgf1 c m) <-> rsa /\ m <> None) /\
  (forall m, fine (SetOaepMd c m) <-> rsa /\ ~ to_sign /\ m <> None) /\ (forall x, fine (SetLabel c x) <-> rsa /\ ~ to_sign).
Proof. exact settings. Qed.
Print Assumptions C73_settings.
(** and a call refused changes nothing, unless the memory for a label's copy cannot be had. *)
Theorem C73_refused_keeps : forall w o, (forall c d, o <> Dup c d true false) -> snd (step o w) = Refused -> fst (step o w) = w.
Proof. exact refused_keeps. Qed.
Print Assumptions C73_refused_keeps.

(** A context to verify with the key and settings of one that signs takes its signatures. *)
Theorem C73_verify : forall l c d p q s, heard (snd (run l start)) c = Some p -> heard (snd (run l start)) d = Some q ->
  q_purpose p = ToSign -> q_purpose q = ToVerify -> alike p q -> -3 <= salt p < 2 ^ 31 ->
  snd (step (Sign c) (fst (run l start))) = AskSign (q_key p) s ->
  exists pad m g n, snd (step (Verify d) (fst (run l start))) = AskVerify (q_key q) pad m g n /\ takes (q_type q) pad m g n s.
Proof. exact verify_alike. Qed.
Print Assumptions C73_verify.

(** What is encrypted and what is decrypted with the same key and settings agree, labels included. *)
Theorem C73_oaep_partial : forall l c d p q bits m g u, heard (snd (run l start)) c = Some p -> heard (snd (run l start)) d = Some q ->
  q_purpose p = ToEncrypt -> q_purpose q = ToDecrypt -> alike p q -> q_type p = RSA bits -> padding p = OAEP ->
  digest p = Some (Sha m) -> mgf1 p = Sha g ->
  snd (step (Encrypt c) (fst (run l start))) = AskEncrypt (q_key p) OAEP (Some (Sha m)) (Some (Sha g)) (q_label p) /\
  snd (step (Decrypt d u) (fst (run l start))) = AskDecrypt (q_key p) (COaep (Some m) (Some g) (q_label p)).
Proof. exact oaep_alike. Qed.
Print Assumptions C73_oaep_partial.
Theorem C73_pkcs1 : forall l c d p q bits u, heard (snd (run l start)) c = Some p -> heard (snd (run l start)) d = Some q ->
  q_purpose p = ToEncrypt -> q_purpose q = ToDecrypt -> alike p q -> q_type p = RSA bits -> padding p = PKCS1 ->
  snd (step (Encrypt c) (fst (run l start))) = AskEncrypt (q_key p) PKCS1 None None [] /\
  snd (step (Decrypt d u) (fst (run l start))) = AskDecrypt (q_key p) CPkcs1v15.
Proof. exact pkcs1_alike. Qed.
Print Assumptions C73_pkcs1.

(** When labels are set only where there is none, no label is left once the contexts are freed; *)
Theorem C73_labels_freed_partial : forall l, once l start -> all_freed (fst (run l start)) ->
  forall i, w_labels (fst (run l start)) i = None.
Proof. exact labels_freed. Qed.
Print Assumptions C73_labels_freed_partial.
(** nothing is lost unless the memory for a label's copy cannot be had, and no cipher context is left in the secure
    API unless it does not support an operation on one it made. *)
Theorem C73_nothing_lost_partial : forall l, ~ (exists c d, In (Dup c d true false) l) -> w_lost (fst (run l start)) = 0%nat.
Proof. exact nothing_lost. Qed.
Print Assumptions C73_nothing_lost_partial.
Theorem C73_nothing_open_partial : forall l, ~ (exists c, In (Decrypt c true) l) -> w_open (fst (run l start)) = 0%nat.
Proof. exact nothing_open. Qed.
Print Assumptions C73_nothing_open_partial.

(** RSA signatures take the bytes of the modulus, which is what is announced, and these and secrets from DH and X keys are
    written only where there is room. *)
Theorem C73_rsa_room : forall bits, exists size, 8 * (size - 1) < bits <= 8 * size /\ rsa_sign_out bits None = Announced size /\
  forall room, rsa_sign_out bits (Some room) = if size <=? room then Wrote size else TooSmall.
Proof. exact rsa_room. Qed.
Print Assumptions C73_rsa_room.
Theorem C73_derive_room : forall size room m, 8 <= size -> derive_out true size (Some room) = Wrote m -> m <= room.
Proof. exact derive_room. Qed.
Print Assumptions C73_derive_room.
(** The length announced for ECDSA signatures is enough for every signature of every curve. *)
Theorem C73_ec_room : forall n r s, 0 < n <= 66 -> 0 <= r < 2 ^ (8 * n) -> 0 <= s < 2 ^ (8 * n) ->
  exists k m, ec_sign_out n r s None = Announced k /\ (forall room, ec_sign_out n r s (Some room) = Wrote m) /\ 0 < m <= k.
Proof. exact ec_room. Qed.
Print Assumptions C73_ec_room.

(** False: that room is checked with EC keys. *)
Theorem C73_no_room_refuted : exists r s room n, 0 <= r < 2 ^ 256 /\ 0 <= s < 2 ^ 256 /\ ec_sign_out 32 r s (Some room) = Wrote n /\ room < n /\
  derive_out false 32 (Some 4) = Wrote 8.
Proof. exact no_room. Qed.
Print Assumptions C73_no_room_refuted.
(** False: that the length announced for a secret is what is written. *)
Theorem C73_announced_refuted : exists size n, derive_out true size None = Announced n /\ derive_out true size (Some n) = Wrote 8 /\ n <> 8.
Proof. exact announced_derive. Qed.
Print Assumptions C73_announced_refuted.
(** False: that the mask's digest, unless asked for, is that of the message. *)
Theorem C73_mgf1_default_refuted : exists q, heard (snd (run pss_default start)) 0%nat = Some q /\ q_md q = Some (Some (Sha 1)) /\ q_mgf1 q = None /\
  snd (step (Sign 0) (fst (run pss_default start))) = AskSign 7 (RsaPss 1 0 222).
Proof. exact mgf1_default. Qed.
Print Assumptions C73_mgf1_default_refuted.
(** False: that encryption and decryption agree for every padding and digest accepted. *)
Theorem C73_unpadded_refuted : exists p q, heard (snd (run unpadded start)) 0%nat = Some p /\ heard (snd (run unpadded start)) 1%nat = Some q /\ alike p q /\
  snd (step (Encrypt 0) (fst (run unpadded start))) = AskEncrypt 7 NO_PADDING None None [] /\
  snd (step (Decrypt 1 false) (fst (run unpadded start))) = AskDecrypt 7 CPkcs1v15.
Proof. exact unpadded_wrong. Qed.
Print Assumptions C73_unpadded_refuted.
Theorem C73_other_digest_refuted : Forall (fun e => snd e = Fine) (snd (run sha224 start)) /\
  snd (step (Encrypt 0) (fst (run sha224 start))) = AskEncrypt 7 OAEP (Some (OtherMd 28)) (Some (Sha 0)) [] /\
  snd (step (Decrypt 1 false) (fst (run sha224 start))) = AskDecrypt 7 (COaep None (Some 0) []).
Proof. exact sha224_wrong. Qed.
Print Assumptions C73_other_digest_refuted.
(** False: that labels, copies and cipher contexts are always given back. *)
Theorem C73_label_refuted : all_freed (fst (run relabelled start)) /\ w_labels (fst (run relabelled start)) 0 = Some [1].
Proof. exact relabelled_leaks. Qed.
Print Assumptions C73_label_refuted.
Theorem C73_left_refuted : w_open (fst (run [New 0 7 (RSA 2048) ToDecrypt; Decrypt 0 true; Free 0] start)) = 1%nat /\
  w_lost (fst (run [New 0 7 (RSA 2048) ToDecrypt; SetLabel 0 [1]; Dup 0 1 true false; Free 0] start)) = 1%nat.
Proof. exact left_open. Qed.
Print Assumptions C73_left_refuted.
(** False: that salt lengths that mean nothing are refused: the one asked of the secure API is near 2^64. *)
Theorem C73_salt_refuted : Forall (fun e => snd e = Fine) (snd (run negative start)) /\
  snd (step (Sign 0) (fst (run negative start))) = AskSign 7 (RsaPss 0 0 (2 ^ 64 - 4)).
Proof. exact negative_accepted. Qed.
Print Assumptions C73_salt_refuted.

(** The hypotheses are met: two signing contexts with different settings, one copied and changed, a context to verify with
    the settings of the copy, and a pair for OAEP with a label, all freed in the end. *)
Example C73_example :
  let l := [New 0 7 (RSA 2049) ToSign; SetPad 0 PSS; SetSalt 0 (-1); SetMd 0 (Some (Sha 1)); Dup 0 1 true true; SetSalt 1 (-3); SetMgf1 1 (Some (Sha 2));
            New 2 7 (RSA 2049) ToVerify; SetPad 2 PSS; SetMd 2 (Some (Sha 1)); SetSalt 2 (-3); SetMgf1 2 (Some (Sha 2));
            New 3 8 (RSA 1024) ToEncrypt; SetPad 3 OAEP; SetLabel 3 [4; 5]; New 4 8 (RSA 1024) ToDecrypt; SetPad 4 OAEP; SetLabel 4 [4; 5];
            Dup 4 5 true true; Free 4; New 6 9 EC ToSign; SetMd 6 (Some (Sha 3))] in
  let w := fst (run l start) in
  let frees := [Free 0; Free 1; Free 2; Free 3; Free 5; Free 6] in
  Forall (fun e => snd e = Fine) (snd (run l start)) /\
  snd (step (Sign 0) w) = AskSign 7 (RsaPss 1 0 32) /\ snd (step (Sign 1) w) = AskSign 7 (RsaPss 1 2 222) /\
  snd (step (Verify 2) w) = AskVerify 7 PSS (Some (Sha 1)) (Some (Sha 2)) (-3) /\
  snd (step (Encrypt 3) w) = AskEncrypt 8 OAEP (Some (Sha 0)) (Some (Sha 0)) [4; 5] /\
  snd (step (Decrypt 5 false) w) = AskDecrypt 8 (COaep (Some 0) (Some 0) [4; 5]) /\
  snd (step (Sign 6) w) = AskSign 9 (Ecdsa 3) /\
  (exists p q, heard (snd (run l start)) 1%nat = Some p /\ heard (snd (run l start)) 2%nat = Some q /\ alike p q /\ salt_of 2049 (Sha 1) (salt p) = 222) /\
  once (l ++ frees) start /\ w_labels w 2 = Some [4; 5] /\ w_labels (fst (run (l ++ frees) start)) 2 = None /\
  der_signature (2 ^ 520) (2 ^ 519) = 139 /\ ec_sign_out 66 (2 ^ 520) (2 ^ 519) None = Announced 141 /\
  rsa_sign_out 2049 (Some 300) = Wrote 257 /\ rsa_sign_out 2049 (Some 256) = TooSmall /\ derive_out true 32 (Some 32) = Wrote 8.
Proof.
  cbn zeta. do 7 (split; [vm_compute; auto 30|]). split; [do 2 eexists; vm_compute; auto 20|]. vm_compute. auto 60.
Qed.
