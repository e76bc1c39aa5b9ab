(** Proofs for S_Client: functions that are passed on, first part. *)
From Verif Require Import Base M_KeyStore P_KeyStore M_Marshal S_Marshal P_Marshal M_Client S_Client P_Client P_Client2.

Section All.
Variable imp : app -> reply.
Variable junk : nat -> nat -> bytes.
Variable initial : Z.
Hypothesis Himp : word_sized imp.
Hypothesis Hjunk : allocator junk.
Hypothesis Hinit : is_u64 initial.

Lemma reach_generate r type p : proper (KeyGenerate r type p) -> complete (KeyGenerate r type p) = true ->
  reaches imp junk initial (KeyGenerate r type p).
Proof.
  cbn [proper complete]. unfold rights_ok. intros (Hr & Ht & Hp) Hc. destruct p as [|n|n|cv|[x|dp] [y|dg]]; try discriminate Hc; destruct Hp as [-> Hp].
  - inout. finish.
  - inout. finish.
  - inout. assert (is_u64 cv) by bound. finish. rewrite Z.mod_small by exact Hp. reflexivity.
  - inout. finish.
Qed.

Lemma reach_version : reaches imp junk initial GetVersion.
Proof.
  inout. finish.
  - rewrite length_set; rewrite ?Hlen; [reflexivity|]. unfold fixed. rewrite firstn_length, app_length, repeat_length. lia.
  - change (7 =? 7) with true. cbv iota. apply answers_result; [reflexivity|]. cbn [copy_back r_bytes].
    apply field_set_same; [|rewrite Hlen; lia]. unfold fixed. rewrite firstn_length, app_length, repeat_length. lia.
Qed.
Lemma reach_uuid : reaches imp junk initial GetTaUuid.
Proof.
  inout. finish.
  - rewrite length_set; rewrite ?Hlen; [reflexivity|]. unfold fixed. rewrite firstn_length, app_length, repeat_length. lia.
  - change (7 =? 7) with true. cbv iota. apply answers_result; [reflexivity|]. cbn [copy_back r_bytes].
    apply field_set_same; [|rewrite Hlen; lia]. unfold fixed. rewrite firstn_length, app_length, repeat_length. lia.
Qed.
Lemma reach_name o : proper (GetName o) -> reaches imp junk initial (GetName o).
Proof. cbn [proper]. intros H. destruct o as [n|id off n]; cbn in H; inout; cbn [out_len]; finish. Qed.
Lemma reach_device : reaches imp junk initial GetDeviceId.
Proof. inout. finish. Qed.
Lemma reach_export o m k : proper (KeyExport o m k) -> complete (KeyExport o m k) = true -> reaches imp junk initial (KeyExport o m k).
Proof.
  start; split_all.
  assert (Hm : forall x, m = InNull x -> x = 0) by (intros x ->; cbn in *; lia).
  assert (Ho : forall x, o = OutNull x -> x = 0) by (intros x ->; cbn in *; lia).
  destruct m as [x|b]; [rewrite (Hm x eq_refl) in *|]; destruct o as [n|id off n]; try rewrite (Ho n eq_refl) in *; cbn in H;
    inout; cbn [out_len]; finish.
Qed.
Lemma reach_import f d p : proper (KeyImport f d p) -> complete (KeyImport f d p) = true -> reaches imp junk initial (KeyImport f d p).
Proof.
  start; split_all. destruct d as [|[|x b]]; try discriminate.
  destruct p; cbn [import_params] in *; split_all; subst.
  - assert (f = 3 \/ f = 4) as [-> | ->] by lia; inout; finish.
  - inout. finish.
  - inout. finish.
  - inout. finish.
  - inout. finish. rewrite w8_first, w8_next by assumption. reflexivity.
  - eapply reach_inout; [cbn [client refuse_if in_bad import_params]; rewrite H5; reflexivity|]. finish.
Qed.

Lemma reach_get_public o k : proper (KeyGetPublic o k) -> reaches imp junk initial (KeyGetPublic o k).
Proof. start; split_all. destruct o as [n|id off n]; cbn in H; inout; cbn [out_len]; finish. Qed.
Lemma reach_digest o k d : proper (KeyDigest o k d) -> reaches imp junk initial (KeyDigest o k d).
Proof. start; split_all. destruct o as [n|id off n]; cbn in H; inout; cbn [out_len]; finish. Qed.
Lemma reach_compute o k : proper (MacCompute o k) -> reaches imp junk initial (MacCompute o k).
Proof. start; split_all. destruct o as [n|id off n]; cbn in H; inout; cbn [out_len]; finish. Qed.

Lemma reach_derive r alg p : proper (KeyDerive r alg p) -> complete (KeyDerive r alg p) = true -> reaches imp junk initial (KeyDerive r alg p).
Proof.
  start; split_all.
  destruct p; split_all;
  repeat match goal with H : optional ?x = true |- _ => apply optional_null in H; destruct H as [-> | [? ->]] end;
  repeat match goal with H : (zlen ?x =? 16) = true |- _ => apply Z.eqb_eq in H end.
  - destruct H1 as [-> | ->]; (eapply reach_inout; [cbn [client derive_params];
      repeat match goal with H : zlen ?x = 16 |- _ => rewrite H end; reflexivity|]; unfold refuse_if; finish).
  - subst. inout. finish.
  - subst. inout. finish.
  - subst. inout. finish.
  - subst. inout. finish.
  - subst. inout. finish.
  - subst. inout. finish.
  - subst. inout. finish.
  - subst. inout. finish.
  - subst. inout. finish.
  - subst. inout. finish.
  - subst. inout. finish.
Qed.

Lemma reach_exchange r alg k o p : proper (KeyExchange r alg k o p) -> complete (KeyExchange r alg k o p) = true ->
  reaches imp junk initial (KeyExchange r alg k o p).
Proof.
  start; split_all. destruct o as [|[|x b]]; try discriminate. destruct p.
  - assert (E : (alg =? 2) = false) by lia.
    eapply reach_inout; [cbn [client]; unfold EXCHANGE_NETFLIX; rewrite E; reflexivity|]. finish.
  - split_all; subst. inout. finish0.
    + walk. eapply exec_invoke; [resolve|]. cbv beta.
      erewrite exec_store; [reflexivity|reflexivity|]. repeat rewrite length_set8 by (repeat rewrite length_set8 by lia; lia). reflexivity.
    + split; [reflexivity|]. split; [rewrite length_set8 by lia; reflexivity|].
      change (7 =? 7) with true. cbv iota. apply answers_result; [|exact I].
      cbn [copy_back r_words results]. cbv beta iota delta [put_mem Nat.eqb bytes_of].
      repeat first [rewrite w8_set8 by room | rewrite w8_set8' by room]. reflexivity.
Qed.

Lemma reach_release k : proper (KeyRelease k) -> reaches imp junk initial (KeyRelease k).
Proof. start. input. finish. Qed.

Lemma reach_header k : proper (KeyHeader k) -> reaches imp junk initial (KeyHeader k).
Proof.
  start. inout. finish0.
  - walk. change (Z.of_nat HEADER_SIZE =? 1672) with true. walk. eapply exec_invoke; [resolve|]. cbv beta.
    erewrite exec_store; [reflexivity|reflexivity|]. rewrite fixed_length, Hjunk. reflexivity.
  - split; [reflexivity|]. split; [reflexivity|].
    change (7 =? 7) with true. cbv iota. apply answers_result; [reflexivity|].
    cbv beta iota zeta delta [put_mem Nat.eqb bytes_of copy_back r_bytes]. apply w4_616, fixed_length.
Qed.

Lemma reach_random o : proper (CryptoRandom o) -> complete (CryptoRandom o) = true -> reaches imp junk initial (CryptoRandom o).
Proof.
  start. destruct o as [n|id off n]; [discriminate|]. cbn in H. assert (E : (n =? 0) = false) by lia. input. finish.
Qed.
Lemma reach_cipher_init alg mode k p : proper (CipherInit alg mode k p) -> complete (CipherInit alg mode k p) = true ->
  reaches imp junk initial (CipherInit alg mode k p).
Proof.
  start; split_all. destruct p; split_all;
  repeat match goal with H : optional ?x = true |- _ => apply optional_null in H; destruct H as [-> | [? ->]] end;
  repeat match goal with H : given ?x = true |- _ => destruct x; [discriminate|clear H] end;
  repeat match goal with H : _ \/ _ |- _ => destruct H end; subst.
  - assert (alg = 0 \/ alg = 1 \/ alg = 6 \/ alg = 8) as [-> | [-> | [-> | ->]]] by lia; inout; finish.
  - inout; finish.
  - inout; finish.
  - inout; finish.
  - inout; finish.
  - inout; finish.
  - inout; finish.
  - inout; finish.
  - inout; finish.
  - inout; finish.
  - inout; finish.
Qed.
Lemma reach_update_iv x i : proper (CipherUpdateIv x i) -> complete (CipherUpdateIv x i) = true -> reaches imp junk initial (CipherUpdateIv x i).
Proof. start; split_all. destruct i as [|[|y b]]; try discriminate. input. finish. Qed.
Lemma reach_cipher_release k : proper (CipherRelease k) -> reaches imp junk initial (CipherRelease k).
Proof. start. input. finish. Qed.
Lemma reach_mac_release k : proper (MacRelease k) -> reaches imp junk initial (MacRelease k).
Proof. start. input. finish. Qed.
Lemma reach_mac_init alg k d : proper (MacInit alg k d) -> complete (MacInit alg k d) = true -> reaches imp junk initial (MacInit alg k d).
Proof.
  start; split_all. destruct (alg =? 1) eqn:E.
  - apply Z.eqb_eq in E; subst. destruct d; [|discriminate]. cbn in H3. inout. finish.
  - rewrite H2 in * by lia. eapply reach_inout; [cbn [client]; unfold HMAC; rewrite E; reflexivity|]. finish.
Qed.
Lemma reach_mac_process x d : proper (MacProcess x d) -> complete (MacProcess x d) = true -> reaches imp junk initial (MacProcess x d).
Proof. start; split_all. apply optional_null in H0. destruct H0 as [-> | [b ->]]; input; finish. Qed.
Lemma reach_mac_process_key x k : proper (MacProcessKey x k) -> reaches imp junk initial (MacProcessKey x k).
Proof. start; split_all. input. finish. Qed.
Lemma reach_svp_supported : reaches imp junk initial SvpSupported.
Proof. input. finish. Qed.
Lemma reach_svp_create m s : proper (SvpCreate m s) -> complete (SvpCreate m s) = true -> reaches imp junk initial (SvpCreate m s).
Proof.
  start; split_all. assert (E : (m =? 0) = false) by lia.
  eapply reach_inout; [cbn [client]; rewrite E; reflexivity|]. finish.
Qed.
Lemma reach_svp_release b : proper (SvpRelease b) -> reaches imp junk initial (SvpRelease b).
Proof. start. inout. finish. Qed.
Lemma reach_buffer_check b o l d h : proper (SvpBufferCheck b o l d h) -> complete (SvpBufferCheck b o l d h) = true ->
  reaches imp junk initial (SvpBufferCheck b o l d h).
Proof. start; split_all. destruct h as [|[|y h]]; try discriminate. input. finish. Qed.
Lemma reach_sign o alg k d p : proper (CryptoSign o alg k d p) -> complete (CryptoSign o alg k d p) = true ->
  reaches imp junk initial (CryptoSign o alg k d p).
Proof.
  start; split_all. apply optional_null in H0.
  assert (Hb : forall b : bool, 0 <= (if b then 1 else 0) < 256) by (intros []; lia).
  destruct p; split_all; subst.
  - assert (E0 : (alg =? 0) = false) by lia. assert (E1 : (alg =? 1) = false) by lia. assert (E2 : (alg =? 2) = false) by lia.
    destruct H0 as [-> | [b ->]]; destruct o as [n|id off n]; cbn in H;
    (eapply reach_inout; [cbn [client]; unfold RSA_PSS, RSA_PKCS1V15, ECDSA; rewrite E0, E1, E2; reflexivity|]; cbn [out_len]; finish).
  - destruct H0 as [-> | [b ->]]; destruct o as [n|id off n]; cbn in H; destruct precomputed; inout; cbn [out_len]; finish.
  - destruct H0 as [-> | [b ->]]; destruct o as [n|id off n]; cbn in H; destruct precomputed; inout; cbn [out_len]; finish.
  - destruct H0 as [-> | [b ->]]; destruct o as [n|id off n]; cbn in H; destruct precomputed; inout; cbn [out_len]; finish.
Qed.

End All.
