(** Proofs about the signatures of the provider. *)
From Verif Require Import Base S_Bytes M_Rights M_Mac M_Unwrap M_Asym S_Rights S_Asym P_Kdf P_Unwrap P_Asym M_ProvSign S_ProvSign.

(** ** DER *)
Lemma number_fold l : forall acc, fold_left (fun a b => a * 256 + b) l acc = number_of acc l.
Proof. induction l as [|b l IH]; intros acc; [reflexivity|]. cbn. apply IH. Qed.
Lemma bin2bn_number l : bin2bn l = number_of 0 l.
Proof. apply number_fold. Qed.
Lemma number_bound l : Forall byte_ok l -> forall acc, 0 <= acc -> 0 <= number_of acc l < (acc + 1) * 256 ^ zlen l.
Proof.
  induction 1 as [|b l B _ IH]; intros acc A; cbn [number_of].
  - change (zlen (@nil Z)) with 0. lia.
  - unfold byte_ok in B. specialize (IH (acc * 256 + b)). replace (zlen (b :: l)) with (zlen l + 1) by (unfold zlen; cbn [length]; lia).
    rewrite Z.pow_add_r by (unfold zlen; lia). assert (0 < 256 ^ zlen l) by (apply Z.pow_pos_nonneg; unfold zlen; lia). nia.
Qed.
Lemma bit_length_spec z : 0 <= z -> 0 <= bit_length z /\ z < 2 ^ bit_length z /\ (0 < bit_length z -> 2 ^ (bit_length z - 1) <= z).
Proof.
  intros P. unfold bit_length. destruct (Z.eqb_spec z 0) as [->|N]; [cbn; lia|].
  destruct (Z.log2_spec z) as [A B]; [lia|]. pose proof (Z.log2_nonneg z). replace (Z.log2 z + 1 - 1) with (Z.log2 z) by lia.
  replace (Z.succ (Z.log2 z)) with (Z.log2 z + 1) in B by lia. lia.
Qed.
Lemma pow256 n : 0 <= n -> 256 ^ n = 2 ^ (8 * n).
Proof. intros P. change 256 with (2 ^ 8). now rewrite <- Z.pow_mul_r by lia. Qed.
Lemma int_length_bound z k : 0 <= k -> 0 <= z < 256 ^ k -> 1 <= int_length z <= k + 1.
Proof.
  intros K [P B]. unfold int_length. destruct (bit_length_spec z P) as (N & _ & M). rewrite pow256 in B by lia.
  assert (bit_length z <= 8 * k).
  { destruct (Z.le_gt_cases (bit_length z) (8 * k)) as [|G]; [assumption|exfalso]. specialize (M ltac:(lia)).
    assert (2 ^ (8 * k) <= 2 ^ (bit_length z - 1)) by (apply Z.pow_le_mono_r; lia). lia. }
  assert (bit_length z / 8 <= k) by (apply Z.div_le_upper_bound; lia). assert (0 <= bit_length z / 8) by (apply Z.div_pos; lia). lia.
Qed.
Lemma der_int_ok z k : 0 <= k <= 100 -> 0 <= z < 256 ^ k -> der_integer z (der_int z) /\ zlen (der_int z) <= k + 3.
Proof.
  intros K B. pose proof (int_length_bound z k ltac:(lia) B) as I. destruct (bit_length_spec z ltac:(lia)) as (N & U & M).
  unfold der_int. set (n := int_length z) in *.
  assert (Q : Z.to_nat n = S (Z.to_nat (n - 1))) by lia. rewrite Q.
  assert (LEN : zlen (be_bytes (S (Z.to_nat (n - 1))) z) = n) by (unfold zlen; rewrite be_length; lia).
  pose proof (be_ok (S (Z.to_nat (n - 1))) z) as OKB.
  assert (D : 8 * (n - 1) <= bit_length z < 8 * n) by (unfold n, int_length; pose proof (Z.div_mod (bit_length z) 8); pose proof (Z.mod_pos_bound (bit_length z) 8); lia).
  assert (SAME : number_of 0 (be_bytes (S (Z.to_nat (n - 1))) z) = z).
  { rewrite <- Q. apply be_same; [|lia]. split; [lia|]. rewrite pow256 by lia. eapply Z.lt_le_trans; [exact U|]. apply Z.pow_le_mono_r; lia. }
  split.
  2: { unfold zlen in *. cbn [length] in *. rewrite be_length in *. lia. }
  cbn [be_bytes] in *. rewrite Z2Nat.id in * by lia.
  assert (F : z / 256 ^ (n - 1) < 128).
  { apply Z.div_lt_upper_bound; [apply Z.pow_pos_nonneg; lia|]. rewrite pow256 by lia. change 128 with (2 ^ 7). rewrite <- Z.pow_add_r by lia.
    eapply Z.lt_le_trans; [exact U|]. apply Z.pow_le_mono_r; lia. }
  assert (F0 : 0 <= z / 256 ^ (n - 1)) by (apply Z.div_pos; [lia|apply Z.pow_pos_nonneg; lia]).
  rewrite <- LEN at 1. apply der_integer_intro.
  - exact OKB.
  - exact SAME.
  - rewrite Z.mod_small by lia. exact F.
  - rewrite Z.mod_small by lia. intros E0. destruct (Z.to_nat (n - 1)) as [|m] eqn:EM; [now left|right]. cbn [be_bytes]. do 2 eexists. split; [reflexivity|].
    assert (EM' : Z.of_nat m = n - 2) by lia. rewrite EM'.
    assert (z < 256 ^ (n - 1)).
    { destruct (Z.lt_ge_cases z (256 ^ (n - 1))) as [|G]; [assumption|exfalso].
      assert (1 <= z / 256 ^ (n - 1)); [|lia]. apply Z.div_le_lower_bound; [apply Z.pow_pos_nonneg; lia|lia]. }
    assert (L2 : 128 <= z / 256 ^ (n - 2)).
    { apply Z.div_le_lower_bound; [apply Z.pow_pos_nonneg; lia|]. rewrite pow256 by lia. change 128 with (2 ^ 7). rewrite Z.mul_comm, <- Z.pow_add_r by lia.
      eapply Z.le_trans; [|apply M; lia]. apply Z.pow_le_mono_r; lia. }
    rewrite Z.mod_small; [exact L2|]. split; [lia|]. apply Z.div_lt_upper_bound; [apply Z.pow_pos_nonneg; lia|].
    replace (256 ^ (n - 2) * 256) with (256 ^ (n - 1)); [assumption|]. replace (n - 1) with (n - 2 + 1) by lia. rewrite Z.pow_add_r by lia. lia.
  - rewrite LEN. lia.
Qed.
Lemma der_pair_ok r s k : 0 <= k <= 100 -> 0 <= r < 256 ^ k -> 0 <= s < 256 ^ k ->
  ecdsa_der r s (der_pair r s) /\ zlen (der_pair r s) <= 2 * k + 9.
Proof.
  intros K R S. destruct (der_int_ok r k K R) as [R1 R2]. destruct (der_int_ok s k K S) as [S1 S2].
  assert (zlen (der_int r ++ der_int s) <= 2 * k + 6) by (unfold zlen in *; rewrite app_length; lia).
  unfold der_pair. cbv zeta. set (body := der_int r ++ der_int s) in *. split.
  - exists (der_int r), (der_int s). repeat split; auto. fold body. unfold der_sequence. destruct (Z.ltb_spec (zlen body) 128).
    + left. split; [assumption|reflexivity].
    + right. split; [lia|reflexivity].
  - unfold zlen in *. destruct (Z.of_nat (length body) <? 128); cbn [app length]; lia.
Qed.

(** ** Signing *)
Lemma ec_encode_halves l1 l2 n : zlen l1 = n -> zlen l2 = n -> ec_encode (l1 ++ l2) = der_pair (number_of 0 l1) (number_of 0 l2).
Proof.
  intros A B. unfold ec_encode. assert (E : length l1 = length l2) by (unfold zlen in *; lia).
  assert (H : Nat.div (length (l1 ++ l2)) 2 = length l1) by (rewrite app_length, E; symmetry; apply Nat.div_unique with 0%nat; lia).
  rewrite H, !bin2bn_number, firstn_app, Nat.sub_diag, firstn_all, skipn_app, skipn_all, Nat.sub_diag.
  change (firstn 0 l2) with (@nil Z). rewrite app_nil_r, skipn_O. cbn [app]. rewrite E, firstn_all. reflexivity.
Qed.
Lemma max_salt bits : 0 < bits -> (let n := pkey_size bits in if bits mod 8 =? 1 then n - 1 else n) = (bits - 1 + 7) / 8.
Proof.
  intros P. cbv zeta. unfold pkey_size. pose proof (Z.div_mod bits 8 ltac:(lia)) as D. pose proof (Z.mod_pos_bound bits 8 ltac:(lia)) as B.
  set (q := bits / 8) in *. set (m := bits mod 8) in *. clearbody q m. subst bits. replace (8 * q + m - 1 + 7) with (q * 8 + (m + 6)) by lia. replace (8 * q + m + 7) with (q * 8 + (m + 7)) by lia.
  rewrite !Z.div_add_l by lia. assert (m = 0 \/ m = 1 \/ m = 2 \/ m = 3 \/ m = 4 \/ m = 5 \/ m = 6 \/ m = 7) as H by lia.
  repeat destruct H as [->|H]; try (cbn; lia). subst m. cbn. lia.
Qed.
Lemma known_default d : known_digest d -> digest_or_default (Some d) = d.
Proof. intros K. cbn. now rewrite (proj2 (digest_ok_iff d) K). Qed.
Lemma ec_size_bound k : size_allowed 1 (p_curve (k_params k)) (k_size k) -> 0 <= k_size k <= 66.
Proof.
  intros H. inversion H as [| |c s I|]; subst. cbn [In] in I.
  repeat destruct I as [E|I]; try (injection E; intros; lia). destruct I.
Qed.
Lemma firstn_zlen (a b : list Z) : firstn (Z.to_nat (zlen a)) (a ++ b) = a.
Proof. unfold zlen. rewrite Nat2Z.id, firstn_app, Nat.sub_diag, firstn_all. change (firstn 0 b) with (@nil Z). apply app_nil_r. Qed.

Lemma sign_valid L c k kd d now buf tbs local coins answer buf' n :
  good_alib L -> well_formed L k -> data_of L k kd -> c_key c = Some kd -> c_md c = Some d -> known_digest d ->
  (uses_pss c k -> answer = true /\ whole L k /\ zlen tbs = digest_length d /\ mgf1_settled c d /\ int_salt c) ->
  signature_sign L c now (Some buf) (Bytes tbs) local coins answer = Signed true buf' n ->
  may_sign k now /\ exists sig, buf' = sig ++ skipn (length sig) buf /\ n = Some (zlen sig) /\ zlen sig <= zlen buf /\ as_asked L c k d tbs sig.
Proof.
  intros GA W (DP & DT & DC & DPub & DB) CK CM KD PSS H. unfold signature_sign in H. rewrite CK in H. cbv zeta in H.
  unfold algorithm_for in H. rewrite CM, (known_default d KD), DP, DT, DC in H. cbv zeta in H.
  assert (STEP : forall alg, wide_salt alg ->
     (is_pss alg = true -> answer = true /\ whole L k /\ digest_given alg tbs) ->
     match crypto_sign L alg k now (Some local) (Bytes tbs) coins answer with
     | Done OK out n =>
         let s := firstn (Z.to_nat n) out in
         let s := if k_type k =? KT_EC then ec_encode s else s in
         if zlen buf <? zlen s then Overruns else Signed true (s ++ skipn (length s) buf) (Some (zlen s))
     | Done _ _ _ => Signed false buf None
     end = Signed true buf' n ->
     may_sign k now /\ signs_with alg k /\ salt_fits alg k /\ exists sig, valid_signature L alg k tbs sig /\
       let s := if k_type k =? KT_EC then ec_encode sig else sig in
       buf' = s ++ skipn (length s) buf /\ n = Some (zlen s) /\ zlen s <= zlen buf).
  { intros alg WS P X. destruct (crypto_sign L alg k now (Some local) (Bytes tbs) coins answer) as [st out m] eqn:E.
    assert (st = OK) by (destruct st; congruence). subst st.
    destruct (sign_sound L alg k now local (Bytes tbs) coins answer out m GA W WS P E) as (S1 & S2 & _ & S4 & sig & -> & -> & _ & V & _).
    split; [exact S2|]. split; [exact S1|]. split; [exact S4|]. exists sig. split; [exact V|]. cbv zeta in *. rewrite firstn_zlen in X.
    set (s := if k_type k =? KT_EC then ec_encode sig else sig) in *. destruct (Z.ltb_spec (zlen buf) (zlen s)); [discriminate|]. split; [congruence|]. split; [congruence|lia]. }
  destruct (Z.eqb_spec (k_type k) KT_RSA) as [T|T].
  - assert (T2 : k_type k = 2) by exact T. specialize (DB T2). assert (NE : (k_type k =? KT_EC) = false) by now rewrite T2.
    destruct (Z.eqb_spec (c_pad c) PAD_PKCS1) as [P1|P1]; [|destruct (Z.eqb_spec (c_pad c) PAD_PSS) as [P6|P6]; [|discriminate] ].
    + destruct (STEP (SPkcs1 (Some (d, true))) Logic.I ltac:(discriminate) H) as (S1 & S2 & _ & sig & V & B1 & B2 & B3). rewrite NE in *. cbv zeta in *.
      split; [exact S1|]. exists sig. repeat (split; [assumption|]). left. split; [exact T2|]. split; [exact P1|exact V].
    + destruct (PSS (conj T2 P6)) as (A1 & A2 & A3 & A4 & A5).
      destruct (salt_length (d_bits kd) d (c_salt c)) as [sl|] eqn:SL; [|discriminate].
      destruct (STEP (SPss (Some (d, digest_or_default (c_mgf1 c), wrap64 sl, true)))) as (S1 & S2 & S3 & sig & V & B1 & B2 & B3).
      * cbn. unfold wrap64. apply Z.mod_pos_bound. reflexivity.
      * intros _. repeat (split; [assumption|]). exact A3.
      * exact H.
      * rewrite NE in *. cbv zeta in *. split; [exact S1|]. exists sig. repeat (split; [assumption|]). right. left. split; [exact T2|]. split; [exact P6|].
        cbn [salt_fits signs_with valid_signature what_is_signed] in S2, S3, V. destruct S2 as (_ & _ & _ & SZ). pose proof (rsa_size_bound k SZ) as RB. pose proof (digest_bound d KD) as DBD.
        assert (MG : digest_or_default (c_mgf1 c) = mgf1_of d (c_mgf1 c)).
        { unfold mgf1_settled in A4. destruct (c_mgf1 c) as [m|]; [now apply known_default|]. now subst d. }
        rewrite MG in V.
        assert (SLR : - 2 ^ 31 <= sl < 2 ^ 31 /\ (0 <= sl -> salt_means (d_bits kd) d (c_salt c) sl)).
        { pose proof (ga_bits L GA 6 (k_bytes k) (d_bits kd) DB) as BP.
          unfold salt_length in SL. destruct (Z.eqb_spec (c_salt c) SALT_DIGEST) as [Q|Q].
          - injection SL as <-. split; [lia|]. intros _. right. left. split; [exact Q|reflexivity].
          - destruct ((c_salt c =? SALT_AUTO) || (c_salt c =? SALT_MAX)) eqn:Q2.
            + cbv zeta in SL.
              assert (MS : (if d_bits kd mod 8 =? 1 then pkey_size (d_bits kd) - digest_length d - 2 - 1 else pkey_size (d_bits kd) - digest_length d - 2) = (d_bits kd - 1 + 7) / 8 - digest_length d - 2).
              { rewrite <- (max_salt (d_bits kd) BP). cbv zeta. destruct (d_bits kd mod 8 =? 1); lia. }
              rewrite MS in SL. clear MS. destruct ((d_bits kd - 1 + 7) / 8 - digest_length d - 2 <? 0) eqn:NEG; [discriminate|]. injection SL as <-.
              destruct W as (bits & WB & WS & _); [lia|]. rewrite (pkey_rsa k T2) in WB. change PKEY_RSA with 6 in WB. rewrite DB in WB. injection WB as <-. specialize (WS T2).
              assert (d_bits kd < 8 * 513). { pose proof (Z.div_mod (d_bits kd) 8). pose proof (Z.mod_pos_bound (d_bits kd) 8). lia. }
              assert ((d_bits kd - 1 + 7) / 8 < 1000) by (apply Z.div_lt_upper_bound; lia).
              apply Z.ltb_ge in NEG. split; [lia|]. intros _.
              apply orb_true_iff in Q2. destruct Q2 as [Q2|Q2]; apply Z.eqb_eq in Q2; unfold salt_means; [right; right; now left|right; right; right; split; [exact Q2|reflexivity] ].
            + injection SL as <-. split; [exact A5|]. intros N. left. lia. }
        destruct SLR as [SR SM].
        assert (0 <= sl).
        { destruct (Z.le_gt_cases 0 sl) as [|G]; [assumption|exfalso]. unfold wrap64 in S3.
          replace (sl mod W64) with (sl + W64) in S3; [rewrite W64_val in S3; lia|]. apply Z.mod_unique_pos with (-1); rewrite W64_val; lia. }
        assert (WR : wrap64 sl = sl) by (unfold wrap64; apply Z.mod_small; rewrite W64_val; lia). rewrite WR in V.
        exists (d_bits kd), sl. repeat (split; [solve [auto]|]). exact V.
  - destruct (Z.eqb_spec (k_type k) KT_EC) as [T1|T1]; [|discriminate].
    destruct (is_pcurve (p_curve (k_params k))) eqn:PC; [|discriminate].
    destruct (STEP (SEcdsa (Some (d, true))) Logic.I ltac:(discriminate) H) as (S1 & S2 & _ & sig & V & B1 & B2 & B3). cbv zeta iota in *.
    split; [exact S1|]. exists (ec_encode sig). repeat (split; [assumption|]). right. right. split; [exact T1|]. split; [now apply pcurve_iff|].
    destruct V as (l1 & l2 & -> & Q1 & Q2 & FB & V). cbn [what_is_signed] in V. rewrite (ec_encode_halves l1 l2 (k_size k) Q1 Q2).
    apply Forall_app in FB. destruct FB as [F1 F2].
    exists (number_of 0 l1), (number_of 0 l2). split; [|exact V].
    destruct S2 as (_ & _ & _ & SZ). pose proof (ec_size_bound k SZ).
    pose proof (number_bound l1 F1 0 ltac:(lia)) as N1. pose proof (number_bound l2 F2 0 ltac:(lia)) as N2. rewrite Q1 in N1. rewrite Q2 in N2.
    apply (der_pair_ok _ _ (k_size k)); lia.
Qed.

Lemma mgf1_known c d : mgf1_settled c d \/ c_mgf1 c = None -> known_digest (digest_or_default (c_mgf1 c)).
Proof.
  unfold mgf1_settled. destruct (c_mgf1 c) as [m|]; intros [H|H]; try discriminate; try (cbn; unfold known_digest; cbn; tauto).
  now rewrite known_default.
Qed.
Lemma algorithm_can L c k kd d : good_alib L -> well_formed L k -> whole L k -> data_of L k kd -> c_md c = Some d -> known_digest d ->
  (uses_pss c k -> mgf1_settled c d \/ c_mgf1 c = None) -> can_sign c k d ->
  exists alg, algorithm_for c kd = Some alg /\ wide_salt alg /\ signs_with alg k /\ salt_fits alg k /\
    (forall tbs, zlen tbs = digest_length d -> digest_given alg tbs) /\ signature_size alg k = (if k_type k =? 1 then 2 * k_size k else k_size k).
Proof.
  intros GA W WH (DP & DT & DC & DPub & DB) CM KD MG CAN. unfold algorithm_for. rewrite CM, (known_default d KD), DT, DC. cbv zeta.
  destruct CAN as [(T & N & SZ)|(T & SZ & CAN)].
  - rewrite T. change (1 =? KT_RSA) with false. change (1 =? KT_EC) with true. change (1 =? 1) with true. cbv iota. rewrite (proj2 (pcurve_iff _) N). eexists. split; [reflexivity|].
    split; [exact Logic.I|]. split; [repeat split; auto|]. split; [exact Logic.I|]. split; [intros; exact Logic.I|]. reflexivity.
  - specialize (DB T). rewrite T. change (2 =? KT_RSA) with true. change (2 =? 1) with false. cbv iota. pose proof (rsa_size_bound k SZ) as RB. pose proof (digest_bound d KD) as DBD.
    destruct CAN as [P|[P CAN] ]; rewrite P.
    + change (1 =? PAD_PKCS1) with true. cbv iota. eexists. split; [reflexivity|]. split; [exact Logic.I|]. split; [repeat split; auto|].
      split; [exact Logic.I|]. split; [now intros|]. reflexivity.
    + change (6 =? PAD_PKCS1) with false. change (6 =? PAD_PSS) with true. cbv iota.
      destruct (WH T) as (bits & WB & M8). rewrite DB in WB. injection WB as <-.
      destruct (W ltac:(lia)) as (bits & WB & WS & _). rewrite (pkey_rsa k T) in WB. change PKEY_RSA with 6 in WB. rewrite DB in WB. injection WB as <-. specialize (WS T).
      assert (PK : pkey_size (d_bits kd) = k_size k).
      { unfold pkey_size. rewrite <- WS. pose proof (Z.div_mod (d_bits kd) 8 ltac:(lia)). symmetry. apply Z.div_unique with 7; lia. }
      assert (SL : exists sl, salt_length (d_bits kd) d (c_salt c) = Some sl /\ 0 <= sl <= k_size k - digest_length d - 2).
      { unfold salt_length. cbv zeta in CAN. rewrite M8, PK. change (0 =? 1) with false. cbv zeta iota.
        destruct CAN as [ [-> C]|[-> |[-> |C] ] ].
        - change (-1 =? SALT_DIGEST) with true. eexists. split; [reflexivity|lia].
        - change (-2 =? SALT_DIGEST) with false. change ((-2 =? SALT_AUTO) || (-2 =? SALT_MAX)) with true. cbv iota.
          destruct (Z.ltb_spec (k_size k - digest_length d - 2) 0); [lia|]. eexists. split; [reflexivity|lia].
        - change (-3 =? SALT_DIGEST) with false. change ((-3 =? SALT_AUTO) || (-3 =? SALT_MAX)) with true. cbv iota.
          destruct (Z.ltb_spec (k_size k - digest_length d - 2) 0); [lia|]. eexists. split; [reflexivity|lia].
        - replace (c_salt c =? SALT_DIGEST) with false by (unfold SALT_DIGEST; lia).
          replace ((c_salt c =? SALT_AUTO) || (c_salt c =? SALT_MAX)) with false by (unfold SALT_AUTO, SALT_MAX; lia). eexists. split; [reflexivity|lia]. }
      destruct SL as (sl & -> & SR). assert (WR : wrap64 sl = sl) by (unfold wrap64; apply Z.mod_small; rewrite W64_val; lia). rewrite WR.
      eexists. split; [reflexivity|]. split; [cbn; lia|]. split.
      { cbn. repeat split; auto. apply (mgf1_known c d). apply MG. split; assumption. }
      split; [cbn; lia|]. split; [now intros|]. reflexivity.
Qed.
Lemma der_fits l1 l2 n : zlen l1 = n -> zlen l2 = n -> n <= 100 -> Forall byte_ok (l1 ++ l2) -> zlen (ec_encode (l1 ++ l2)) <= 2 * n + 9.
Proof.
  intros A B C F. apply Forall_app in F. destruct F as [F1 F2]. rewrite (ec_encode_halves l1 l2 n A B).
  pose proof (number_bound l1 F1 0 ltac:(lia)) as N1. pose proof (number_bound l2 F2 0 ltac:(lia)) as N2. rewrite A in N1. rewrite B in N2.
  apply (der_pair_ok _ _ n); unfold zlen in *; lia.
Qed.
Lemma sign_announced L c k kd d now tbs local coins answer : good_alib L -> well_formed L k -> whole L k -> data_of L k kd ->
  c_key c = Some kd -> c_md c = Some d -> known_digest d -> (uses_pss c k -> mgf1_settled c d \/ c_mgf1 c = None) -> can_sign c k d -> may_sign k now ->
  signature_sign L c now None tbs local coins answer = Signed true [] (Some (announced k)).
Proof.
  intros GA W WH DO CK CM KD MG CAN MAY. destruct (algorithm_can L c k kd d GA W WH DO CM KD MG CAN) as (alg & A & WS & SW & _ & _ & SS).
  destruct DO as (DP & DT & DC & DPub & DB). unfold signature_sign. rewrite CK, A, DP. cbv zeta.
  assert (DG : data_given (match tbs with Null _ => Null 0 | Bytes b => Bytes b end)) by (destruct tbs; cbn; auto; lia).
  destruct (proj2 (sign_query L alg k now (match tbs with Null _ => Null 0 | Bytes b => Bytes b end) coins answer (signature_size alg k)) (conj SW (conj MAY (conj DG eq_refl)))) as [b ->].
  rewrite DT, SS. unfold announced. change KT_EC with 1. destruct (k_type k =? 1); reflexivity.
Qed.
Lemma sign_succeeds L c k kd d now buf tbs local coins : good_alib L -> well_formed L k -> whole L k -> data_of L k kd ->
  c_key c = Some kd -> c_md c = Some d -> known_digest d -> (uses_pss c k -> mgf1_settled c d \/ c_mgf1 c = None) -> can_sign c k d -> may_sign k now ->
  zlen tbs = digest_length d -> zlen local = 512 -> announced k <= zlen buf ->
  exists buf' n, signature_sign L c now (Some buf) (Bytes tbs) local coins true = Signed true buf' (Some n).
Proof.
  intros GA W WH DO CK CM KD MG CAN MAY LT LL AB. destruct (algorithm_can L c k kd d GA W WH DO CM KD MG CAN) as (alg & A & WS & SW & SF & DGV & SS).
  destruct DO as (DP & DT & DC & DPub & DB). unfold signature_sign. rewrite CK, A, DP. cbv zeta.
  assert (SB : signature_size alg k <= zlen local).
  { rewrite SS, LL. destruct CAN as [(T & N & SZ)|(T & SZ & _)]; rewrite T.
    - pose proof (ec_size_bound k SZ). cbn. lia.
    - pose proof (rsa_size_bound k SZ). cbn. lia. }
  destruct (sign_complete L alg k now local (Bytes tbs) coins GA W WS WH SW MAY Logic.I SF (DGV tbs LT) SB) as [out E]. rewrite E.
  destruct (sign_sound L alg k now local (Bytes tbs) coins true out _ GA W WS (fun _ => conj eq_refl (conj WH (DGV tbs LT))) E) as (_ & _ & _ & _ & sig & -> & Q & _ & V & SZS).
  rewrite Q, firstn_zlen, DT. specialize (SZS WH). unfold announced in AB. change KT_EC with 1.
  assert (FITS : zlen (if k_type k =? 1 then ec_encode sig else sig) <= zlen buf).
  { destruct (Z.eqb_spec (k_type k) 1) as [T|T]; [|lia].
    destruct CAN as [(T' & N & SZ)|(T' & _)]; [|lia]. pose proof (ec_size_bound k SZ).
    unfold algorithm_for in A. rewrite DT, T, DC, (proj2 (pcurve_iff _) N) in A. cbn in A. injection A as <-. destruct V as (l1 & l2 & -> & Q1 & Q2 & FB & _).
    pose proof (der_fits l1 l2 (k_size k) Q1 Q2 ltac:(lia) FB). lia. }
  destruct (Z.ltb_spec (zlen buf) (zlen (if k_type k =? 1 then ec_encode sig else sig))); [lia|]. do 2 eexists. reflexivity.
Qed.

(** ** Verifying *)
Lemma verify_valid L V c k kd d msg sig : good_vlib L V -> public_of L k kd -> c_key c = Some kd -> c_md c = Some d ->
  as_asked L c k d msg sig -> signature_verify V c sig msg = true.
Proof.
  intros GV (DT & DC & DPub) CK CM H. unfold signature_verify. rewrite CK. unfold verify_scheme. rewrite DT, DC, DPub, CM.
  destruct H as [(T & P & H)|[(T & P & bits & salt & B & S0 & SM & H)|(T & N & r & s & D & H)] ]; rewrite T.
  - change (2 =? KT_RSA) with true. rewrite P. cbn. now rewrite (gv_pkcs1 L V GV).
  - change (2 =? KT_RSA) with true. rewrite P. cbn. apply (gv_pss L V GV _ _ _ _ bits); [exact B|]. now exists salt.
  - change (1 =? KT_RSA) with false. change (1 =? KT_EC) with true. cbn [andb]. rewrite (proj2 (pcurve_iff _) N). now rewrite (gv_ecdsa L V GV d _ _ r s).
Qed.
Lemma updates_hash c ps c' d data : c_hash c = Hashing d data -> updates c ps = Some c' -> c' = with_hash c (Hashing d (data ++ concat ps)).
Proof.
  revert c data. induction ps as [|p ps IH]; intros c data H U; cbn [updates concat] in *.
  - injection U as <-. rewrite app_nil_r, <- H. now destruct c.
  - unfold digest_update in U. rewrite H in U. destruct p as [|b p].
    + cbn [app]. exact (IH c data H U).
    + apply (IH _ (data ++ b :: p)) in U; [|reflexivity]. rewrite U. destruct c; cbn. now rewrite <- app_assoc.
Qed.
Lemma verify_asked L V c k kd d msg sig : good_vlib L V -> well_formed L k -> public_of L k kd -> c_key c = Some kd -> c_md c = Some d -> In (c_pad c) [1; 6] ->
  (k_type k = 1 -> exists r s, ecdsa_der r s sig) -> signature_verify V c sig msg = true -> as_asked L c k d msg sig.
Proof.
  intros GV W (DT & DC & DPub) CK CM P D H. unfold signature_verify in H. rewrite CK in H. unfold verify_scheme in H. rewrite DT, DC, DPub, CM in H.
  destruct (Z.eqb_spec (k_type k) KT_RSA) as [T|T].
  - cbn in P. destruct P as [P|[P|[] ] ]; rewrite <- P in H; cbn in H.
    + left. rewrite (gv_pkcs1 L V GV) in H. repeat split; auto.
    + right. left. change (k_type k = 2) in T. destruct (W ltac:(lia)) as (bits & WB & _ & _). rewrite (pkey_rsa k T) in WB.
      apply (gv_pss L V GV _ _ _ _ bits) in H; [|exact WB]. destruct H as (salt & S0 & SM & H). repeat split; auto. exists bits, salt. repeat split; auto.
  - destruct (Z.eqb_spec (k_type k) KT_EC) as [T1|T1]; cbn [andb] in H; [|discriminate]. destruct (is_pcurve (p_curve (k_params k))) eqn:PC; [|discriminate].
    right. right. split; [exact T1|]. split; [now apply pcurve_iff|]. destruct (D T1) as (r & s & DER). exists r, s. split; [exact DER|]. now rewrite (gv_ecdsa L V GV d _ _ r s) in H.
Qed.

(** ** Data in pieces *)
Lemma set_sparams_key c k o : set_sparams (with_key c k) o = let '(b, c') := set_sparams c o in (b, with_key c' k).
Proof.
  unfold set_sparams, set_md, set_mgf1, set_pad, set_salt. destruct c, o as [m p g s]; cbn.
  destruct m as [ [m|]|]; destruct p as [ [z|[z|] ]|]; destruct g as [ [g|]|]; destruct s; cbn; try reflexivity; destruct ((z =? PAD_PKCS1) || (z =? PAD_PSS)); reflexivity.
Qed.
Lemma set_sparams_hash c o : c_hash (snd (set_sparams c o)) = c_hash c.
Proof.
  unfold set_sparams, set_md, set_mgf1, set_pad, set_salt. destruct c, o as [m p g s]; cbn.
  destruct m as [ [m|]|]; destruct p as [ [z|[z|] ]|]; destruct g as [ [g|]|]; destruct s; cbn; try reflexivity; destruct ((z =? PAD_PKCS1) || (z =? PAD_PSS)); reflexivity.
Qed.
Lemma digest_init_ok c d k o c0 : digest_init c (Name (Some d)) k o = (true, c0) -> c_key c0 <> None ->
  is_edwards k = false /\ exists c', set_sparams c o = (true, c') /\ c0 = with_md (with_hash (with_key c' (Some k)) (Hashing d [])) (Some d).
Proof.
  unfold digest_init, sign_init. rewrite set_sparams_key. destruct (set_sparams c o) as [b c'].
  destruct b; intros H N.
  - destruct (is_edwards k).
    + injection H as <-. now destruct N.
    + split; [reflexivity|]. exists c'. split; [reflexivity|]. congruence.
  - injection H as <-. now destruct N.
Qed.
Lemma round_trip L V k kd kd' d o c0 c0' ps ps' c1 c1' now buf md local coins answer buf' n c2 :
  good_alib L -> good_vlib L V -> well_formed L k -> data_of L k kd -> public_of L k kd' -> known_digest d ->
  digest_init new_sctx (Name (Some d)) kd o = (true, c0) -> c_key c0 <> None ->
  digest_init new_sctx (Name (Some d)) kd' o = (true, c0') ->
  (uses_pss c0 k -> answer = true /\ whole L k /\ mgf1_settled c0 d /\ int_salt c0) ->
  updates c0 ps = Some c1 -> updates c0' ps' = Some c1' -> concat ps = concat ps' ->
  digest_sign_final L c1 now (Some buf) md local coins answer = (Signed true buf' n, c2) ->
  exists c2' sig, n = Some (zlen sig) /\ buf' = sig ++ skipn (length sig) buf /\ digest_verify_final L V c1' sig = Some (true, c2').
Proof.
  intros GA GV W DO PO KD I0 K0 I0' PSS U U' E H.
  destruct (digest_init_ok _ _ _ _ _ I0 K0) as (NE & c' & S & ->).
  assert (NE' : is_edwards kd' = false).
  { destruct DO as (_ & DT & DC & _), PO as (DT' & DC' & _). unfold is_edwards in *. now rewrite DT', DC', <- DT, <- DC. }
  assert (E0 : c0' = with_md (with_hash (with_key c' (Some kd')) (Hashing d [])) (Some d)).
  { unfold digest_init, sign_init in I0'. rewrite set_sparams_key, S, NE' in I0'. congruence. }
  subst c0'. apply (updates_hash _ _ _ d []) in U; [|reflexivity]. apply (updates_hash _ _ _ d []) in U'; [|reflexivity]. cbn [app] in U, U'.
  subst c1 c1'. cbn [digest_sign_final digest_verify_final with_hash with_md with_key c_hash c_key c_md c_mgf1 c_pad c_salt] in H |- *.
  injection H as H <-. rewrite <- E.
  apply (sign_valid L _ k kd d) in H; try assumption; try reflexivity.
  - destruct H as (_ & sig & -> & -> & _ & A). do 2 eexists. split; [reflexivity|]. split; [reflexivity|]. f_equal. f_equal.
    apply (verify_valid L V _ k kd' d); try assumption; reflexivity.
  - intros P. destruct (PSS P) as (A1 & A2 & A3 & A4). repeat (split; [assumption|]). split; [now apply (ga_digest L GA)|]. split; assumption.
Qed.
(** The context is used up. *)
Lemma final_once L c now buf md local coins answer c1 r : digest_sign_final L c now (Some buf) md local coins answer = (r, c1) -> r <> Crashes ->
  forall now2 buf2 md2 local2 coins2 answer2, digest_sign_final L c1 now2 (Some buf2) md2 local2 coins2 answer2 = (Signed false buf2 None, c1).
Proof. unfold digest_sign_final. destruct (c_hash c) eqn:E; intros H N; injection H as <- <-; intros; cbn; try rewrite E; try reflexivity. contradiction. Qed.

(** ** Ed25519 and Ed448 *)
Lemma ed_valid L V c k kd now buf tbs coins answer buf' n : good_alib L -> good_vlib L V -> well_formed L k -> data_of L k kd -> c_key c = Some kd ->
  digest_sign L c now (Some buf) (Bytes tbs) coins answer = Signed true buf' n ->
  k_type k = 1 /\ In (p_curve (k_params k)) [3; 5] /\ may_sign k now /\
  exists sig, buf' = sig ++ skipn (length sig) buf /\ n = Some (zlen sig) /\ zlen sig <= zlen buf /\
    forall c' kd', c_key c' = Some kd' -> public_of L k kd' -> digest_verify V c' sig tbs = true.
Proof.
  intros GA GV W (DP & DT & DC & DPub & DB) CK H. unfold digest_sign in H. rewrite CK, DP in H. cbv zeta in H.
  destruct (passes_edwards kd); [|discriminate].
  destruct (crypto_sign L SEddsa k now (Some buf) (Bytes tbs) coins answer) as [st out m] eqn:E. assert (st = OK) by (destruct st; congruence). subst st.
  destruct (sign_sound L SEddsa k now buf (Bytes tbs) coins answer out m GA W Logic.I ltac:(discriminate) E) as (S1 & S2 & _ & _ & sig & -> & -> & LE & V0 & _).
  destruct S1 as (T & C & _). split; [exact T|]. split; [cbn; destruct C; auto|]. split; [exact S2|]. exists sig. split; [congruence|]. split; [congruence|]. split; [exact LE|].
  intros c' kd' CK' (DT' & DC' & DPub'). unfold digest_verify. rewrite CK'. unfold passes_edwards. rewrite DT', T, DPub'. cbn [Z.eqb KT_EC orb andb].
  rewrite (gv_ed L V GV). exact V0.
Qed.

(** ** Algorithm identifiers *)
Lemma identifier_right L c k kd d : data_of L k kd -> c_md c = Some d -> known_digest d ->
  k_type k = 2 /\ d <> 0 /\ c_pad c = 1 \/ k_type k = 1 /\ (nist (p_curve (k_params k)) \/ In (p_curve (k_params k)) [3; 5]) ->
  exists l, algorithm_id c kd = Some l /\ identifier k false d = Some l.
Proof.
  intros (DP & DT & DC & _ & _) CM KD H. unfold algorithm_id, identifier. rewrite DT, DC, CM.
  unfold known_digest in KD. cbn in KD. destruct H as [(T & N & P)|(T & C)]; rewrite T.
  - destruct KD as [<-|[<-|[<-|[<-|[] ] ] ] ]; [contradiction| | |]; eexists; split; reflexivity.
  - unfold nist in C. cbn in C.
    destruct C as [ [<-|[<-|[<-|[<-|[<-|[] ] ] ] ] ]|[<-|[<-|[] ] ] ]; destruct KD as [<-|[<-|[<-|[<-|[] ] ] ] ]; eexists; split; reflexivity.
Qed.
