(** Proofs about asymmetric keys. *)
From Verif Require Import Base M_Memory M_Rights M_Mac M_Unwrap S_Bytes S_Rights S_Unwrap P_Bytes P_Rights P_Mac P_Unwrap M_Asym S_Asym.

Lemma sign_allowed_iff k now : rights_allowed_sign (k_rights k) now = true <-> may_sign k now.
Proof. apply operations_iff. Qed.
Lemma exchange_allowed_iff k now : rights_allowed_exchange (k_rights k) now = true <-> may_exchange k now.
Proof. apply operations_iff. Qed.
Lemma data_given_iff i : bad_input i = false <-> data_given i.
Proof. destruct i; cbn; lia. Qed.
Lemma digest_ok_iff d : digest_ok d = true <-> known_digest d.
Proof. unfold digest_ok, known_digest. change D_SHA1 with 0. change D_SHA256 with 1. change D_SHA384 with 2. change D_SHA512 with 3. cbn [In]. lia. Qed.
Lemma pcurve_iff c : is_pcurve c = true <-> nist c.
Proof. unfold is_pcurve, nist. cbn [In]. lia. Qed.
Lemma pkey_ec k : k_type k = 1 -> size_allowed 1 (p_curve (k_params k)) (k_size k) -> pkey_type k = ec_get_type (p_curve (k_params k)).
Proof.
  intros T. unfold pkey_type. rewrite T. cbn [Z.eqb Pos.eqb]. generalize (p_curve (k_params k)), (k_size k). intros c s H.
  inversion H as [| |c' s' Q|]; subst. cbn [In] in Q.
  repeat (destruct Q as [Q|Q]; [injection Q as <- <-; reflexivity|]). contradiction.
Qed.
Lemma pkey_rsa k : k_type k = 2 -> pkey_type k = PKEY_RSA.
Proof. intros T. unfold pkey_type. now rewrite T. Qed.
Lemma pkey_dh k : k_type k = 3 -> pkey_type k = PKEY_DH.
Proof. intros T. unfold pkey_type. now rewrite T. Qed.

(** ** Numbers as bytes *)
Lemma be_length n z : length (be_bytes n z) = n.
Proof. induction n as [|n IH]; cbn; [reflexivity|]. now rewrite IH. Qed.
Lemma be_ok n z : Forall byte_ok (be_bytes n z).
Proof. induction n as [|n IH]; cbn [be_bytes]; constructor; [|exact IH]. apply Z.mod_pos_bound. lia. Qed.
Lemma be_number n z : forall acc, number_of acc (be_bytes n z) = acc * 256 ^ Z.of_nat n + z mod 256 ^ Z.of_nat n.
Proof.
  induction n as [|n IH]; intros acc; cbn [be_bytes number_of].
  - rewrite Z.mod_1_r. cbn. lia.
  - rewrite IH. replace (Z.of_nat (S n)) with (Z.succ (Z.of_nat n)) by lia. rewrite Z.pow_succ_r by lia.
    set (q := 256 ^ Z.of_nat n). assert (0 < q) by (apply Z.pow_pos_nonneg; lia).
    rewrite (Z.mul_comm 256 q), (Z.rem_mul_r z q 256) by lia. lia.
Qed.
Lemma be_same n z : 0 <= z < 256 ^ n -> 0 <= n -> number_of 0 (be_bytes (Z.to_nat n) z) = z.
Proof. intros H N. rewrite be_number, Z2Nat.id by lia. rewrite Z.mod_small by lia. lia. Qed.
Lemma bits_fit bits n z : 0 < bits -> (bits + 7) / 8 = n -> 0 <= z < 2 ^ bits -> 0 <= n /\ 0 <= z < 256 ^ n.
Proof.
  intros B E H. pose proof (Z.div_mod (bits + 7) 8) as D. pose proof (Z.mod_pos_bound (bits + 7) 8).
  split; [lia|]. change 256 with (2 ^ 8). rewrite <- Z.pow_mul_r by lia.
  assert (2 ^ bits <= 2 ^ (8 * n)) by (apply Z.pow_le_mono_r; lia). lia.
Qed.

(** ** Signatures *)
Definition core (L : alib) (alg : salg) (k : stored_key) (data : input) (coins : Z) (answer : bool) (buf : list Z) : outcome :=
  match alg with
  | SEcdsa (Some (d, pre)) => ec_sign_ecdsa L d k buf (message L d pre (in_bytes data)) coins answer
  | SEddsa => ec_sign_eddsa L k buf (in_bytes data) coins answer
  | SPss (Some (d, mgf1, salt, pre)) =>
      if wrap64 (k_size k - digest_length d - 2) <? salt then Done INVALID_PARAMETER buf (zlen buf)
      else rsa_sign L OK (Pss d mgf1 (int_of salt)) (k_bytes k) buf (message L d pre (in_bytes data)) coins answer
  | SPkcs1 (Some (d, pre)) => rsa_sign L INTERNAL_ERROR (Pkcs1 d) (k_bytes k) buf (message L d pre (in_bytes data)) coins answer
  | _ => Done OK [] 0
  end.
Lemma sign_core L alg k now out data coins answer : signs_with alg k -> may_sign k now -> data_given data ->
  crypto_sign L alg k now out data coins answer = size_needed out (signature_size alg k) (core L alg k data coins answer).
Proof.
  intros S M D. apply sign_allowed_iff in M. apply data_given_iff in D. unfold crypto_sign. cbv zeta. rewrite M, D.
  destruct alg as [[[d pre]|]| |[[[[d m] salt] pre]|]|[[d pre]|]|]; cbn [signs_with] in S; try contradiction; cbn [negb].
  - destruct S as (Hd & T & C & Z). rewrite (proj2 (digest_ok_iff d) Hd), (proj2 (pcurve_iff _) C), (proj2 (ec_iff k) (conj T Z)). cbn [negb].
    cbn [signature_size]. now rewrite Z.mul_comm.
  - destruct S as (T & C & Z). rewrite (proj2 (ec_iff k) (conj T Z)). destruct (ec_size_of _ _ Z) as [E P]. rewrite E.
    replace ((p_curve (k_params k) =? 3) || (p_curve (k_params k) =? 5)) with true by (symmetry; lia). cbn [negb].
    replace (k_size k * 2 =? 0) with false by lia. cbn [signature_size]. now rewrite Z.mul_comm.
  - destruct S as (Hd & Hm & T & Z). rewrite (proj2 (digest_ok_iff d) Hd), (proj2 (digest_ok_iff m) Hm), (proj2 (rsa_iff k) (conj T Z)). reflexivity.
  - destruct S as (Hd & T & Z). rewrite (proj2 (digest_ok_iff d) Hd), (proj2 (rsa_iff k) (conj T Z)). reflexivity.
Qed.
Definition held_in (out : option (list Z)) : list Z := match out with None => [] | Some buf => buf end.
Lemma sign_refused L alg k now out data coins answer :
  (signs_with alg k /\ may_sign k now /\ data_given data) \/
  exists st, st <> OK /\ crypto_sign L alg k now out data coins answer = Done st (held_in out) (zlen (held_in out)).
Proof.
  unfold crypto_sign, held_in. cbv zeta.
  destruct alg as [[[d pre]|]| |[[[[d m] salt] pre]|]|[[d pre]|]|];
    try (right; eexists; split; [|reflexivity]; discriminate);
    (destruct (bad_input data) eqn:D; [right; eexists; split; [|reflexivity]; discriminate|]);
    apply data_given_iff in D;
    (destruct (rights_allowed_sign (k_rights k) now) eqn:M; cbn [negb]; [|right; eexists; split; [|reflexivity]; discriminate]);
    apply sign_allowed_iff in M; cbn [signs_with];
    try (right; eexists; split; [|reflexivity]; discriminate).
  - destruct (digest_ok d) eqn:Hd; cbn [negb]; [|right; eexists; split; [|reflexivity]; discriminate].
    destruct (is_pcurve _) eqn:C; cbn [negb]; [|right; eexists; split; [|reflexivity]; discriminate].
    destruct (key_type_supports_ec _ _ _) eqn:T; cbn [negb]; [|right; eexists; split; [|reflexivity]; discriminate].
    apply ec_iff in T. apply pcurve_iff in C. apply digest_ok_iff in Hd. tauto.
  - destruct ((p_curve (k_params k) =? 3) || (p_curve (k_params k) =? 5)) eqn:C; cbn [negb]; [|right; eexists; split; [|reflexivity]; discriminate].
    destruct (key_type_supports_ec _ _ _) eqn:T; cbn [negb]; [|right; eexists; split; [|reflexivity]; discriminate].
    apply ec_iff in T. left. split; [|tauto]. split; [tauto|]. split; [lia|tauto].
  - destruct (digest_ok d) eqn:Hd; cbn [negb]; [|right; eexists; split; [|reflexivity]; discriminate].
    destruct (digest_ok m) eqn:Hm; cbn [negb]; [|right; eexists; split; [|reflexivity]; discriminate].
    destruct (key_type_supports_rsa _ _) eqn:T; cbn [negb]; [|right; eexists; split; [|reflexivity]; discriminate].
    apply rsa_iff in T. apply digest_ok_iff in Hd, Hm. tauto.
  - destruct (digest_ok d) eqn:Hd; cbn [negb]; [|right; eexists; split; [|reflexivity]; discriminate].
    destruct (key_type_supports_rsa _ _) eqn:T; cbn [negb]; [|right; eexists; split; [|reflexivity]; discriminate].
    apply rsa_iff in T. apply digest_ok_iff in Hd. tauto.
Qed.

(** The query. *)
Lemma sign_query L alg k now data coins answer n :
  (exists buf, crypto_sign L alg k now None data coins answer = Done OK buf n) <->
  signs_with alg k /\ may_sign k now /\ data_given data /\ n = signature_size alg k.
Proof.
  split.
  - intros [buf E]. destruct (sign_refused L alg k now None data coins answer) as [(S & M & D)|(st & N & E')]; [|congruence].
    rewrite (sign_core L alg k now None data coins answer S M D) in E. cbn [size_needed] in E.
    do 3 (split; [assumption|]). congruence.
  - intros (S & M & D & ->). exists []. rewrite (sign_core L alg k now None data coins answer S M D). reflexivity.
Qed.
Lemma sign_short L alg k now buf data coins answer st buf' n : zlen buf < signature_size alg k ->
  crypto_sign L alg k now (Some buf) data coins answer = Done st buf' n -> st <> OK /\ buf' = buf.
Proof.
  intros Z E. destruct (sign_refused L alg k now (Some buf) data coins answer) as [(S & M & D)|(s & N & E')].
  - rewrite (sign_core L alg k now (Some buf) data coins answer S M D) in E. cbn [size_needed] in E.
    replace (zlen buf <? signature_size alg k) with true in E by lia. split; congruence.
  - cbn [held_in] in E'. split; congruence.
Qed.

(** What the key does. *)
Lemma rsa_outcome L init s k buf msg coins answer bits : good_alib L -> s <> Ed -> a_parse L PKEY_RSA (k_bytes k) = Some bits ->
  bits / 8 <= zlen buf ->
  (exists sig, a_sign L s (k_bytes k) msg coins = Some sig /\ zlen sig = (bits + 7) / 8 /\ zlen sig <= zlen buf /\ answer = true /\
     rsa_sign L init s (k_bytes k) buf msg coins answer = Done OK (sig ++ skipn (length sig) buf) (zlen sig)) \/
  ((answer = false \/ a_sign L s (k_bytes k) msg coins = None \/ zlen buf < (bits + 7) / 8) /\
   rsa_sign L init s (k_bytes k) buf msg coins answer = Done init buf (zlen buf)).
Proof.
  intros G Ns P B. unfold rsa_sign. rewrite P. replace (zlen buf <? bits / 8) with false by lia.
  destruct answer; cbn [negb]; [|right; tauto].
  destruct (a_sign L s (k_bytes k) msg coins) as [sig|] eqn:E; [|right; tauto].
  pose proof (ga_rsa_length L G s (k_bytes k) msg coins sig bits P Ns E) as Q.
  destruct (zlen buf <? zlen sig) eqn:H; [right; split; [right; right; lia|reflexivity]|].
  left. exists sig. repeat split; try assumption; try reflexivity. lia.
Qed.
Lemma ecdsa_outcome L d pre k buf data coins answer : good_alib L -> well_formed L k -> signs_with (SEcdsa (Some (d, pre))) k ->
  2 * k_size k <= zlen buf ->
  let msg := message L d pre data in
  (answer = false /\ exists st n, st <> OK /\ ec_sign_ecdsa L d k buf msg coins answer = Done st buf n) \/
  (answer = true /\ exists sig, valid_signature L (SEcdsa (Some (d, pre))) k data sig /\ zlen sig = 2 * k_size k /\
     ec_sign_ecdsa L d k buf msg coins answer = Done OK (sig ++ skipn (length sig) buf) (zlen sig)).
Proof.
  intros G W S B. cbv zeta. cbn [signs_with] in S. destruct S as (Hd & T & C & Z).
  destruct (W ltac:(lia)) as (bits & P & _ & Q). specialize (Q T C). rewrite (pkey_ec k T Z) in P.
  unfold ec_sign_ecdsa. cbv zeta. rewrite P, (proj2 (pcurve_iff _) C). cbn [negb].
  replace (zlen buf <? k_size k * 2) with false by lia.
  destruct answer; cbn [negb]; [|left; split; [reflexivity|]; do 2 eexists; split; [|reflexivity]; discriminate].
  right. split; [reflexivity|].
  assert (P' : a_parse L 408 (k_bytes k) = Some bits)
    by (unfold ec_get_type in P; rewrite (proj2 (pcurve_iff _) C) in P; exact P).
  destruct (ga_ecdsa L G d (k_bytes k) (message L d pre data) coins bits P') as (r & s & E & Hr & Hs).
  rewrite E. pose proof (ga_bits L G _ _ _ P') as Pos.
  destruct (bits_fit bits _ r Pos Q Hr) as [K Fr]. destruct (bits_fit bits _ s Pos Q Hs) as [_ Fs].
  unfold bn_export. replace (256 ^ k_size k <=? r) with false by lia. replace (256 ^ k_size k <=? s) with false by lia.
  set (l1 := be_bytes (Z.to_nat (k_size k)) r). set (l2 := be_bytes (Z.to_nat (k_size k)) s).
  assert (Z1 : zlen l1 = k_size k) by (unfold zlen, l1; rewrite be_length; lia).
  assert (Z2 : zlen l2 = k_size k) by (unfold zlen, l2; rewrite be_length; lia).
  exists (l1 ++ l2).
  assert (Z12 : zlen (l1 ++ l2) = 2 * k_size k) by (unfold zlen in *; rewrite app_length; lia).
  split; [|split; [exact Z12|]].
  - cbn [valid_signature]. exists l1, l2. split; [reflexivity|]. split; [exact Z1|]. split; [exact Z2|].
    split; [apply Forall_app; split; apply be_ok|]. unfold l1, l2. rewrite !be_same by assumption.
    change (what_is_signed L d pre data) with (message L d pre data). eapply ga_ecdsa_verify; eassumption.
  - rewrite Z12, (Z.mul_comm (k_size k) 2). rewrite <- app_assoc. do 4 f_equal. unfold zlen in Z12. lia.
Qed.
Lemma eddsa_outcome L k buf data coins answer : good_alib L -> well_formed L k -> signs_with SEddsa k ->
  2 * k_size k <= zlen buf ->
  (answer = false /\ exists st n, st <> OK /\ ec_sign_eddsa L k buf data coins answer = Done st buf n) \/
  (answer = true /\ exists sig, valid_signature L SEddsa k data sig /\ zlen sig = 2 * k_size k /\
     ec_sign_eddsa L k buf data coins answer = Done OK (sig ++ skipn (length sig) buf) (zlen sig)).
Proof.
  intros G W S B. cbn [signs_with] in S. destruct S as (T & C & Z).
  destruct (W ltac:(lia)) as (bits & P & _). rewrite (pkey_ec k T Z) in P. unfold ec_sign_eddsa. rewrite P.
  replace (zlen buf <? k_size k * 2) with false by lia.
  destruct answer; cbn [negb]; [|left; split; [reflexivity|]; do 2 eexists; split; [|reflexivity]; discriminate].
  right. split; [reflexivity|]. destruct (ec_size_of _ _ Z) as [E _].
  assert (X : exists sig, a_sign L Ed (k_bytes k) data coins = Some sig /\ zlen sig = 2 * k_size k).
  { destruct C as [C|C]; rewrite C in P, E; cbn in P, E.
    - destruct (ga_ed25519 L G (k_bytes k) data coins bits P) as (sig & A & Y). exists sig. split; [exact A|lia].
    - destruct (ga_ed448 L G (k_bytes k) data coins bits P) as (sig & A & Y). exists sig. split; [exact A|lia]. }
  destruct X as (sig & A & Y). rewrite A. replace (zlen buf <? zlen sig) with false by lia.
  exists sig. split; [|split; [exact Y|reflexivity]]. cbn [valid_signature]. eapply ga_verify; eassumption.
Qed.

Lemma digest_bound d : known_digest d -> 20 <= digest_length d <= 64.
Proof. unfold known_digest. cbn [In]. intros [<- |[<- |[<- |[<- |[] ] ] ] ]; vm_compute; split; discriminate. Qed.
Lemma rsa_size_bound k : size_allowed 2 0 (k_size k) -> 128 <= k_size k <= 512.
Proof. intros H. inversion H; subst. cbn [In] in *. lia. Qed.
(** The salt that arrives. *)
Lemma salt_check k d salt : known_digest d -> size_allowed 2 0 (k_size k) ->
  (wrap64 (k_size k - digest_length d - 2) <? salt) = (k_size k - digest_length d - 2 <? salt).
Proof.
  intros Hd Z. pose proof (digest_bound d Hd). pose proof (rsa_size_bound k Z). unfold wrap64. rewrite Z.mod_small; [reflexivity|rewrite W64_val; lia].
Qed.
Definition rsa_scheme (alg : salg) : scheme :=
  match alg with SPss (Some (d, m, salt, _)) => Pss d m salt | SPkcs1 (Some (d, _)) => Pkcs1 d | _ => Ed end.
Definition rsa_message (L : alib) (alg : salg) (data : list Z) : list Z :=
  match alg with SPss (Some (d, _, _, pre)) | SPkcs1 (Some (d, pre)) => message L d pre data | _ => [] end.
Definition is_rsa (alg : salg) : bool := match alg with SPss _ | SPkcs1 _ => true | _ => false end.
Lemma core_rsa L alg k data coins answer buf : is_rsa alg = true -> signs_with alg k -> wide_salt alg ->
  core L alg k data coins answer buf =
    rsa_sign L (if is_pss alg then OK else INTERNAL_ERROR) (rsa_scheme alg) (k_bytes k) buf (rsa_message L alg (in_bytes data)) coins answer /\ salt_fits alg k \/
  core L alg k data coins answer buf = Done INVALID_PARAMETER buf (zlen buf) /\ ~ salt_fits alg k.
Proof.
  intros R S Y. destruct alg as [[[d pre]|]| |[[[[d m] salt] pre]|]|[[d pre]|]|]; try discriminate R; cbn [signs_with] in S; try contradiction.
  - destruct S as (Hd & Hm & T & Z). cbn [core salt_fits rsa_scheme rsa_message is_pss wide_salt] in *. rewrite salt_check by assumption.
    destruct (k_size k - digest_length d - 2 <? salt) eqn:E; [right; split; [reflexivity|lia]|]. left. split; [|lia].
    rewrite int_of_small; [reflexivity|]. pose proof (digest_bound d Hd). pose proof (rsa_size_bound k Z). lia.
  - left. split; [reflexivity|exact I].
Qed.

Lemma sign_cases L alg k now buf data coins answer st buf' n : good_alib L -> well_formed L k -> wide_salt alg ->
  crypto_sign L alg k now (Some buf) data coins answer = Done st buf' n ->
  (st <> OK /\ buf' = buf) \/ (st = OK /\ is_pss alg = true /\ buf' = buf) \/
  (answer = true /\ signs_with alg k /\ may_sign k now /\ data_given data /\ salt_fits alg k /\ st = OK /\
   exists sig, buf' = sig ++ skipn (length sig) buf /\ n = zlen sig /\ valid_signature L alg k (in_bytes data) sig /\ zlen sig <= zlen buf /\
     (is_rsa alg = false -> zlen sig = signature_size alg k) /\
     (forall bits, a_parse L 6 (k_bytes k) = Some bits -> is_rsa alg = true -> zlen sig = (bits + 7) / 8)).
Proof.
  intros G W Y E. destruct (sign_refused L alg k now (Some buf) data coins answer) as [(S & M & D)|(s & N & E')];
    [|cbn [held_in] in E'; left; split; congruence].
  rewrite (sign_core L alg k now (Some buf) data coins answer S M D) in E. cbn [size_needed] in E.
  destruct (zlen buf <? signature_size alg k) eqn:B; [left; split; congruence|].
  destruct (is_rsa alg) eqn:R.
  - destruct (core_rsa L alg k data coins answer buf R S Y) as [[C F]|[C F]]; rewrite C in E; [|left; split; congruence].
    assert (T : k_type k = 2) by (destruct alg as [| |[[[[d m] salt] pre]|]|[[d pre]|]|]; try discriminate R; cbn [signs_with] in S; tauto).
    destruct (W ltac:(lia)) as (bits & P & Q & _). specialize (Q T). rewrite (pkey_rsa k T) in P.
    assert (Z0 : signature_size alg k = k_size k) by (destruct alg; try discriminate R; reflexivity).
    assert (Ns : rsa_scheme alg <> Ed) by (destruct alg as [| |[[[[d m] salt] pre]|]|[[d pre]|]|]; try discriminate R; try contradiction; discriminate).
    destruct (rsa_outcome L (if is_pss alg then OK else INTERNAL_ERROR) (rsa_scheme alg) k buf (rsa_message L alg (in_bytes data)) coins answer bits G Ns P ltac:(lia))
      as [(sig & A & Zs & Le & Ha & O)|[_ O]]; rewrite O in E.
    + injection E as <- <- <-. right. right. split; [exact Ha|]. do 4 (split; [assumption|]). split; [reflexivity|]. exists sig.
      split; [reflexivity|]. split; [reflexivity|]. split.
      * pose proof (ga_verify L G _ _ _ _ _ A) as V.
        destruct alg as [| |[[[[d m] salt] pre]|]|[[d pre]|]|]; try discriminate R; try contradiction; exact V.
      * split; [exact Le|]. split; [discriminate|]. intros b Pb _. unfold PKEY_RSA in P. rewrite P in Pb. injection Pb as <-. exact Zs.
    + destruct (is_pss alg) eqn:X; injection E as <- <- <-; [right; left; repeat split|left; split; [discriminate|reflexivity]].
  - assert (V : exists sig, (answer = false /\ exists st n, st <> OK /\ core L alg k data coins answer buf = Done st buf n) \/
       (answer = true /\ valid_signature L alg k (in_bytes data) sig /\ zlen sig = signature_size alg k /\
         core L alg k data coins answer buf = Done OK (sig ++ skipn (length sig) buf) (zlen sig))).
    { destruct alg as [[[d pre]|]| |p|p|]; try discriminate R; cbn [signs_with] in S; try contradiction; cbn [signature_size] in B.
      - destruct (ecdsa_outcome L d pre k buf (in_bytes data) coins answer G W S ltac:(lia)) as [[A O]|(A & sig & O)]; [exists []; left; split; assumption|].
        exists sig. right. split; [exact A|]. exact O.
      - destruct (eddsa_outcome L k buf (in_bytes data) coins answer G W S ltac:(lia)) as [[A O]|(A & sig & O)]; [exists []; left; split; assumption|].
        exists sig. right. split; [exact A|]. exact O. }
    destruct V as [sig [[A (st0 & n0 & N & O)]|(A & V & Zs & O)]]; rewrite O in E; [left; split; congruence|].
    injection E as <- <- <-. right. right. split; [exact A|]. do 3 (split; [assumption|]).
    split; [destruct alg as [| |p|p|]; try discriminate R; exact I|]. split; [reflexivity|]. exists sig.
    split; [reflexivity|]. split; [reflexivity|]. split; [exact V|]. split; [lia|]. split; [intros _; exact Zs|discriminate].
Qed.

(** Soundness. *)
Lemma whole_bits L k bits : whole L k -> k_type k = 2 -> a_parse L 6 (k_bytes k) = Some bits -> bits mod 8 = 0 /\ (bits + 7) / 8 = bits / 8.
Proof.
  intros H T P. destruct (H T) as (b & Pb & M). rewrite P in Pb. injection Pb as <-. split; [exact M|].
  pose proof (Z.div_mod bits 8 ltac:(lia)). replace (bits + 7) with (7 + bits / 8 * 8) by lia. rewrite Z.div_add by lia. reflexivity.
Qed.
Lemma rsa_signs L alg k data coins buf : good_alib L -> well_formed L k -> is_rsa alg = true -> signs_with alg k -> wide_salt alg ->
  salt_fits alg k -> whole L k -> digest_given alg (in_bytes data) -> k_size k <= zlen buf ->
  exists sig, zlen sig = k_size k /\ core L alg k data coins true buf = Done OK (sig ++ skipn (length sig) buf) (zlen sig).
Proof.
  intros G W R S Y F H D B.
  assert (T : k_type k = 2 /\ size_allowed 2 0 (k_size k))
    by (destruct alg as [| |[[[[d m] salt] pre]|]|[[d pre]|]|]; try discriminate R; cbn [signs_with] in S; tauto).
  destruct T as [T Z]. destruct (W ltac:(lia)) as (bits & P & Q & _). specialize (Q T). rewrite (pkey_rsa k T) in P.
  destruct (whole_bits L k bits H T P) as [M8 E8].
  assert (Ns : rsa_scheme alg <> Ed) by (destruct alg as [| |[[[[d m] salt] pre]|]|[[d pre]|]|]; try discriminate R; try contradiction; discriminate).
  destruct (core_rsa L alg k data coins true buf R S Y) as [[C _]|[_ N]]; [|contradiction].
  destruct (rsa_outcome L (if is_pss alg then OK else INTERNAL_ERROR) (rsa_scheme alg) k buf (rsa_message L alg (in_bytes data)) coins true bits G Ns P ltac:(lia))
      as [(sig & A & Zs & Le & _ & O)|[X O]].
  - exists sig. split; [lia|]. congruence.
  - exfalso. destruct X as [X|[X|X] ]; [discriminate| |lia].
    destruct alg as [| |[[[[d m] salt] pre]|]|[[d pre]|]|]; try discriminate R; cbn [signs_with] in S; try contradiction;
      cbn [rsa_scheme rsa_message salt_fits wide_salt digest_given] in *.
    + refine (proj2 (ga_pss L G d m salt (k_bytes k) (message L d pre (in_bytes data)) coins bits P M8 ltac:(lia)) _ X).
      destruct pre; cbn [message]; [exact D|]. apply (ga_digest L G). apply S.
    + refine (proj2 (ga_pkcs1 L G d (k_bytes k) (message L d pre (in_bytes data)) coins bits P M8) _ X).
      destruct pre; cbn [message]; [exact D|]. apply (ga_digest L G). apply S.
Qed.
Lemma sign_sound L alg k now buf data coins answer buf' n : good_alib L -> well_formed L k -> wide_salt alg ->
  (is_pss alg = true -> answer = true /\ whole L k /\ digest_given alg (in_bytes data)) ->
  crypto_sign L alg k now (Some buf) data coins answer = Done OK buf' n ->
  signs_with alg k /\ may_sign k now /\ data_given data /\ salt_fits alg k /\
  exists sig, buf' = sig ++ skipn (length sig) buf /\ n = zlen sig /\ zlen sig <= zlen buf /\
    valid_signature L alg k (in_bytes data) sig /\ (whole L k -> zlen sig = signature_size alg k).
Proof.
  intros G W Y X E. pose proof (sign_cases L alg k now buf data coins answer OK buf' n G W Y E) as [[N _]|[(_ & Hp & Eb)|H] ]; [congruence| |].
  - destruct (X Hp) as (-> & H & D). destruct (sign_refused L alg k now (Some buf) data coins true) as [(S & M & I)|(s & N & E')]; [|congruence].
    assert (R : is_rsa alg = true) by (destruct alg; try discriminate Hp; reflexivity).
    pose proof E as E0. rewrite (sign_core L alg k now (Some buf) data coins true S M I) in E. cbn [size_needed] in E.
    destruct (zlen buf <? signature_size alg k) eqn:B; [congruence|].
    assert (Z0 : signature_size alg k = k_size k) by (destruct alg; try discriminate R; reflexivity).
    assert (F : salt_fits alg k).
    { destruct (core_rsa L alg k data coins true buf R S Y) as [[_ F]|[C _]]; [exact F|]. rewrite C in E. congruence. }
    destruct (rsa_signs L alg k data coins buf G W R S Y F H D ltac:(lia)) as (sig & Zs & C). rewrite C in E. injection E as E1 <-.
    do 4 (split; [assumption|]). exists sig. split; [now rewrite E1|]. split; [reflexivity|]. split; [lia|]. split; [|intros _; lia].
    assert (T : k_type k = 2) by (destruct alg as [| |[[[[d m] salt] pre]|]|[[d pre]|]|]; try discriminate R; cbn [signs_with] in S; tauto).
    destruct (W ltac:(lia)) as (bits & P & Q & _). rewrite (pkey_rsa k T) in P.
    assert (Ns : rsa_scheme alg <> Ed) by (destruct alg as [| |[[[[d m] salt] pre]|]|[[d pre]|]|]; try discriminate R; try contradiction; discriminate).
    destruct (core_rsa L alg k data coins true buf R S Y) as [[C' _]|[_ N]]; [|contradiction].
    destruct (rsa_outcome L (if is_pss alg then OK else INTERNAL_ERROR) (rsa_scheme alg) k buf (rsa_message L alg (in_bytes data)) coins true bits G Ns P ltac:(specialize (Q T); lia))
      as [(sig' & A & _ & _ & _ & O)|[X' O]].
    + assert (sig' = sig) as ->.
      { rewrite C', O in C. injection C as C1 C2. assert (length sig = length sig') by (unfold zlen in C2; lia).
        apply (f_equal (firstn (length sig))) in C1. rewrite firstn_app, H0, Nat.sub_diag, firstn_all, firstn_O, app_nil_r in C1.
        rewrite firstn_app, <- H0, Nat.sub_diag, firstn_all, firstn_O, app_nil_r in C1. exact C1. }
      pose proof (ga_verify L G _ _ _ _ _ A) as V.
      destruct alg as [| |[[[[d m] salt] pre]|]|[[d pre]|]|]; try discriminate R; try contradiction; exact V.
    + exfalso. destruct X' as [X'|[X'|X'] ]; [discriminate| |].
      * destruct (whole_bits L k bits H T P) as [M8 _]. specialize (Q T).
        destruct alg as [| |[[[[d m] salt] pre]|]|[[d pre]|]|]; try discriminate Hp; cbn [signs_with] in S; try contradiction;
          cbn [rsa_scheme rsa_message salt_fits wide_salt digest_given] in *.
        refine (proj2 (ga_pss L G d m salt (k_bytes k) (message L d pre (in_bytes data)) coins bits P M8 ltac:(lia)) _ X').
        destruct pre; cbn [message]; [exact D|]. apply (ga_digest L G). apply S.
      * destruct (whole_bits L k bits H T P) as [_ E8]. specialize (Q T). lia.
  - destruct H as (A & S & M & D & F & _ & sig & H1 & H2 & H3 & H4 & H5 & H6). do 4 (split; [assumption|]). exists sig.
    do 4 (split; [assumption|]). intros Hw. destruct (is_rsa alg) eqn:R; [|now apply H5].
    assert (T : k_type k = 2) by (destruct alg as [| |[[[[d m] salt] pre]|]|[[d pre]|]|]; try discriminate R; cbn [signs_with] in S; tauto).
    destruct (W ltac:(lia)) as (bits & P & Q & _). specialize (Q T). rewrite (pkey_rsa k T) in P.
    rewrite (H6 bits P eq_refl). destruct (whole_bits L k bits Hw T P) as [_ ->].
    destruct alg; try discriminate R; cbn [signature_size]; lia.
Qed.
Lemma sign_complete L alg k now buf data coins : good_alib L -> well_formed L k -> wide_salt alg -> whole L k ->
  signs_with alg k -> may_sign k now -> data_given data -> salt_fits alg k -> digest_given alg (in_bytes data) ->
  signature_size alg k <= zlen buf ->
  exists buf', crypto_sign L alg k now (Some buf) data coins true = Done OK buf' (signature_size alg k).
Proof.
  intros G W Y H S M I F D B. rewrite (sign_core L alg k now (Some buf) data coins true S M I). cbn [size_needed].
  replace (zlen buf <? signature_size alg k) with false by lia. destruct (is_rsa alg) eqn:R.
  - assert (Z0 : signature_size alg k = k_size k) by (destruct alg; try discriminate R; reflexivity).
    destruct (rsa_signs L alg k data coins buf G W R S Y F H D ltac:(lia)) as (sig & Zs & C). rewrite C, Z0, Zs. eexists. reflexivity.
  - destruct alg as [[[d pre]|]| |p|p|]; try discriminate R; cbn [signs_with] in S; try contradiction; cbn [signature_size] in *.
    + destruct (ecdsa_outcome L d pre k buf (in_bytes data) coins true G W S ltac:(lia)) as [[A _]|(_ & sig & _ & Zs & O)]; [discriminate|].
      cbn [core]. rewrite O, Zs. eexists. reflexivity.
    + destruct (eddsa_outcome L k buf (in_bytes data) coins true G W S ltac:(lia)) as [[A _]|(_ & sig & _ & Zs & O)]; [discriminate|].
      cbn [core]. rewrite O, Zs. eexists. reflexivity.
Qed.
Lemma sign_unchanged L alg k now buf data coins answer st buf' n : good_alib L -> well_formed L k -> wide_salt alg ->
  crypto_sign L alg k now (Some buf) data coins answer = Done st buf' n -> st <> OK -> buf' = buf.
Proof. intros G W Y E N. destruct (sign_cases L alg k now buf data coins answer st buf' n G W Y E) as [[_ H]|[(H & _)|H] ]; [exact H|congruence|tauto]. Qed.

(** Success without a signature. *)
Lemma pss_unsigned L d mgf1 salt pre k now buf data coins answer : good_alib L -> well_formed L k -> whole L k -> 0 <= salt < 2 ^ 64 ->
  let alg := SPss (Some (d, mgf1, salt, pre)) in
  signs_with alg k -> may_sign k now -> data_given data -> salt_fits alg k -> k_size k <= zlen buf ->
  answer = false \/ (pre = true /\ zlen (in_bytes data) <> digest_length d) ->
  crypto_sign L alg k now (Some buf) data coins answer = Done OK buf (zlen buf).
Proof.
  intros G W H Y alg S M I F B X. rewrite (sign_core L alg k now (Some buf) data coins answer S M I). cbn [size_needed alg signature_size].
  replace (zlen buf <? k_size k) with false by lia.
  destruct (core_rsa L alg k data coins answer buf eq_refl S Y) as [[C _]|[_ N]]; [|contradiction]. subst alg. rewrite C.
  cbn [signs_with] in S. destruct S as (Hd & Hm & T & Z).
  destruct (W ltac:(lia)) as (bits & P & Q & _). specialize (Q T). rewrite (pkey_rsa k T) in P.
  destruct (whole_bits L k bits H T P) as [M8 _].
  destruct (rsa_outcome L OK (rsa_scheme (SPss (Some (d, mgf1, salt, pre)))) k buf (rsa_message L (SPss (Some (d, mgf1, salt, pre))) (in_bytes data)) coins answer bits G ltac:(discriminate) P ltac:(lia))
    as [(sig & A & _ & _ & Ha & _)|[_ O]]; [|exact O]. exfalso.
  destruct X as [X|[-> X] ]; [congruence|]. cbn [rsa_scheme rsa_message message salt_fits] in *. apply X.
  apply (proj1 (ga_pss L G d mgf1 salt (k_bytes k) (in_bytes data) coins bits P M8 ltac:(lia))). congruence.
Qed.
(** Keys whose size is rounded down. *)
Lemma odd_never_signs L d pre k now buf data coins answer bits : good_alib L -> well_formed L k ->
  let alg := SPkcs1 (Some (d, pre)) in
  signs_with alg k -> may_sign k now -> data_given data -> a_parse L 6 (k_bytes k) = Some bits -> bits mod 8 <> 0 ->
  zlen buf = signature_size alg k -> exists st n, st <> OK /\ crypto_sign L alg k now (Some buf) data coins answer = Done st buf n.
Proof.
  intros G W alg S M I P M8 B. rewrite (sign_core L alg k now (Some buf) data coins answer S M I). cbn [size_needed alg].
  subst alg. rewrite B, Z.ltb_irrefl. cbn [signature_size core] in *. cbn [signs_with] in S. destruct S as (Hd & T & Z).
  destruct (W ltac:(lia)) as (bits' & P' & Q & _). specialize (Q T). rewrite (pkey_rsa k T) in P'. unfold PKEY_RSA in P'. rewrite P in P'. injection P' as <-.
  destruct (rsa_outcome L INTERNAL_ERROR (Pkcs1 d) k buf (message L d pre (in_bytes data)) coins answer bits G ltac:(discriminate) P ltac:(lia))
    as [(sig & A & Zs & Le & _)|[_ O]].
  - exfalso. pose proof (Z.div_mod bits 8 ltac:(lia)) as Dm. pose proof (Z.mod_pos_bound bits 8 ltac:(lia)).
    assert ((bits + 7) / 8 = bits / 8 + 1) by (replace (bits + 7) with ((bits mod 8 - 1) + (bits / 8 + 1) * 8) by lia; rewrite Z.div_add by lia; rewrite (Z.div_small (bits mod 8 - 1)) by lia; lia). lia.
  - rewrite O. do 2 eexists. split; [|reflexivity]. discriminate.
Qed.
