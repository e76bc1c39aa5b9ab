(** Proofs about encryption with the provider. *)
From Verif Require Import Base S_Bytes M_Rights M_Mac M_Unwrap M_Asym S_Rights S_Unwrap S_Asym P_Kdf P_Unwrap P_Asym P_Asym2 M_ProvSign S_ProvSign P_ProvSign M_ProvAsym S_ProvAsym.

Lemma put_some (buf p out : list Z) : put buf p = Some out -> out = p ++ skipn (length p) buf /\ zlen p <= zlen buf.
Proof. unfold put, zlen. destruct (Nat.leb_spec (length p) (length buf)); intros H0; [|discriminate]. split; [congruence|lia]. Qed.
Lemma api_known d : known_digest d -> api_digest (Some d) = d.
Proof. intros K. cbn. now rewrite (proj2 (digest_ok_iff d) K). Qed.
Lemma settled_alg c : settled c -> asked c = Some (decrypt_alg c).
Proof.
  intros [P|(P & d & M & K & G)]; unfold asked, decrypt_alg; rewrite P; [reflexivity|]. unfold oaep_mgf1_md, oaep_md. rewrite M.
  destruct G as [G|G]; rewrite G; change (4 =? RSA_OAEP) with true; cbv iota; rewrite ?api_known by assumption; reflexivity.
Qed.
(** Decryption *)
Lemma decrypts_rsa U c k : rsa_key U k -> decrypts_with (decrypt_alg c) k.
Proof. intros (T & S & _). unfold decrypt_alg. destruct (_ =? _); split; assumption. Qed.
Lemma rsa_text U c k : rsa_key U k -> text_size (decrypt_alg c) k = k_size k.
Proof. intros _. unfold decrypt_alg. destruct (_ =? _); reflexivity. Qed.
Lemma decrypt_means U c k text msg : decryption_of U (decrypt_alg c) k text msg <-> decrypt_with U (decrypt_alg c) k text = Some msg.
Proof. unfold decrypt_alg. destruct (_ =? _); reflexivity. Qed.
Lemma open_ok U k now room : rsa_key U k -> (open_decryption k now room = OK <-> has_flag (k_rights k) 4 /\ in_window (k_rights k) now /\ room = true) /\
  open_decryption k now room <> OPERATION_NOT_SUPPORTED.
Proof.
  intros (T & S & _). unfold open_decryption. rewrite T. pose proof (decrypt_iff k 2 now ltac:(discriminate)) as D.
  destruct (rights_allowed_decrypt (k_rights k) 2 now None); cbn [negb]; [|split; [split; [discriminate|]|discriminate]; intros (A & B & _); discriminate (proj2 D (conj A B))].
  assert (Q : key_type_supports_rsa 2 (k_size k) = true) by (rewrite <- T; apply rsa_iff; tauto). rewrite Q. destruct D as [D _]. specialize (D eq_refl).
  destruct room; split; (discriminate || (split; [discriminate|intros (_ & _ & X); discriminate]) || tauto).
Qed.
Lemma decrypt_general U c k kd now buf text room answer : good_ulib U -> rsa_key U k -> x_key c = Some kd -> d_private kd = Some k ->
  exists ret buf' n, asym_decrypt U c now (Some buf) text room answer = Some (ADone ret buf' n) /\
    (ret <> 1 -> ret = 0 /\ buf' = buf /\ n = None) /\
    (ret = 1 <-> may_decrypt_clear k now /\ k_size k <= zlen buf /\ zlen text = k_size k /\ room = true /\ answer = true /\
       exists msg, decryption_of U (decrypt_alg c) k text msg) /\
    (forall msg, ret = 1 -> decryption_of U (decrypt_alg c) k text msg -> buf' = msg ++ skipn (length msg) buf /\ n = Some (zlen msg)).
Proof.
  intros GU RK CK DP. unfold asym_decrypt. rewrite CK, DP. cbv zeta. destruct (open_ok U k now room RK) as [O1 O2].
  assert (NO : open_decryption k now room <> OK -> exists ret buf' n, match open_decryption k now room with
     | OK => None | OPERATION_NOT_SUPPORTED => Some (ADone (-2) buf None) | _ => Some (ADone 0 buf None) end = Some (ADone ret buf' n) /\ ret = 0 /\ buf' = buf /\ n = None).
  { intros N. destruct (open_decryption k now room) eqn:E; try contradiction; do 3 eexists; repeat split; reflexivity. }
  destruct (open_decryption k now room) eqn:E.
  1: {
    destruct (proj1 O1 eq_refl) as (F4 & WI & ->).
    assert (H : honest U k) by (destruct RK as (T & _ & R); split; [rewrite T; discriminate|intros _; exact R]).
    destruct (asymmetric_decrypts U (decrypt_alg c) k now buf text (zlen text) answer GU H (decrypts_rsa U c k RK) ltac:(unfold zlen; lia)) as (st & b & m & P & F & I & Q).
    rewrite P. replace (firstn (Z.to_nat (zlen text)) text) with text in * by (unfold zlen; rewrite Nat2Z.id; symmetry; apply firstn_all).
    rewrite (rsa_text U c k RK) in I.
    destruct st; try (exists 0, b, None; split; [reflexivity|]; split; [intros _; destruct (F ltac:(discriminate)); auto|]; split;
      [split; [discriminate|]; intros (A & B & C & _ & D & X); exfalso; assert (Y := proj2 I (conj A (conj B (conj (Z.le_refl _) (conj C (conj D X)))))); discriminate|discriminate]).
    exists 1, b, (Some m). split; [reflexivity|]. split; [intros N; now destruct N|]. split; [split; [|reflexivity]|].
    - intros _. destruct (proj1 I eq_refl) as (A & B & C & D & E0 & X). exact (conj A (conj B (conj D (conj eq_refl (conj E0 X))))).
    - intros msg _ X. destruct (Q msg eq_refl X) as [Q1 Q2]. split; [exact Q1|congruence]. }
  all: destruct (NO ltac:(discriminate)) as (ret & b & n & -> & -> & -> & ->); exists 0, buf, None; (split; [reflexivity|]); (split; [auto|]);
    (split; [split; [discriminate|]; intros ((F4 & _ & WI) & _ & _ & R & _); exfalso; assert (Y := proj2 O1 (conj F4 (conj WI R))); discriminate|discriminate]).
Qed.
Lemma decrypt_asked U c k kd alg now buf text room answer : good_ulib U -> rsa_key U k -> x_key c = Some kd -> d_private kd = Some k -> settled c -> asked c = Some alg ->
  exists ret buf' n, asym_decrypt U c now (Some buf) text room answer = Some (ADone ret buf' n) /\
    (ret <> 1 -> ret = 0 /\ buf' = buf /\ n = None) /\
    (ret = 1 <-> may_decrypt_clear k now /\ k_size k <= zlen buf /\ zlen text = k_size k /\ room = true /\ answer = true /\
       exists msg, decryption_of U alg k text msg) /\
    (forall msg, ret = 1 -> decryption_of U alg k text msg -> buf' = msg ++ skipn (length msg) buf /\ n = Some (zlen msg)).
Proof. intros GU RK CK DP S A. rewrite (settled_alg c S) in A. injection A as <-. now apply (decrypt_general U c k kd). Qed.

(** Encryption *)
Lemma encrypt_means L U E c k kd buf msg coins null_md out n : good_elib L U E -> data_of L k kd -> x_key c = Some kd -> half_settled c ->
  asym_encrypt E c (Some buf) msg coins null_md = ADone 1 out n ->
  exists text, out = text ++ skipn (length text) buf /\ n = Some (zlen text) /\ zlen text <= zlen buf /\ zlen text = u_rsa_size U (k_bytes k) /\
    decryption_of U (decrypt_alg c) k text msg.
Proof.
  intros GE (_ & _ & _ & DPub & _) CK HS H. unfold asym_encrypt in H. rewrite CK in H. cbv zeta in H.
  assert (STEP : forall s, match E s (d_public kd) msg coins with
        | None => ADone 0 buf None
        | Some text => match put buf text with None => ADone 0 buf None | Some buf => ADone 1 buf (Some (zlen text)) end
        end = ADone 1 out n ->
      exists text, E s (a_public L (k_bytes k)) msg coins = Some text /\ out = text ++ skipn (length text) buf /\ n = Some (zlen text) /\ zlen text <= zlen buf).
  { intros s X. rewrite DPub in X. destruct (E s (a_public L (k_bytes k)) msg coins) as [text|]; [|discriminate]. destruct (put buf text) as [o|] eqn:P; [|discriminate].
    apply put_some in P as [P1 P2]. exists text. split; [reflexivity|]. split; [congruence|]. split; [congruence|exact P2]. }
  destruct HS as [P|(P & d & M & K)]; rewrite P in H.
  - change (1 =? RSA_PKCS1) with true in H. cbv iota in H. destruct (zlen buf <? pkey_size (d_bits kd)); [discriminate|].
    destruct (STEP _ H) as (text & T & O1 & O2 & O3). exists text. repeat (split; [assumption|]). split; [now apply (ge_length L U E GE) in T|].
    unfold decrypt_alg. rewrite P. now apply (ge_pkcs1 L U E GE) in T.
  - change (4 =? RSA_PKCS1) with false in H. change (4 =? RSA_NONE) with false in H. change (4 =? RSA_OAEP) with true in H. cbv iota in H.
    assert (MG : oaep_mgf1_md c = Some d) by (unfold oaep_mgf1_md, oaep_md; rewrite M; destruct (x_mgf1 c); reflexivity). rewrite MG in H.
    assert (MD : oaep_md c = d) by (unfold oaep_md; now rewrite M). rewrite MD in H. destruct (zlen buf <? pkey_size (d_bits kd)); [discriminate|].
    destruct (STEP _ H) as (text & T & O1 & O2 & O3). exists text. repeat (split; [assumption|]). split; [now apply (ge_length L U E GE) in T|].
    unfold decrypt_alg. rewrite P, MG, MD. change (4 =? RSA_OAEP) with true. cbv iota. rewrite !api_known by assumption. now apply (ge_oaep L U E GE) in T.
Qed.
Lemma settled_half c : settled c -> half_settled c.
Proof. intros [P|(P & d & M & K & _)]; [now left|right]. split; [exact P|]. now exists d. Qed.
Lemma encrypt_asked L U E c k kd alg buf msg coins null_md out n : good_elib L U E -> data_of L k kd -> x_key c = Some kd -> settled c -> asked c = Some alg ->
  asym_encrypt E c (Some buf) msg coins null_md = ADone 1 out n ->
  exists text, out = text ++ skipn (length text) buf /\ n = Some (zlen text) /\ zlen text <= zlen buf /\ decryption_of U alg k text msg.
Proof.
  intros GE DO CK S A H. rewrite (settled_alg c S) in A. injection A as <-.
  destruct (encrypt_means L U E c k kd buf msg coins null_md out n GE DO CK (settled_half c S) H) as (text & A & B & C & _ & D). now exists text.
Qed.
Lemma asym_round_trip L U E c c' k kd kd' now buf msg coins null_md out n buf2 : good_elib L U E -> good_ulib U -> rsa_key U k -> data_of L k kd' -> data_of L k kd ->
  x_key c = Some kd -> x_key c' = Some kd' -> settings_of c' = settings_of c -> half_settled c -> may_decrypt_clear k now ->
  asym_encrypt E c (Some buf) msg coins null_md = ADone 1 out (Some n) -> k_size k <= zlen buf2 ->
  asym_decrypt U c' now (Some buf2) (firstn (Z.to_nat n) out) true true = Some (ADone 1 (msg ++ skipn (length msg) buf2) (Some (zlen msg))).
Proof.
  intros GE GU RK DO' DO CK CK' SAME HS MAY H ROOM.
  destruct (encrypt_means L U E c k kd buf msg coins null_md out _ GE DO CK HS H) as (text & -> & N & _ & LEN & D). injection N as ->. rewrite firstn_zlen.
  assert (ALG : decrypt_alg c' = decrypt_alg c).
  { unfold settings_of in SAME. injection SAME as S1 S2 S3 S4. unfold decrypt_alg, oaep_mgf1_md, oaep_md. now rewrite S1, S2, S3, S4. }
  destruct DO' as (DP & _). destruct (decrypt_general U c' k kd' now buf2 text true true GU RK CK' DP) as (ret & b & m & -> & _ & I & Q).
  rewrite ALG in *. assert (R : ret = 1).
  { apply I. destruct RK as (_ & _ & RS). split; [exact MAY|]. split; [exact ROOM|]. split; [congruence|]. split; [reflexivity|]. split; [reflexivity|]. now exists msg. }
  destruct (Q msg R D) as [-> ->]. now subst ret.
Qed.

(** Parameters *)
Lemma set_latest c o c' : set_aparams c o = (true, c') ->
  x_key c' = x_key c /\ x_md c' = latest (p_md o) (x_md c) /\ x_mgf1 c' = latest (p_mgf1 o) (x_mgf1 c) /\ x_label c' = latest (p_label o) (x_label c) /\
  (forall n, p_pad o = Some (ANumber n) \/ p_pad o = Some (AName (Some n)) -> x_pad c' = n) /\ (p_pad o = None -> x_pad c' = x_pad c).
Proof.
  unfold set_aparams, latest. destruct o as [m p g l]. cbn [p_md p_pad p_mgf1 p_label].
  destruct m as [ [m|]|]; try discriminate; destruct g as [ [g|]|]; try discriminate; intros H; injection H as <-; destruct l; cbn;
    repeat (split; [reflexivity|]); (split; [intros n [X|X]; rewrite X; reflexivity|intros X; rewrite X; reflexivity]).
Qed.
