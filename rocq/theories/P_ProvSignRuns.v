(** Examples for the signatures of the provider, and where they fail. *)
From Verif Require Import Base S_Bytes M_Rights M_Mac M_Unwrap M_Asym S_Rights S_Asym P_Kdf P_Unwrap P_Asym P_Asym2 M_ProvSign S_ProvSign P_ProvSign.

(** ** A library in which the digest of MGF1 matters *)
Definition mix (s : scheme) (msg : list Z) : list Z := match s with Pss _ m _ => map (Z.add m) msg | _ => msg end.
Definition mlib : alib := MkAlib (a_parse toy_alib) (a_public toy_alib) (a_digest toy_alib)
  (fun s key msg coins => a_sign toy_alib s key (mix s msg) coins)
  (fun s public msg sig => a_verify toy_alib s public (mix s msg) sig)
  (a_ecdsa toy_alib) (a_ecdsa_verify toy_alib) (a_pub_type toy_alib) (a_derive toy_alib) (a_rsa_gen toy_alib) (a_ec_gen toy_alib) (a_dh_gen toy_alib).
Lemma mix_length s msg : zlen (mix s msg) = zlen msg.
Proof. destruct s; try reflexivity. unfold zlen. cbn. now rewrite map_length. Qed.
Lemma mlib_good : good_alib mlib.
Proof.
  pose proof toy_good as G. constructor; unfold mlib; cbn [a_parse a_public a_digest a_sign a_verify a_ecdsa a_ecdsa_verify].
  - intros s key msg coins sig H. exact (ga_verify _ G s key (mix s msg) coins sig H).
  - exact (ga_ecdsa_verify _ G).
  - exact (ga_bits _ G).
  - intros s key msg coins sig bits H N E. exact (ga_rsa_length _ G s key _ coins sig bits H N E).
  - intros key msg coins bits H. exact (ga_ed25519 _ G key msg coins bits H).
  - intros key msg coins bits H. exact (ga_ed448 _ G key msg coins bits H).
  - exact (ga_ecdsa _ G).
  - intros d key msg coins bits H M. exact (ga_pkcs1 _ G d key msg coins bits H M).
  - intros d m salt key msg coins bits H M S. rewrite <- (mix_length (Pss d m salt) msg). exact (ga_pss _ G d m salt key _ coins bits H M S).
  - exact (ga_digest _ G).
Qed.
(** Verification: a length of salt that makes sense, and an ECDSA signature that can be read. *)
Definition read_integer (l : list Z) : Z * list Z :=
  match l with _ :: n :: r => (number_of 0 (firstn (Z.to_nat n) r), skipn (Z.to_nat n) r) | _ => (0, []) end.
Definition read_der (l : list Z) : Z * Z :=
  let body := match l with 48 :: 129 :: _ :: body => body | 48 :: _ :: body => body | _ => [] end in
  let '(r, rest) := read_integer body in (r, fst (read_integer rest)).
Definition salt_sense (bits d n : Z) : bool :=
  (0 <=? n) || (n =? -2) || ((n =? -1) && (0 <=? digest_length d)) || ((n =? -3) && (0 <=? (bits - 1 + 7) / 8 - digest_length d - 2)).
Definition mverify : vlib := fun v public msg sig =>
  match v with
  | VPkcs1 (Some d) => a_verify mlib (Pkcs1 d) public msg sig
  | VPss (Some d) mgf1 n => salt_sense (nth 1 public 0) d n && a_verify mlib (Pss d (mgf1_of d mgf1) 0) public msg sig
  | VEcdsa (Some d) => a_ecdsa_verify mlib d public msg (read_der sig)
  | VEd => a_verify mlib Ed public msg sig
  | _ => false
  end.
Lemma read_integer_der z a rest : der_integer z a -> read_integer (a ++ rest) = (z, rest).
Proof.
  intros H. destruct H as [z first r B N F M L]. cbn [read_integer app].
  change (firstn (Z.to_nat (zlen (first :: r))) (first :: r ++ rest)) with (firstn (Z.to_nat (zlen (first :: r))) ((first :: r) ++ rest)).
  change (skipn (Z.to_nat (zlen (first :: r))) (first :: r ++ rest)) with (skipn (Z.to_nat (zlen (first :: r))) ((first :: r) ++ rest)).
  rewrite firstn_zlen, N. f_equal. unfold zlen. rewrite Nat2Z.id. rewrite skipn_app, skipn_all, Nat.sub_diag. reflexivity.
Qed.
Lemma read_der_ok r s l : ecdsa_der r s l -> read_der l = (r, s).
Proof.
  intros (a & b & A & B & S). assert (R : read_integer (a ++ b) = (r, b)) by now apply read_integer_der.
  assert (R2 : read_integer b = (s, [])) by (rewrite <- (app_nil_r b); now apply read_integer_der).
  unfold read_der. destruct S as [(L & ->)|(L & ->)].
  - set (body := a ++ b) in *. assert (E : match 48 :: zlen body :: body with 48 :: 129 :: _ :: body => body | 48 :: _ :: body => body | _ => [] end = body).
    { assert (N : zlen body <> 129) by lia. generalize dependent (zlen body). intros n _ N. destruct n as [|p|p]; try reflexivity.
      do 7 (destruct p as [p|p|]; try reflexivity). destruct p; try reflexivity; try (exfalso; apply N; reflexivity). }
    rewrite E, R, R2. reflexivity.
  - rewrite R, R2. reflexivity.
Qed.
Lemma salt_sense_iff bits d n : salt_sense bits d n = true <-> exists salt, 0 <= salt /\ salt_means bits d n salt.
Proof.
  unfold salt_sense, salt_means. split.
  - intros H. destruct (Z.leb_spec 0 n); [exists n; lia|]. destruct (Z.eqb_spec n (-2)); [exists 0; lia|].
    destruct (Z.eqb_spec n (-1)); [exists (digest_length d); lia|]. destruct (Z.eqb_spec n (-3)); [exists ((bits - 1 + 7) / 8 - digest_length d - 2); lia|]. cbn in H. discriminate.
  - intros (salt & P & H). lia.
Qed.
Lemma mverify_good : good_vlib mlib mverify.
Proof.
  constructor.
  - reflexivity.
  - intros d mgf1 n key bits msg sig H. cbn [mverify]. destruct (toy_parse 6 key bits H) as (x & -> & P). cbn [mlib a_public toy_alib nth].
    rewrite andb_true_iff, salt_sense_iff. split.
    + intros ((salt & P0 & SM) & Q). exists salt. repeat split; auto.
    + intros (salt & P0 & SM & Q). split; [now exists salt|exact Q].
  - intros d public msg r s sig H. cbn [mverify]. now rewrite (read_der_ok r s sig H).
  - reflexivity.
Qed.
Definition kd_of (k : stored_key) : kdata := MkKd (Some k) (k_type k) (p_curve (k_params k)) (a_public mlib (k_bytes k)) (nth 1 (k_bytes k) 0).
Lemma kd_of_ok k : well_formed mlib k -> data_of mlib k (kd_of k).
Proof.
  intros W. repeat split. intros T. destruct (W ltac:(lia)) as (bits & P & _ & _). rewrite (pkey_rsa k T) in P. change PKEY_RSA with 6 in P. rewrite P.
  destruct (toy_parse 6 (k_bytes k) bits P) as (x & E & _). cbn [kd_of d_bits]. now rewrite E.
Qed.
Definition rsa_pair : stored_key := toy_pair 2 0 256 2048 9.
Definition ec_pair : stored_key := toy_pair 1 0 32 256 9.
Definition ed_pair : stored_key := toy_pair 1 3 32 256 9.
Lemma rsa_pair_ok : well_formed mlib rsa_pair.
Proof. apply toy_pair_ok; cbn; try tauto; try lia; reflexivity. Qed.
Lemma ec_pair_ok : well_formed mlib ec_pair.
Proof. apply toy_pair_ok; cbn; try tauto; try lia; reflexivity. Qed.
Lemma ed_pair_ok : well_formed mlib ed_pair.
Proof. apply toy_pair_ok; cbn; try tauto; try lia; reflexivity. Qed.
Lemma rsa_pair_whole : whole mlib rsa_pair.
Proof. intros _. exists 2048. split; reflexivity. Qed.
(** A context after its initialisation. *)
Definition set_up (k : stored_key) (m : mdname) (o : sparams) : sctx := snd (digest_init new_sctx m (kd_of k) o).
Definition pss (mgf1 : option Z) (salt : Z) : sparams := MkSp None (Some (PadNumber 6)) (match mgf1 with Some m => Some (Some m) | None => None end) (Some salt).
Definition junk : list Z := repeat 7 512.

(** ** A signature over data in pieces, for the three schemes *)
Lemma signed_case :
  (let c := set_up rsa_pair (Name (Some 2)) (pss (Some 2) (-1)) in
   exists c1 buf, updates c [[1; 2]; [3]] = Some c1 /\ fst (digest_sign_final mlib c1 5 (Some (repeat 0 300)) [] junk 0 true) = Signed true buf (Some 256) /\
     exists c2 c3, updates c [[1]; []; [2; 3]] = Some c2 /\ digest_verify_final mlib mverify c2 (firstn 256 buf) = Some (true, c3)) /\
  (let c := set_up ec_pair (Name (Some 1)) no_sparams in
   exists c1 buf, updates c [[1; 2; 3]] = Some c1 /\ fst (digest_sign_final mlib c1 5 (Some (repeat 0 73)) [] junk 0 true) = Signed true buf (Some 9) /\
     exists c3, digest_verify_final mlib mverify c1 (firstn 9 buf) = Some (true, c3)).
Proof.
  split; cbv zeta.
  - do 2 eexists. split; [vm_compute; reflexivity|]. split; [vm_compute; reflexivity|]. do 2 eexists. split; [vm_compute; reflexivity|]. vm_compute. reflexivity.
  - do 2 eexists. split; [vm_compute; reflexivity|]. split; [vm_compute; reflexivity|]. eexists. vm_compute. reflexivity.
Qed.
Lemma may_sign_toy t c size bits x : may_sign (toy_pair t c size bits x) 5.
Proof. split; [reflexivity|split; vm_compute; (discriminate || reflexivity)]. Qed.

(** ** Where it fails *)
(** With PSS and no digest for MGF1 the signature is made with SHA-256 there. *)
Lemma mgf1_differs : exists L V k kd o c c1 buf' n,
  good_alib L /\ good_vlib L V /\ well_formed L k /\ whole L k /\ data_of L k kd /\
  digest_init new_sctx (Name (Some 2)) kd o = (true, c) /\ o_mgf1 o = None /\ updates c [[1; 2; 3]] = Some c1 /\
  fst (digest_sign_final L c1 5 (Some (repeat 0 256)) [] junk 0 true) = Signed true buf' (Some n) /\
  exists c2, digest_verify_final L V c1 (firstn (Z.to_nat n) buf') = Some (false, c2).
Proof.
  exists mlib, mverify, rsa_pair, (kd_of rsa_pair), (pss None (-1)).
  exists (set_up rsa_pair (Name (Some 2)) (pss None (-1))). do 3 eexists.
  split; [exact mlib_good|]. split; [exact mverify_good|]. split; [exact rsa_pair_ok|]. split; [exact rsa_pair_whole|]. split; [apply kd_of_ok, rsa_pair_ok|].
  split; [reflexivity|]. split; [reflexivity|]. split; [vm_compute; reflexivity|]. split; [vm_compute; reflexivity|]. eexists. vm_compute. reflexivity.
Qed.
(** A digest that the API does not have is taken for SHA-256. *)
Lemma other_digest L c k kd d now buf tbs local coins : good_alib L -> well_formed L k -> whole L k -> data_of L k kd ->
  c_key c = Some kd -> c_md c = Some d -> ~ known_digest d -> k_type k = 2 -> c_pad c = 1 -> size_allowed 2 0 (k_size k) -> may_sign k now ->
  zlen tbs = 32 -> zlen local = 512 -> k_size k <= zlen buf ->
  exists sig, signature_sign L c now (Some buf) (Bytes tbs) local coins true = Signed true (sig ++ skipn (length sig) buf) (Some (zlen sig)) /\
    a_verify L (Pkcs1 1) (a_public L (k_bytes k)) tbs sig = true.
Proof.
  intros GA W WH (DP & DT & DC & DPub & DB) CK CM KD T P SZ MAY LT LL AB.
  assert (A : algorithm_for c kd = Some (SPkcs1 (Some (1, true)))).
  { unfold algorithm_for. rewrite DT, T, P, CM. unfold digest_or_default. destruct (digest_ok d) eqn:E; [apply digest_ok_iff in E; contradiction|reflexivity]. }
  unfold signature_sign. rewrite CK, A, DP. cbv zeta. pose proof (rsa_size_bound k SZ) as RB.
  assert (SW : signs_with (SPkcs1 (Some (1, true))) k) by (repeat split; auto; cbn; tauto).
  destruct (sign_complete L (SPkcs1 (Some (1, true))) k now local (Bytes tbs) coins GA W Logic.I WH SW MAY Logic.I Logic.I LT ltac:(cbn; lia)) as [out E]. rewrite E.
  destruct (sign_sound L (SPkcs1 (Some (1, true))) k now local (Bytes tbs) coins true out _ GA W Logic.I ltac:(discriminate) E) as (_ & _ & _ & _ & sig & -> & Q & _ & V & _).
  rewrite Q, firstn_zlen, DT, T. cbn [signature_size] in Q. change (2 =? KT_EC) with false. cbv iota.
  destruct (Z.ltb_spec (zlen buf) (zlen sig)); [lia|]. exists sig. split; [reflexivity|exact V].
Qed.
(** The size of the buffer is not looked at. *)
Lemma small_buffer : exists L c k kd d buf tbs local,
  good_alib L /\ well_formed L k /\ whole L k /\ data_of L k kd /\ c_key c = Some kd /\ c_md c = Some d /\ known_digest d /\ can_sign c k d /\ may_sign k 5 /\
  zlen tbs = digest_length d /\ zlen local = 512 /\ zlen buf = 16 /\
  signature_sign L c 5 (Some buf) (Bytes tbs) local 0 true = Overruns.
Proof.
  exists mlib, (set_up rsa_pair (Name (Some 1)) no_sparams), rsa_pair, (kd_of rsa_pair), 1, (repeat 0 16), (repeat 1 32), junk.
  split; [exact mlib_good|]. split; [exact rsa_pair_ok|]. split; [exact rsa_pair_whole|]. split; [apply kd_of_ok, rsa_pair_ok|].
  split; [reflexivity|]. split; [reflexivity|]. split; [unfold known_digest; cbn; tauto|].
  split; [right; split; [reflexivity|]; split; [constructor; cbn; tauto|now left]|]. split; [apply may_sign_toy|].
  repeat (split; [reflexivity|]). vm_compute. reflexivity.
Qed.
(** SHA-224 with PSS, with a buffer of the announced size. *)
Lemma pss_overruns : exists L c k kd buf tbs local,
  good_alib L /\ well_formed L k /\ whole L k /\ data_of L k kd /\ c_key c = Some kd /\ uses_pss c k /\ may_sign k 5 /\ zlen tbs = 28 /\ zlen local = 512 /\
  signature_sign L c 5 None (Bytes tbs) local 0 true = Signed true [] (Some (zlen buf)) /\
  signature_sign L c 5 (Some buf) (Bytes tbs) local 0 true = Overruns.
Proof.
  exists mlib, (set_up rsa_pair (Name (Some 4)) (pss (Some 1) 20)), rsa_pair, (kd_of rsa_pair), (repeat 0 256), (repeat 1 28), junk.
  split; [exact mlib_good|]. split; [exact rsa_pair_ok|]. split; [exact rsa_pair_whole|]. split; [apply kd_of_ok, rsa_pair_ok|].
  split; [reflexivity|]. split; [split; reflexivity|]. split; [apply may_sign_toy|]. repeat (split; [reflexivity|]). split; vm_compute; reflexivity.
Qed.
(** A modulus of 2050 bits, whose size is announced as 256. *)
Definition odd_pair : stored_key := toy_pair 2 0 256 2050 9.
Lemma odd_overruns : exists L c k kd buf tbs local,
  good_alib L /\ well_formed L k /\ data_of L k kd /\ c_key c = Some kd /\ c_md c = Some 1 /\ c_pad c = 1 /\ may_sign k 5 /\ zlen tbs = 32 /\ zlen local = 512 /\
  signature_sign L c 5 None (Bytes tbs) local 0 true = Signed true [] (Some (zlen buf)) /\
  signature_sign L c 5 (Some buf) (Bytes tbs) local 0 true = Overruns.
Proof.
  assert (W : well_formed mlib odd_pair) by (apply toy_pair_ok; cbn; try tauto; try lia; reflexivity).
  exists mlib, (set_up odd_pair (Name (Some 1)) no_sparams), odd_pair, (kd_of odd_pair), (repeat 0 256), (repeat 1 32), junk.
  split; [exact mlib_good|]. split; [exact W|]. split; [apply kd_of_ok, W|].
  do 3 (split; [reflexivity|]). split; [apply may_sign_toy|]. do 2 (split; [reflexivity|]). split; vm_compute; reflexivity.
Qed.
(** An initialisation that failed answers 1, and the next call uses a NULL pointer. *)
Lemma init_answers_one c m kd o : exists c', digest_init c m kd o = (true, c').
Proof. unfold digest_init. destruct (sign_init c kd o) as [ [|] c']; [|eauto]. destruct (is_edwards kd), m as [|[d|] ]; eauto. Qed.
Lemma init_then_crash c kd o data : data <> [] -> is_edwards kd = false ->
  exists c', digest_init c (Name None) kd o = (true, c') /\ digest_update c' data = None.
Proof.
  intros N E. unfold digest_init. rewrite E. assert (X : forall c, digest_update (with_key (with_md (with_hash c NoHash) None) None) data = None) by (intros []; destruct data; [contradiction|reflexivity]).
  destruct (sign_init c kd o) as [ [|] c']; eexists; (split; [reflexivity|apply X]).
Qed.
Lemma padding_kept : exists c o c', set_sparams c o = (false, c') /\ c_pad c' <> c_pad c.
Proof. exists new_sctx, (MkSp None (Some (PadNumber 3)) None None). eexists. split; [reflexivity|]. cbn. discriminate. Qed.
(** The identifiers. *)
Lemma id_sha1 : exists L c k kd, data_of L k kd /\ c_md c = Some 0 /\ c_pad c = 1 /\ k_type k = 2 /\ algorithm_id c kd = identifier k false 1 /\ algorithm_id c kd <> identifier k false 0.
Proof.
  exists mlib, (set_up rsa_pair (Name (Some 0)) no_sparams), rsa_pair, (kd_of rsa_pair). split; [apply kd_of_ok, rsa_pair_ok|]. repeat (split; [reflexivity|]). discriminate.
Qed.
Lemma id_pss : exists L c k kd, data_of L k kd /\ uses_pss c k /\ algorithm_id c kd = identifier k false 1.
Proof.
  exists mlib, (set_up rsa_pair (Name (Some 1)) (pss None (-1))), rsa_pair, (kd_of rsa_pair). split; [apply kd_of_ok, rsa_pair_ok|]. repeat split; reflexivity.
Qed.
Lemma id_crash k kd L : data_of L k kd -> k_type k = 2 \/ k_type k = 1 /\ nist (p_curve (k_params k)) ->
  exists c, sign_init new_sctx kd no_sparams = (true, c) /\ algorithm_id c kd = None.
Proof.
  intros (_ & DT & DC & _) H. eexists. split; [reflexivity|]. unfold algorithm_id. rewrite DT, DC. destruct H as [->|[-> N] ]; [reflexivity|].
  rewrite (proj2 (pcurve_iff _) N). reflexivity.
Qed.
(** Ed25519 *)
Lemma ed_case : exists buf, digest_sign mlib (set_up ed_pair NoName no_sparams) 5 (Some (repeat 0 64)) (Bytes [1; 2]) 0 true = Signed true buf (Some 64) /\
  digest_verify mverify (set_up ed_pair NoName no_sparams) buf [1; 2] = true.
Proof. eexists. split; vm_compute; reflexivity. Qed.
Lemma verify_iff L V c k kd d msg sig : good_vlib L V -> well_formed L k -> public_of L k kd -> c_key c = Some kd -> c_md c = Some d -> In (c_pad c) [1; 6] ->
  (k_type k = 1 -> exists r s, ecdsa_der r s sig) -> (signature_verify V c sig msg = true <-> as_asked L c k d msg sig).
Proof. intros; split; [now apply (verify_asked L V c k kd d)|now apply (verify_valid L V c k kd d)]. Qed.
