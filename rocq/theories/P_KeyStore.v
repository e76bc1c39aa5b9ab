(** Proofs about export and import of keys. *)
From Verif Require Import Base M_ObjectStore M_Memory M_Rights S_Bytes P_Bytes M_KeyStore S_KeyStore.

Lemma field_app a b c off n : off = length a -> n = length b -> field (a ++ b ++ c) off n = b.
Proof.
  intros -> ->. unfold field. rewrite skipn_app, skipn_all, Nat.sub_diag. cbn.
  now rewrite firstn_app, firstn_all, Nat.sub_diag, app_nil_r.
Qed.
Lemma slice_app a b c off n : off = length a -> n = length b -> slice (a ++ b ++ c) off n = Some b.
Proof.
  intros -> ->. unfold slice. replace (_ <=? _)%nat with true
    by (symmetry; apply Nat.leb_le; rewrite !app_length; lia).
  f_equal. now apply field_app.
Qed.
Lemma slice_some l off n : (off + n <= length l)%nat -> slice l off n = Some (field l off n).
Proof. intros H. unfold slice. apply Nat.leb_le in H. now rewrite H. Qed.
Lemma field_length l off n : (off + n <= length l)%nat -> length (field l off n) = n.
Proof. intros H. unfold field. rewrite firstn_length, skipn_length. lia. Qed.

Lemma le_bytes_length n : forall x, length (le_bytes n x) = n.
Proof. induction n; intros x; cbn; auto. Qed.
Lemma le_num_bytes n : forall x, 0 <= x < 256 ^ Z.of_nat n -> le_num (le_bytes n x) = x.
Proof.
  induction n; intros x H; cbn [le_bytes le_num].
  - cbn in H. lia.
  - rewrite IHn.
    + pose proof (Z.div_mod x 256). lia.
    + rewrite Nat2Z.inj_succ, Z.pow_succ_r in H by lia.
      split; [apply Z.div_pos; lia|apply Z.div_lt_upper_bound; lia].
Qed.
Lemma le_bytes_num l : bytes_ok l -> le_bytes (length l) (le_num l) = l.
Proof.
  induction 1 as [|b l Hb H IH]; cbn [length le_bytes le_num]; auto. unfold byte_ok in Hb.
  replace ((b + 256 * le_num l) mod 256) with b by (clear - Hb; lia).
  replace ((b + 256 * le_num l) / 256) with (le_num l) by (clear - Hb; lia). now rewrite IH.
Qed.
Lemma le_num_bound l : bytes_ok l -> 0 <= le_num l < 256 ^ Z.of_nat (length l).
Proof.
  induction 1 as [|b l Hb H IH]; cbn [length le_num]; [cbn; lia|]. unfold byte_ok in Hb.
  rewrite Nat2Z.inj_succ, Z.pow_succ_r by lia. lia.
Qed.

(** ** Headers *)
Definition fields4 (r t p s : list Z) : Prop :=
  length r = 608%nat /\ length t = 1%nat /\ length p = 1040%nat /\ length s = 2%nat.
Lemma make_header_length r t p s : fields4 r t p s -> length (make_header r t p s) = HEADER_SIZE.
Proof.
  intros (A & B & C & D). unfold make_header. rewrite !app_length, !repeat_length, A, B, C, D. reflexivity.
Qed.
Lemma make_header_fields r t p s : fields4 r t p s ->
  let h := make_header r t p s in
  field h 0 4 = MAGIC /\ field h 8 608 = r /\ field h 616 1 = t /\ field h 624 1040 = p /\ field h 1664 2 = s.
Proof.
  intros (A & B & C & D) h. subst h. unfold make_header.
  split; [reflexivity|]. repeat split.
  - rewrite (app_assoc MAGIC). apply field_app; [reflexivity|now rewrite A].
  - rewrite (app_assoc MAGIC), (app_assoc (MAGIC ++ _)). apply field_app; [|now rewrite B].
    rewrite !app_length, A. reflexivity.
  - rewrite (app_assoc MAGIC), (app_assoc (MAGIC ++ _)), (app_assoc ((MAGIC ++ _) ++ _)), (app_assoc (((MAGIC ++ _) ++ _) ++ _)).
    apply field_app; [|now rewrite C]. rewrite !app_length, A, B. reflexivity.
  - rewrite (app_assoc MAGIC), (app_assoc (MAGIC ++ _)), (app_assoc ((MAGIC ++ _) ++ _)), (app_assoc (((MAGIC ++ _) ++ _) ++ _)),
      (app_assoc ((((MAGIC ++ _) ++ _) ++ _) ++ _)).
    apply field_app; [|now rewrite D]. rewrite !app_length, A, B, C. reflexivity.
Qed.

(** Fields of fields. *)
Lemma field_field l a n b m : (b + m <= n)%nat -> field (field l a n) b m = field l (a + b) m.
Proof.
  intros H. unfold field. rewrite skipn_firstn_comm, firstn_firstn.
  replace (Nat.min m (n - b)) with m by lia. f_equal.
  clear. revert l. induction a; intros l; cbn; auto. destruct l; cbn; auto. apply skipn_nil.
Qed.

(** What is seen of a header depends on the four fields only. *)
Lemma seen_of_fields h h' :
  field h 8 608 = field h' 8 608 -> field h 616 1 = field h' 616 1 ->
  field h 624 1040 = field h' 624 1040 -> field h 1664 2 = field h' 1664 2 ->
  hdr_rights h = hdr_rights h' /\ hdr_type h = hdr_type h' /\ hdr_params h = hdr_params h' /\ hdr_size h = hdr_size h'.
Proof.
  intros R T P S.
  assert (HR : forall b m, (b + m <= 608)%nat -> field h (8 + b) m = field h' (8 + b) m).
  { intros b m H. rewrite <- (field_field h 8 608), <- (field_field h' 8 608) by auto. now rewrite R. }
  assert (HP : forall b m, (b + m <= 1040)%nat -> field h (624 + b) m = field h' (624 + b) m).
  { intros b m H. rewrite <- (field_field h 624 1040), <- (field_field h' 624 1040) by auto. now rewrite P. }
  unfold hdr_rights, hdr_type, hdr_params, hdr_size. rewrite T, S.
  repeat split; try reflexivity.
  - pose proof (HR 0%nat 64%nat) as E1. pose proof (HR 64%nat 8%nat) as E2. pose proof (HR 72%nat 8%nat) as E3.
    pose proof (HR 80%nat 8%nat) as E4. pose proof (HR 88%nat 8%nat) as E5. pose proof (HR 96%nat 512%nat) as E6.
    cbn [Nat.add] in E1, E2, E3, E4, E5, E6.
    rewrite E1, E2, E3, E4, E5, E6; try reflexivity; apply Nat.leb_le; reflexivity.
  - pose proof (HP 0%nat 4%nat) as E1. pose proof (HP 0%nat 520%nat) as E2. pose proof (HP 520%nat 520%nat) as E3.
    cbn [Nat.add] in E1, E2, E3.
    rewrite E1, E2, E3; try reflexivity; apply Nat.leb_le; reflexivity.
Qed.
Definition copied (h : list Z) : list Z := make_header (field h 8 608) (field h 616 1) (field h 624 1040) (field h 1664 2).
Lemma copied_fields4 h : length h = HEADER_SIZE ->
  fields4 (field h 8 608) (field h 616 1) (field h 624 1040) (field h 1664 2).
Proof.
  intros H. repeat split; apply field_length; rewrite H; apply Nat.leb_le; reflexivity.
Qed.
Lemma copied_seen h : length h = HEADER_SIZE ->
  hdr_rights (copied h) = hdr_rights h /\ hdr_type (copied h) = hdr_type h /\
  hdr_params (copied h) = hdr_params h /\ hdr_size (copied h) = hdr_size h.
Proof.
  intros H. destruct (make_header_fields _ _ _ _ (copied_fields4 h H)) as (_ & A & B & C & D).
  apply seen_of_fields; assumption.
Qed.
Lemma copied_proper r t p s : fields4 r t p s -> copied (make_header r t p s) = make_header r t p s.
Proof.
  intros H. destruct (make_header_fields _ _ _ _ H) as (_ & A & B & C & D). unfold copied. now rewrite A, B, C, D.
Qed.

Lemma validate_iff h : length h = HEADER_SIZE ->
  validate_header_format h = true <->
  firstn 4 h = MAGIC /\ rights_validate_format (hdr_rights h) = true /\
  key_type_supports_any (hdr_type h) (p_curve (hdr_params h)) (hdr_size h) = true.
Proof.
  intros H. unfold validate_header_format.
  assert (Hm : memcmp_constant (field h 0 4) MAGIC = 0 <-> firstn 4 h = MAGIC).
  { rewrite memcmp_zero; [reflexivity|]. rewrite field_length; [reflexivity|rewrite H; apply Nat.leb_le; reflexivity]. }
  destruct (memcmp_constant (field h 0 4) MAGIC =? 0) eqn:E; cbn [negb].
  - apply Z.eqb_eq in E. apply Hm in E.
    destruct (rights_validate_format _); cbn [negb]; [|intuition discriminate].
    destruct (key_type_supports_any _ _ _); cbn [negb]; intuition discriminate.
  - apply Z.eqb_neq in E. intuition discriminate.
Qed.

(** ** Wrapping *)
Lemma pad_key_ok key : pad_key key true = (PADDED_SIZE (zlen key), Some (pkcs7_pad key)).
Proof.
  unfold pad_key. cbn [negb]. cbv zeta. fold (zlen key).
  assert (Hp : PADDED_SIZE (zlen key) - zlen key = 16 - zlen key mod 16) by (unfold PADDED_SIZE; lia).
  rewrite Hp. set (p := 16 - zlen key mod 16). assert (1 <= p <= 16) by (subst p; lia).
  unfold pad_apply_pkcs7. replace ((p <? 1) || (16 <? p)) with false by lia.
  do 2 f_equal. unfold pkcs7_pad. cbn zeta. fold p. f_equal.
  rewrite skipn_app, firstn_length, repeat_length.
  rewrite (skipn_all2 (firstn _ _)) by (rewrite firstn_length; lia).
  replace (Z.to_nat (16 - p) - Nat.min (Z.to_nat (16 - p)) 16)%nat with 0%nat by lia. reflexivity.
Qed.

Lemma strip_pad clear p n : n = zlen clear -> n mod 16 = 0 -> 16 <= n ->
  pad_check_pkcs7 (skipn (Z.to_nat (n - 16)) clear) = (p, true) ->
  clear = pkcs7_pad (firstn (Z.to_nat (n - p)) clear).
Proof.
  intros Hn Hm H16 Hc. unfold zlen in Hn. apply pad_check_iff in Hc; [|rewrite skipn_length; lia].
  destruct Hc as (Hp & head & Hb & Hl).
  assert (Hhead : length head = Z.to_nat (16 - p)).
  { rewrite Hb, app_length, repeat_length in Hl. lia. }
  assert (E : clear = (firstn (Z.to_nat (n - 16)) clear ++ head) ++ repeat p (Z.to_nat p)).
  { rewrite <- app_assoc, <- Hb. symmetry. apply firstn_skipn. }
  set (front := firstn (Z.to_nat (n - 16)) clear ++ head) in *.
  assert (Hf : length front = Z.to_nat (n - p)).
  { unfold front. rewrite app_length, firstn_length. lia. }
  clearbody front. rewrite E at 2. rewrite <- Hf, firstn_app, firstn_all, Nat.sub_diag. cbn [firstn]. rewrite app_nil_r.
  rewrite E. unfold pkcs7_pad. cbn zeta. replace (16 - zlen front mod 16) with p; [reflexivity|].
  unfold zlen. rewrite Hf. clear - Hm Hp H16 Hn. lia.
Qed.

Lemma pad_checks msg n : n = zlen (pkcs7_pad msg) -> exists p,
  pad_check_pkcs7 (skipn (Z.to_nat (n - 16)) (pkcs7_pad msg)) = (p, true) /\
  firstn (Z.to_nat (n - p)) (pkcs7_pad msg) = msg.
Proof.
  intros ->. destruct (pad_then_strip msg) as (p & A & B). exists p. unfold last16 in A.
  assert (1 <= p <= 16).
  { unfold pad_check_pkcs7 in A. destruct ((_ <? 1) || _) eqn:E in A; [discriminate|]. injection A as <- _. lia. }
  unfold zlen. replace (Z.to_nat (Z.of_nat (length (pkcs7_pad msg)) - 16)) with (length (pkcs7_pad msg) - 16)%nat by lia.
  replace (Z.to_nat (Z.of_nat (length (pkcs7_pad msg)) - p)) with (length (pkcs7_pad msg) - Z.to_nat p)%nat by lia. auto.
Qed.

Lemma create_iff h b k : 
  create_from_header h b true = Some k <->
  key_type_supports_any (hdr_type h) (p_curve (hdr_params h)) (hdr_size h) = true /\
  rights_validate_format (hdr_rights h) = true /\ sk_header k = copied h /\ sk_bytes k = b.
Proof.
  unfold create_from_header.
  destruct (key_type_supports_any _ _ _); cbn [negb]; [|intuition discriminate].
  destruct (rights_validate_format _); cbn [negb]; [|intuition discriminate]. fold (copied h).
  destruct k as [hk bk]; cbn [sk_header sk_bytes]. split; [intros [= <- <-]; auto|intros (_ & _ & -> & ->); reflexivity].
Qed.
Lemma create_any h b a k : create_from_header h b a = Some k -> create_from_header h b true = Some k.
Proof.
  unfold create_from_header. destruct (negb (key_type_supports_any _ _ _)); auto.
  destruct (negb (rights_validate_format _)); auto. destruct a; cbn [negb]; auto. discriminate.
Qed.
Lemma unwrap_any d di h iv len cipher mac a k :
  unwrap d di h iv len cipher mac a = Some k -> unwrap d di h iv len cipher mac unwrapping_works = Some k.
Proof.
  unfold unwrap, unwrapping_works. cbn [ua_hmac ua_alloc ua_dec ua_create].
  destruct (_ || _); auto. destruct (ua_hmac a); cbn [negb]; [|discriminate].
  destruct (negb (_ =? 0)); auto. destruct (ua_alloc a); cbn [negb]; [|discriminate].
  destruct (ua_dec a); cbn [negb]; [|discriminate]. cbv zeta.
  destruct (pad_check_pkcs7 _) as [p ok]. destruct (negb ok); auto. apply create_any.
Qed.

Lemma unwrap_iff d di h iv len cipher mac k : good_device d -> len = zlen cipher -> length mac = 32%nat ->
  unwrap d di h iv len cipher mac unwrapping_works = Some k <->
  len mod 16 = 0 /\
  mac = d_hmac d (d_key d (i_mac di)) (h ++ cipher_parameters iv len ++ cipher) /\
  d_dec d (d_key d (i_wrap di)) iv cipher = pkcs7_pad (sk_bytes k) /\
  key_type_supports_any (hdr_type h) (p_curve (hdr_params h)) (hdr_size h) = true /\
  rights_validate_format (hdr_rights h) = true /\ sk_header k = copied h.
Proof.
  intros G Hlen Hmac. unfold unwrap, unwrapping_works. cbn [ua_hmac ua_alloc ua_dec ua_create negb]. cbv zeta.
  set (m := d_hmac _ _ _). assert (Hm : memcmp_constant m mac = 0 <-> m = mac).
  { apply memcmp_zero. unfold m. rewrite (gd_mac_len _ G). now rewrite Hmac. }
  destruct ((len <? 16) || negb (len mod 16 =? 0)) eqn:E1.
  { split; [discriminate|]. intros (A & _ & B & _). exfalso.
    assert (zlen (d_dec d (d_key d (i_wrap di)) iv cipher) = len).
    { rewrite Hlen. unfold zlen. f_equal. apply (gd_dec_len _ G). now rewrite <- Hlen. }
    rewrite B, pkcs7_pad_length in H. unfold PADDED_SIZE, zlen in H. clear - H E1 A. lia. }
  assert (H16 : 16 <= len /\ len mod 16 = 0) by (clear - E1; lia). destruct H16 as [H16 H0].
  destruct (memcmp_constant m mac =? 0) eqn:E2; cbn [negb].
  2:{ split; [discriminate|]. intros (_ & A & _). apply Z.eqb_neq in E2. exfalso. apply E2, Hm. now symmetry. }
  apply Z.eqb_eq, Hm in E2.
  assert (Hc : len = zlen (d_dec d (d_key d (i_wrap di)) iv cipher)).
  { rewrite Hlen. unfold zlen. f_equal. symmetry. apply (gd_dec_len _ G). now rewrite <- Hlen. }
  set (clear := d_dec d _ iv cipher) in *.
  destruct (pad_check_pkcs7 (skipn (Z.to_nat (len - 16)) clear)) as [p ok] eqn:E3.
  destruct ok; cbn [negb].
  - pose proof (strip_pad clear p len Hc H0 H16 E3) as Es.
    rewrite create_iff. split.
    + intros (A & B & C & D). rewrite D. repeat split; auto.
    + intros (_ & _ & A & B & C & D). repeat split; auto.
      rewrite A in E3, Es |- *. destruct (pad_checks (sk_bytes k) len) as (q & Q1 & Q2); [now rewrite <- A|].
      rewrite E3 in Q1. injection Q1 as ->. now symmetry.
  - split; [discriminate|]. intros (_ & _ & A & _). rewrite A in E3, Hc.
    destruct (pad_checks (sk_bytes k) len Hc) as (q & Q1 & _). rewrite E3 in Q1. discriminate.
Qed.

(** What wrapping yields. *)
Definition wraps (d : device) (w : wkey) (k : skey) : Prop :=
  w_header w = sk_header k /\ (length (w_iv w) = 16%nat /\ bytes_ok (w_iv w)) /\
  w_len w = PADDED_SIZE (zlen (sk_bytes k)) /\
  w_cipher w = d_enc d (d_key d (i_wrap (w_inputs w))) (w_iv w) (pkcs7_pad (sk_bytes k)) /\
  w_mac w = d_hmac d (d_key d (i_mac (w_inputs w))) (w_header w ++ cipher_parameters (w_iv w) (w_len w) ++ w_cipher w).
Lemma create_wraps d di k a w : vector_ok a -> wrapped_key_create d di k a = Made w -> wraps d w k /\ w_inputs w = di.
Proof.
  unfold wrapped_key_create, vector_ok. intros Hiv. destruct (wa_alloc a); cbn [negb]; [|discriminate].
  destruct (wa_pad a).
  - rewrite pad_key_ok. destruct (wa_iv a) as [iv|]; [|discriminate].
    destruct (wa_enc a); cbn [negb]; [|discriminate]. cbv zeta. destruct (wa_hmac a); cbn [negb]; [|discriminate].
    intros [= <-]. split; [|reflexivity]. destruct Hiv. repeat split; auto.
  - unfold pad_key. cbn [negb]. destruct (_ =? 0); discriminate.
Qed.
Lemma create_works d di k a iv : wrapping_works a iv -> exists w, wrapped_key_create d di k a = Made w.
Proof.
  intros (-> & _ & _). unfold wrapped_key_create. cbn [wa_alloc wa_pad wa_iv wa_enc wa_hmac negb]. rewrite pad_key_ok. eauto.
Qed.
Lemma pad_bytes msg : bytes_ok msg -> bytes_ok (pkcs7_pad msg).
Proof.
  intros H. unfold pkcs7_pad, bytes_ok. cbn zeta. apply Forall_app. split; [exact H|].
  apply Forall_forall. intros x Hx. apply repeat_spec in Hx. subst. unfold byte_ok. lia.
Qed.
Lemma padded_zlen msg : zlen (pkcs7_pad msg) mod 16 = 0.
Proof. rewrite pkcs7_pad_length. unfold PADDED_SIZE. lia. Qed.
Lemma wraps_unwraps d w k : good_device d -> proper_key k -> wraps d w k ->
  wrapped_key_unwrap d w unwrapping_works = Some k.
Proof.
  intros G ((r & t & p & s & Hh & F) & R & T & _ & Hby & _) (A & B & C & D & E).
  unfold wrapped_key_unwrap. apply unwrap_iff; auto.
  - rewrite C, D. unfold zlen at 2. rewrite (gd_enc_len _ G) by apply padded_zlen. now rewrite <- pkcs7_pad_length.
  - rewrite E. apply (gd_mac_len _ G).
  - rewrite A. repeat split; auto.
    + rewrite C. unfold PADDED_SIZE. lia.
    + now rewrite <- A.
    + rewrite D. apply (gd_inverse _ G); [now apply pad_bytes|apply padded_zlen].
    + rewrite Hh. symmetry. now apply copied_proper.
Qed.

(** ** Import *)
Lemma header_z : Z.of_nat HEADER_SIZE = 1672. Proof. reflexivity. Qed.
Lemma skipn_add {A} a b : forall l : list A, skipn (a + b) l = skipn b (skipn a l).
Proof. induction a; intros l; cbn; auto. destruct l; cbn; auto. now rewrite skipn_nil. Qed.
Lemma skipn_field l off n : skipn off l = field l off n ++ skipn (off + n) l.
Proof. unfold field. rewrite skipn_add. symmetry. apply firstn_skipn. Qed.
Lemma field_all l off n : (off + n = length l)%nat -> skipn off l = field l off n.
Proof. intros H. rewrite (skipn_field l off n), (skipn_all2 l) by lia. apply app_nil_r. Qed.
Lemma field_bytes l off n : bytes_ok l -> bytes_ok (field l off n).
Proof.
  unfold bytes_ok, field. intros H. apply Forall_forall. intros x Hx. rewrite Forall_forall in H. apply H.
  apply In_nth_error in Hx. destruct Hx as [i Hi].
  assert (In x (skipn off l)).
  { rewrite <- (firstn_skipn n (skipn off l)). apply in_or_app. left. eapply nth_error_In; eauto. }
  rewrite <- (firstn_skipn off l). apply in_or_app. now right.
Qed.

Definition e_mixin l := field l 0 16.
Definition e_header l := field l 16 HEADER_SIZE.
Definition e_iv l := field l (16 + HEADER_SIZE) 16.
Definition e_lenb l := field l (16 + HEADER_SIZE + 16) 8.
Definition e_len l := le_num (e_lenb l).
Definition e_cipher l := field l (16 + HEADER_SIZE + 24) (Z.to_nat (e_len l)).
Definition e_mac l := field l (16 + HEADER_SIZE + 24 + Z.to_nat (e_len l)) 32.
Definition well_sized l : Prop :=
  16 <= e_len l /\ e_len l mod 16 = 0 /\ Z.of_nat (length l) = 16 + Z.of_nat HEADER_SIZE + 24 + e_len l + 32.

Lemma read_exported_eq d l a : bytes_ok l -> zlen l < W64 ->
  read_exported d l a = Refused INVALID_KEY_FORMAT \/
  (well_sized l /\ validate_header_format (e_header l) = true /\
   read_exported d l a =
     match unwrap d (with_mixin export_inputs (e_mixin l)) (e_header l) (e_iv l) (e_len l) (e_cipher l) (e_mac l) a with
     | None => Refused INVALID_KEY_FORMAT | Some k => Accepted k end).
Proof.
  intros Hb Hn. unfold read_exported. cbv zeta. unfold MIN_EXPORTED.
  destruct (_ <? _) eqn:E0; [auto|]. pose proof header_z as Hz. unfold read.
  assert (H0 : (16 + HEADER_SIZE + 24 + 16 + 32 <= length l)%nat) by (clear - E0; lia).
  rewrite (slice_some l 0 16), (slice_some l 16 HEADER_SIZE), (slice_some l (16 + HEADER_SIZE + 16) 8) by (clear - H0; lia).
  fold (e_mixin l) (e_header l) (e_lenb l). fold (e_len l).
  destruct (validate_header_format (e_header l)) eqn:E1; cbn [negb]; [|auto].
  destruct ((e_len l <? 16) || _) eqn:E2; [auto|].
  destruct (_ =? wrap64 _) eqn:E3; cbn [negb]; [|auto].
  assert (Hl : 0 <= e_len l < W64).
  { unfold e_len. pose proof (le_num_bound (e_lenb l) (field_bytes _ _ _ Hb)) as B.
    unfold e_lenb in B at 3. rewrite field_length in B by (clear - H0; lia). exact B. }
  assert (W : well_sized l).
  { unfold well_sized. apply Z.eqb_eq in E3. unfold wrap64, W64 in *.
    clear - E2 E3 Hl Hz H0. split; [lia|]. split; [lia|]. rewrite E3.
    assert (16 + Z.of_nat HEADER_SIZE + 24 + e_len l + 32 < 2 ^ 64 \/ 2 ^ 64 <= 16 + Z.of_nat HEADER_SIZE + 24 + e_len l + 32) by lia.
    destruct H; [apply Z.mod_small; lia|]. exfalso.
    rewrite Z.mod_eq in E3 by lia.
    replace ((16 + Z.of_nat HEADER_SIZE + 24 + e_len l + 32) / 2 ^ 64) with 1 in E3; [lia|].
    apply Z.div_unique with (16 + Z.of_nat HEADER_SIZE + 24 + e_len l + 32 - 2 ^ 64); lia. }
  destruct W as (W1 & W2 & W3).
  rewrite (slice_some l (16 + HEADER_SIZE) 16) by (clear - H0; lia).
  rewrite (slice_some l (16 + HEADER_SIZE + 24) (Z.to_nat (e_len l))) by (clear - W1 W3; lia).
  rewrite (slice_some l (16 + HEADER_SIZE + 24 + Z.to_nat (e_len l)) 32) by (clear - W1 W3; lia).
  fold (e_iv l) (e_cipher l) (e_mac l). right. repeat split; auto.
Qed.

Lemma read_in_bounds d l a : bytes_ok l -> zlen l < W64 -> read_exported d l a <> Outside.
Proof.
  intros Hb Hn. destruct (read_exported_eq d l a Hb Hn) as [->|(_ & _ & ->)]; [discriminate|].
  destruct (unwrap _ _ _ _ _ _ _ _); discriminate.
Qed.

Lemma well_sized_lengths l : well_sized l ->
  length (e_mixin l) = 16%nat /\ length (e_header l) = HEADER_SIZE /\ length (e_iv l) = 16%nat /\
  length (e_lenb l) = 8%nat /\ zlen (e_cipher l) = e_len l /\ length (e_mac l) = 32%nat.
Proof.
  intros (A & B & C). unfold e_mixin, e_header, e_iv, e_lenb, e_cipher, e_mac, zlen.
  rewrite !field_length by (clear - A C; lia). repeat split; auto. clear - A; lia.
Qed.
Lemma well_sized_parts l : well_sized l -> parts l (e_mixin l) (e_header l) (e_iv l) (e_lenb l) (e_cipher l) (e_mac l).
Proof.
  intros W. split; [|pose proof (well_sized_lengths l W) as L; exact L].
  destruct W as (A & B & C).
  transitivity (skipn 0 l); [reflexivity|].
  rewrite (skipn_field l 0 16). cbn [Nat.add]. f_equal.
  rewrite (skipn_field l 16 HEADER_SIZE). f_equal.
  rewrite (skipn_field l (16 + HEADER_SIZE) 16). f_equal.
  rewrite (skipn_field l (16 + HEADER_SIZE + 16) 8). f_equal.
  replace (16 + HEADER_SIZE + 16 + 8)%nat with (16 + HEADER_SIZE + 24)%nat by (clear; lia).
  rewrite (skipn_field l _ (Z.to_nat (e_len l))). f_equal.
  apply field_all. clear - A C. lia.
Qed.
Lemma parts_fields l mixin h iv len cipher mac : parts l mixin h iv len cipher mac ->
  e_mixin l = mixin /\ e_header l = h /\ e_iv l = iv /\ e_lenb l = len /\ e_cipher l = cipher /\ e_mac l = mac.
Proof.
  intros (-> & A & B & C & D & E & F).
  assert (H1 : e_mixin (mixin ++ h ++ iv ++ len ++ cipher ++ mac) = mixin).
  { unfold e_mixin. apply (field_app [] mixin); auto. }
  assert (H2 : e_header (mixin ++ h ++ iv ++ len ++ cipher ++ mac) = h).
  { unfold e_header. apply field_app; auto. }
  assert (H3 : e_iv (mixin ++ h ++ iv ++ len ++ cipher ++ mac) = iv).
  { unfold e_iv. rewrite app_assoc. apply field_app; auto. rewrite app_length. clear - A B. lia. }
  assert (H4 : e_lenb (mixin ++ h ++ iv ++ len ++ cipher ++ mac) = len).
  { unfold e_lenb. rewrite (app_assoc mixin), (app_assoc (mixin ++ h)). apply field_app; auto.
    rewrite !app_length. clear - A B C. lia. }
  assert (Hn : Z.to_nat (le_num len) = length cipher) by (rewrite <- E; unfold zlen; clear; lia).
  repeat split; auto.
  - unfold e_cipher, e_len. rewrite H4, Hn.
    rewrite (app_assoc mixin), (app_assoc (mixin ++ h)), (app_assoc ((mixin ++ h) ++ iv)). apply field_app; auto.
    rewrite !app_length. clear - A B C D. lia.
  - unfold e_mac, e_len. rewrite H4, Hn. rewrite <- (app_nil_r mac) at 1.
    rewrite (app_assoc mixin), (app_assoc (mixin ++ h)), (app_assoc ((mixin ++ h) ++ iv)), (app_assoc (((mixin ++ h) ++ iv) ++ len)).
    apply field_app; auto. rewrite !app_length. clear - A B C D. lia.
Qed.

Lemma read_authentic d l a k : good_device d -> bytes_ok l -> zlen l < W64 ->
  read_exported d l a = Accepted k -> authentic d l (key_of k) /\ length (e_header l) = HEADER_SIZE /\ sk_header k = copied (e_header l).
Proof.
  intros G Hb Hn E. destruct (read_exported_eq d l a Hb Hn) as [E'|(W & V & E')]; rewrite E in E'; [discriminate|].
  destruct (unwrap _ _ _ _ _ _ _ _) as [k'|] eqn:U; [|discriminate]. injection E' as ->.
  apply unwrap_any in U. pose proof (well_sized_lengths l W) as (L1 & L2 & L3 & L4 & L5 & L6).
  apply unwrap_iff in U; auto. destruct U as (U1 & U2 & U3 & U4 & U5 & U6).
  apply validate_iff in V; auto. destruct V as (V1 & _ & _).
  destruct (copied_seen (e_header l) L2) as (S1 & S2 & S3 & S4). split; [|auto].
  exists (e_mixin l), (e_header l), (e_iv l), (e_lenb l), (e_cipher l), (e_mac l).
  split; [now apply well_sized_parts|].
  assert (Hlb : le_bytes 8 (e_len l) = e_lenb l).
  { unfold e_len. rewrite <- L4. apply le_bytes_num, field_bytes, Hb. }
  unfold key_of. cbn [k_rights k_type k_params k_size k_bytes]. rewrite U6, S1, S2, S3, S4.
  repeat split; auto.
  - rewrite U2. unfold cipher_parameters, export_mac_key. now rewrite Hlb, <- app_assoc.
  - rewrite L5. auto.
Qed.

Lemma authentic_read d l K : good_device d -> bytes_ok l -> zlen l < W64 -> authentic d l K ->
  exists k, read_exported d l unwrapping_works = Accepted k /\ key_of k = K.
Proof.
  intros G Hb Hn (mixin & h & iv & len & cipher & mac & P & M & Mg & C16 & D & R & T & K1 & K2 & K3 & K4).
  pose proof (parts_fields _ _ _ _ _ _ _ P) as (F1 & F2 & F3 & F4 & F5 & F6).
  destruct P as (El & P1 & P2 & P3 & P4 & P5 & P6). pose proof header_z as Hz.
  assert (Hlb : bytes_ok len) by (rewrite <- F4; apply field_bytes, Hb).
  assert (Hlen : length l = (16 + HEADER_SIZE + 24 + length cipher + 32)%nat).
  { rewrite El, !app_length. clear - P1 P2 P3 P4 P6. lia. }
  assert (H16 : 16 <= zlen cipher).
  { assert (zlen (d_dec d (export_enc_key d mixin) iv cipher) = zlen cipher).
    { unfold zlen. f_equal. now apply (gd_dec_len _ G). }
    rewrite D, pkcs7_pad_length in H. rewrite <- H. unfold PADDED_SIZE, zlen. clear. lia. }
  assert (U : unwrap d (with_mixin export_inputs mixin) h iv (le_num len) cipher mac unwrapping_works =
    Some (MkSkey (copied h) (k_bytes K))).
  { apply unwrap_iff; auto. rewrite <- P5. cbn [sk_header sk_bytes]. rewrite <- K1, <- K2, <- K3, <- K4. repeat split; auto.
    rewrite M. unfold cipher_parameters, export_mac_key. rewrite P5.
    pose proof (le_bytes_num len Hlb) as Eb. rewrite P4 in Eb. now rewrite Eb, <- app_assoc. }
  assert (V : validate_header_format h = true).
  { apply validate_iff; auto. rewrite <- K1, <- K2, <- K3, <- K4. auto. }
  exists (MkSkey (copied h) (k_bytes K)). split.
  - unfold read_exported. cbv zeta. unfold MIN_EXPORTED. unfold zlen in *.
    replace (_ <? _) with false by (clear - Hlen H16; lia). unfold read.
    rewrite (slice_some l 0 16), (slice_some l 16 HEADER_SIZE), (slice_some l (16 + HEADER_SIZE + 16) 8),
      (slice_some l (16 + HEADER_SIZE) 16) by (clear - Hlen; lia).
    fold (e_mixin l) (e_header l) (e_lenb l) (e_iv l). rewrite F1, F2, F3, F4, V. cbn [negb].
    replace ((_ <? 16) || _) with false by (clear - P5 H16 C16; lia).
    replace (_ =? wrap64 _) with true.
    2:{ symmetry. apply Z.eqb_eq. unfold wrap64. rewrite Z.mod_small; clear - P5 Hlen Hn Hz; lia. }
    cbn [negb].
    assert (Hc : Z.to_nat (le_num len) = length cipher) by (clear - P5; lia).
    rewrite (slice_some l (16 + HEADER_SIZE + 24) (Z.to_nat (le_num len))),
      (slice_some l (16 + HEADER_SIZE + 24 + Z.to_nat (le_num len)) 32) by (clear - Hlen Hc; lia).
    assert (Hel : e_len l = le_num len) by (unfold e_len; now rewrite F4).
    rewrite <- Hel. fold (e_cipher l) (e_mac l). rewrite F5, F6, Hel, U. reflexivity.
  - destruct (copied_seen h P2) as (S1 & S2 & S3 & S4). unfold key_of. cbn [sk_header sk_bytes].
    rewrite S1, S2, S3, S4, <- K1, <- K2, <- K3, <- K4. now destruct K.
Qed.

(** ** Export *)
Lemma le_bytes_ok n : forall x, bytes_ok (le_bytes n x).
Proof.
  induction n; intros x; cbn [le_bytes]; constructor; [|apply IHn].
  unfold byte_ok. apply Z.mod_pos_bound. reflexivity.
Qed.
Lemma stored_wraps d k rand a w : vector_ok a -> import_stored_key d k rand a = (Made w, OK) -> wraps d w k.
Proof.
  intros Hv. unfold import_stored_key. destruct (negb _); [discriminate|]. destruct rand as [di|]; [|discriminate].
  destruct (wrapped_key_create d di k a) as [w'| |] eqn:E; try discriminate. intros [= <-].
  now apply create_wraps in E.
Qed.
Lemma cacheable_bit w k : w_header w = sk_header k -> BIT_TEST (r_usage (hdr_rights (w_header w))) F_CACHEABLE = cacheable k.
Proof.
  intros ->. unfold BIT_TEST, cacheable, BIT_MASK, F_CACHEABLE. set (u := r_usage _). clearbody u.
  destruct (Z.testbit u 13) eqn:E.
  - destruct (Z.land u (Z.shiftl 1 13) =? 0) eqn:E2; [|reflexivity]. apply Z.eqb_eq in E2.
    assert (H : Z.testbit (Z.land u (Z.shiftl 1 13)) 13 = false) by (rewrite E2; reflexivity).
    rewrite Z.land_spec, E in H. discriminate.
  - replace (Z.land u (Z.shiftl 1 13)) with 0; [reflexivity|]. symmetry. apply Z.bits_inj'. intros i Hi.
    rewrite Z.land_spec, Z.bits_0. destruct (Z.eq_dec i 13) as [->|Hne]; [now rewrite E|].
    rewrite Z.shiftl_spec by lia. replace (Z.testbit 1 (i - 13)) with false; [apply andb_false_r|].
    destruct (Z.ltb_spec i 13); [now rewrite Z.testbit_neg_r by lia|].
    change 1 with (2 ^ 0). rewrite Z.pow2_bits_eqb by lia. symmetry. apply Z.eqb_neq. lia.
Qed.
Definition exported_size (k : skey) : Z := 16 + 1672 + 24 + PADDED_SIZE (zlen (sk_bytes k)) + 32.
Lemma required_is d w k : wraps d w k -> zlen (sk_bytes k) < 2 ^ 63 ->
  wrap64 (16 + Z.of_nat HEADER_SIZE + 24 + w_len w + 32) = exported_size k.
Proof.
  intros (_ & _ & C & _) H. rewrite C, header_z. unfold exported_size, wrap64. apply Z.mod_small.
  unfold PADDED_SIZE, W64, zlen in *. clear - H. lia.
Qed.
Lemma proper_header k : proper_key k -> length (sk_header k) = HEADER_SIZE /\ copied (sk_header k) = sk_header k /\ firstn 4 (sk_header k) = MAGIC.
Proof.
  intros ((r & t & p & s & -> & F) & _). split; [now apply make_header_length|]. split; [now apply copied_proper|].
  now destruct (make_header_fields _ _ _ _ F) as (A & _).
Qed.
Lemma unwrapped_same d w k a k2 : good_device d -> proper_key k -> wraps d w k -> wrapped_key_unwrap d w a = Some k2 -> k2 = k.
Proof.
  intros G P W U. unfold wrapped_key_unwrap in U. apply unwrap_any in U.
  pose proof (wraps_unwraps d w k G P W) as U'. unfold wrapped_key_unwrap in U'. rewrite U in U'. now injection U'.
Qed.

Lemma export_authentic d k w mixin room ua wa len blob :
  good_device d -> proper_key k -> vector_ok wa -> mixin_ok mixin -> wraps d w k ->
  export d w mixin (Some room) ua wa = Exported OK len (Some blob) ->
  len = Some (zlen blob) /\ zlen blob = exported_size k /\ zlen blob <= room /\ cacheable k = true /\
  bytes_ok blob /\ authentic d blob (key_of k) /\ e_header blob = sk_header k.
Proof.
  intros G P Hv Hm W. pose proof W as (W1 & W2 & W3 & W4 & W5). pose proof (proper_header k P) as (PH & PC & PM).
  pose proof P as (_ & PR & PT & PB & PBB & PL).
  unfold export. rewrite (required_is d w k W PL), (cacheable_bit w k W1).
  assert (exists mx, match mixin with None => Some (repeat 0 16) | Some m => if (length m =? 16)%nat then Some m else None end = mx /\
    forall m, mx = Some m -> length m = 16%nat /\ bytes_ok m) as (mx & -> & Hmx).
  { eexists. split; [reflexivity|]. destruct mixin as [m|]; intros m' E.
    - destruct (Nat.eqb_spec (length m) 16); [|discriminate]. injection E as <-. auto.
    - injection E as <-. split; [reflexivity|]. repeat constructor; unfold byte_ok; lia. }
  destruct mx as [m|]; [|discriminate]. destruct (Hmx m eq_refl) as [Hml Hmb]. clear Hmx.
  destruct (cacheable k); cbn [negb]; [|discriminate]. cbv zeta.
  destruct (room <? exported_size k) eqn:Er; [discriminate|].
  destruct (wrapped_key_unwrap d w ua) as [k2|] eqn:U; [|discriminate].
  pose proof (unwrapped_same _ _ _ _ _ G P W U) as ->.
  destruct (wrapped_key_create _ _ k wa) as [r| |] eqn:C; try discriminate.
  intros [= <- <-]. apply create_wraps in C; auto. destruct C as ((R1 & (R2 & R2b) & R3 & R4 & R5) & R6).
  rewrite R6 in R4, R5.
  assert (Hpad : zlen (pkcs7_pad (sk_bytes k)) mod 16 = 0) by apply padded_zlen.
  assert (Hcl : zlen (w_cipher r) = w_len r).
  { rewrite R4, R3, <- pkcs7_pad_length. unfold zlen. f_equal. now apply (gd_enc_len _ G). }
  assert (Hmac : length (w_mac r) = 32%nat) by (rewrite R5; apply (gd_mac_len _ G)).
  assert (Hsz : zlen (m ++ w_header r ++ cipher_parameters (w_iv r) (w_len r) ++ w_cipher r ++ w_mac r) = exported_size k).
  { unfold exported_size, cipher_parameters. rewrite <- R3, <- Hcl. unfold zlen. rewrite !app_length, le_bytes_length, R1.
    pose proof header_z. clear - Hml PH R2 Hmac H. lia. }
  rewrite Hsz. split; [reflexivity|]. split; [reflexivity|]. split; [clear - Er; lia|]. split; [reflexivity|]. split.
  { unfold cipher_parameters, bytes_ok. rewrite R1. repeat (apply Forall_app; split); auto.
    - apply le_bytes_ok.
    - rewrite R4. apply (gd_enc_bytes _ G).
    - rewrite R5. apply (gd_mac_bytes _ G). }
  assert (Hln : le_num (le_bytes 8 (w_len r)) = w_len r).
  { apply le_num_bytes. rewrite R3. unfold PADDED_SIZE, zlen in *. clear - PL. cbn. lia. }
  split.
  2:{ unfold e_header. rewrite R1. apply field_app; auto. }
  exists m, (w_header r), (w_iv r), (le_bytes 8 (w_len r)), (w_cipher r), (w_mac r).
  unfold key_of. cbn [k_rights k_type k_params k_size k_bytes]. rewrite R1.
  split; [|split; [|repeat split; auto]].
  - unfold parts, cipher_parameters. rewrite <- !app_assoc, le_bytes_length, Hln. repeat split; auto.
  - rewrite R5, R1. unfold cipher_parameters, export_mac_key. now rewrite <- app_assoc.
  - rewrite Hcl, R3, <- pkcs7_pad_length. exact Hpad.
  - rewrite R4. unfold export_enc_key. apply (gd_inverse _ G); auto. now apply pad_bytes.
Qed.

Lemma accepted_validates d l a k : good_device d -> bytes_ok l -> zlen l < W64 -> read_exported d l a = Accepted k ->
  proper_key k \/ 2 ^ 63 <= zlen (sk_bytes k).
Proof.
  intros G Hb Hn E. destruct (read_exported_eq d l a Hb Hn) as [E'|(W & V & E')]; rewrite E in E'; [discriminate|].
  destruct (unwrap _ _ _ _ _ _ _ _) as [k'|] eqn:U; [|discriminate]. injection E' as <-.
  apply unwrap_any in U. pose proof (well_sized_lengths l W) as (L1 & L2 & L3 & L4 & L5 & L6).
  apply unwrap_iff in U; auto. destruct U as (U1 & U2 & U3 & U4 & U5 & U6).
  destruct (copied_seen (e_header l) L2) as (S1 & S2 & S3 & S4).
  destruct (Z.ltb_spec (zlen (sk_bytes k)) (2 ^ 63)); [left|now right].
  unfold proper_key. rewrite U6, S1, S2, S3, S4. repeat split; auto.
  - exists (field (e_header l) 8 608), (field (e_header l) 616 1), (field (e_header l) 624 1040), (field (e_header l) 1664 2).
    split; [reflexivity|]. exact (copied_fields4 _ L2).
  - unfold copied, make_header, bytes_ok.
    assert (Z0 : forall n, Forall byte_ok (repeat 0 n)).
    { intros n. apply Forall_forall. intros x Hx. apply repeat_spec in Hx. subst. unfold byte_ok. lia. }
    assert (HB : bytes_ok (e_header l)) by (apply field_bytes, Hb).
    repeat (apply Forall_app; split); auto; try (apply field_bytes, HB).
    unfold MAGIC. repeat constructor; unfold byte_ok; lia.
  - pose proof (gd_dec_bytes _ G (d_key d (i_wrap (with_mixin export_inputs (e_mixin l)))) (e_iv l) (e_cipher l)) as Q.
    rewrite U3 in Q. unfold pkcs7_pad, bytes_ok in Q. cbn zeta in Q. apply Forall_app in Q. apply Q.
Qed.

Lemma import_made d l ua rand wa w : good_device d -> bytes_ok l -> zlen l < 2 ^ 63 -> vector_ok wa ->
  import_exported d l ua rand wa = Some (Made w, OK) ->
  exists k, proper_key k /\ authentic d l (key_of k) /\ wraps d w k /\ sk_header k = copied (e_header l).
Proof.
  intros G Hb Hn Hv. unfold import_exported. destruct (read_exported d l ua) as [st|k|] eqn:E; try discriminate.
  intros [= I]. assert (Hn' : zlen l < W64) by (unfold W64; lia).
  apply stored_wraps in I; auto. pose proof (read_authentic _ _ _ _ G Hb Hn' E) as (A & _ & A').
  exists k. split; [|auto]. destruct (accepted_validates _ _ _ _ G Hb Hn' E) as [|Hbig]; auto. exfalso.
  destruct A as (mx & h & iv & lb & c & m & (El & _ & _ & _ & _ & _ & _) & _ & _ & C16 & D & _).
  assert (zlen (d_dec d (export_enc_key d mx) iv c) = zlen c) by (unfold zlen; f_equal; now apply (gd_dec_len _ G)).
  rewrite D, pkcs7_pad_length in H. unfold key_of in H. cbn [k_bytes] in H.
  assert (zlen c <= zlen l) by (rewrite El; unfold zlen; rewrite !app_length; clear; lia).
  unfold PADDED_SIZE in H. unfold zlen in *. clear - H H0 Hbig Hn. lia.
Qed.

Lemma authentic_unique d l K1 K2 : authentic d l K1 -> authentic d l K2 -> K1 = K2.
Proof.
  intros (x1 & h1 & v1 & n1 & c1 & m1 & P1 & _ & _ & _ & D1 & _ & _ & A1 & A2 & A3 & A4)
         (x2 & h2 & v2 & n2 & c2 & m2 & P2 & _ & _ & _ & D2 & _ & _ & B1 & B2 & B3 & B4).
  apply parts_fields in P1. apply parts_fields in P2. destruct P1 as (<- & <- & <- & <- & <- & <-).
  destruct P2 as (<- & <- & <- & <- & <- & <-).
  assert (E : k_bytes K1 = k_bytes K2).
  { assert (Q : pkcs7_pad (k_bytes K1) = pkcs7_pad (k_bytes K2)) by congruence.
    destruct (pad_checks (k_bytes K1) _ eq_refl) as (p & Q1 & Q2).
    destruct (pad_checks (k_bytes K2) _ eq_refl) as (q & Q3 & Q4). rewrite Q in Q1, Q2. rewrite Q1 in Q3. injection Q3 as <-. congruence. }
  destruct K1 as [a1 a2 a3 a4 a5], K2 as [b1 b2 b3 b4 b5]; cbn [k_rights k_type k_params k_size k_bytes] in *. congruence.
Qed.

Lemma round_trip d k rand wa w mixin room ua wa2 len blob :
  good_device d -> proper_key k -> vector_ok wa -> vector_ok wa2 -> mixin_ok mixin -> zlen (sk_bytes k) < 2 ^ 62 ->
  import_stored_key d k rand wa = (Made w, OK) ->
  export d w mixin (Some room) ua wa2 = Exported OK len (Some blob) ->
  len = Some (zlen blob) /\ zlen blob <= room /\ cacheable k = true /\
  (forall rand2 wa3 iv, wrapping_works wa3 iv ->
     exists w2, import_exported d blob unwrapping_works (Some rand2) wa3 = Some (Made w2, OK)) /\
  (forall ua2 rand2 wa3 w2, vector_ok wa3 -> import_exported d blob ua2 rand2 wa3 = Some (Made w2, OK) ->
     (exists k2, wrapped_key_unwrap d w2 unwrapping_works = Some k2) /\
     (forall ua3 k2, wrapped_key_unwrap d w2 ua3 = Some k2 -> key_of k2 = key_of k) /\
     get_header w2 = sk_header k).
Proof.
  intros G P Hv Hv2 Hm Hsmall I X. apply stored_wraps in I; auto.
  destruct (export_authentic _ _ _ _ _ _ _ _ _ G P Hv2 Hm I X) as (A1 & A2 & A3 & A4 & A5 & A6 & A7).
  split; [auto|]. split; [auto|]. split; [auto|].
  assert (Hn : zlen blob < 2 ^ 63).
  { rewrite A2. unfold exported_size, PADDED_SIZE. clear - Hsmall. unfold zlen in *. lia. }
  split.
  - intros rand2 wa3 iv Hw. unfold import_exported.
    destruct (authentic_read d blob _ G A5 ltac:(unfold W64; lia) A6) as (k2 & R & K). rewrite R.
    unfold import_stored_key.
    assert (Hval : validate_header_format (sk_header k2) = true).
    { destruct (read_authentic _ _ _ _ G A5 ltac:(unfold W64; lia) R) as (_ & Hl & Hh).
      apply validate_iff.
      - rewrite Hh. unfold copied. apply make_header_length. now apply copied_fields4.
      - pose proof P as (_ & PR & PT & _). 
        pose proof (f_equal k_rights K) as K1. pose proof (f_equal k_type K) as K2.
        pose proof (f_equal k_params K) as K3. pose proof (f_equal k_size K) as K4.
        unfold key_of in K1, K2, K3, K4. cbn [k_rights k_type k_params k_size] in K1, K2, K3, K4.
        rewrite K1, K2, K3, K4. split; [|auto]. rewrite Hh. unfold copied, make_header. reflexivity. }
    rewrite Hval. cbn [negb].
    destruct (create_works d rand2 k2 wa3 iv Hw) as (w2 & ->). eauto.
  - intros ua2 rand2 wa3 w2 Hv3 I2.
    destruct (import_made _ _ _ _ _ _ G A5 Hn Hv3 I2) as (k2 & P2 & B1 & B2 & B3).
    pose proof (authentic_unique _ _ _ _ A6 B1) as K.
    split; [exists k2; now apply wraps_unwraps|]. split.
    + intros ua3 k3 U. now rewrite (unwrapped_same _ _ _ _ _ G P2 B2 U).
    + destruct B2 as (B2 & _). unfold get_header. rewrite B2, B3, A7.
      destruct (proper_header k P) as (_ & E & _). fold (copied (copied (sk_header k))). now rewrite !E.
Qed.

Lemma export_works d k rand wa w mixin room wa2 iv :
  good_device d -> proper_key k -> vector_ok wa -> wrapping_works wa2 iv ->
  match mixin with Some m => length m = 16%nat | None => True end ->
  import_stored_key d k rand wa = (Made w, OK) -> cacheable k = true ->
  exists n, export d w mixin None unwrapping_works wa2 = Exported OK (Some n) None /\
    (n <= room -> exists blob, export d w mixin (Some room) unwrapping_works wa2 = Exported OK (Some n) (Some blob)) /\
    (room < n -> export d w mixin (Some room) unwrapping_works wa2 = Exported INVALID_PARAMETER None None).
Proof.
  intros G P Hv Hw Hm I Hc. apply stored_wraps in I; auto. pose proof P as (_ & _ & _ & _ & _ & PL).
  exists (exported_size k). unfold export. rewrite (required_is d w k I PL), (cacheable_bit w k) by apply I. rewrite Hc. cbn [negb].
  assert (exists m, match mixin with None => Some (repeat 0 16) | Some m => if (length m =? 16)%nat then Some m else None end = Some m) as (m & ->).
  { destruct mixin as [m|]; [exists m; rewrite Hm; reflexivity|eauto]. }
  cbv zeta. split; [reflexivity|]. rewrite (wraps_unwraps d w k G P I).
  destruct (create_works d (with_mixin export_inputs m) k wa2 iv Hw) as (r & ->). split; intros H.
  - replace (room <? _) with false by lia. eauto.
  - replace (room <? _) with true by lia. reflexivity.
Qed.

Lemma never_exported d k rand wa w mixin room ua wa2 :
  vector_ok wa -> import_stored_key d k rand wa = (Made w, OK) -> cacheable k = false ->
  exists st, st <> OK /\ export d w mixin room ua wa2 = Exported st None None.
Proof.
  intros Hv I Hc. apply stored_wraps in I; auto. unfold export.
  destruct (match mixin with None => _ | Some _ => _ end); [|exists INVALID_PARAMETER; split; [discriminate|reflexivity]].
  rewrite (cacheable_bit w k) by apply I. rewrite Hc. exists OPERATION_NOT_ALLOWED. split; [discriminate|reflexivity].
Qed.

Lemma import_in_bounds d l ua rand wa : bytes_ok l -> zlen l < W64 -> import_exported d l ua rand wa <> None.
Proof.
  intros Hb Hn. unfold import_exported. pose proof (read_in_bounds d l ua Hb Hn).
  destruct (read_exported d l ua); congruence.
Qed.
Lemma import_authentic d l ua rand wa w : good_device d -> bytes_ok l -> zlen l < 2 ^ 63 -> vector_ok wa ->
  import_exported d l ua rand wa = Some (Made w, OK) ->
  exists K, authentic d l K /\ 
    (exists k, wrapped_key_unwrap d w unwrapping_works = Some k) /\
    (forall ua2 k, wrapped_key_unwrap d w ua2 = Some k -> key_of k = K).
Proof.
  intros G Hb Hn Hv I. destruct (import_made _ _ _ _ _ _ G Hb Hn Hv I) as (k & P & A & W & _).
  exists (key_of k). split; [auto|]. split; [exists k; now apply wraps_unwraps|].
  intros ua2 k2 U. now rewrite (unwrapped_same _ _ _ _ _ G P W U).
Qed.
Lemma import_accepts_exactly d l rand wa iv : good_device d -> bytes_ok l -> zlen l < 2 ^ 63 -> wrapping_works wa iv ->
  (exists w, import_exported d l unwrapping_works (Some rand) wa = Some (Made w, OK)) <-> (exists K, authentic d l K).
Proof.
  intros G Hb Hn Hw. assert (Hn' : zlen l < W64) by (unfold W64; lia). split.
  - intros (w & I). apply import_authentic in I; auto; [destruct I as (K & A & _); eauto|].
    destruct Hw as (-> & A & B). split; auto.
  - intros (K & A). destruct (authentic_read _ _ _ G Hb Hn' A) as (k & R & E). unfold import_exported. rewrite R.
    unfold import_stored_key. destruct (read_authentic _ _ _ _ G Hb Hn' R) as (A' & Hl & Hh).
    assert (V : validate_header_format (sk_header k) = true).
    { apply validate_iff; [rewrite Hh; unfold copied; apply make_header_length; now apply copied_fields4|].
      destruct A' as (x & h & v & n & c & m & _ & _ & _ & _ & _ & Q1 & Q2 & _).
      unfold key_of in Q1, Q2. cbn [k_rights k_type k_params k_size] in Q1, Q2. split; [|auto].
      rewrite Hh. unfold copied, make_header. reflexivity. }
    rewrite V. cbn [negb]. destruct (create_works d rand k wa iv Hw) as (w & ->). eauto.
Qed.
Lemma import_refused_stores_nothing d l ua rand wa r st : import_exported d l ua rand wa = Some (r, st) -> st <> OK ->
  r = NotMade \/ r = Crash.
Proof.
  unfold import_exported, import_stored_key. intros H Hs.
  repeat match type of H with context [match ?x with _ => _ end] => destruct x eqn:?; try discriminate end;
    injection H as <- <-; auto; congruence.
Qed.

(** The created key is the one of the abstract model. *)
Lemma create_abstract h b a : length h = HEADER_SIZE ->
  option_map key_of (create_from_header h b a) =
  snd (stored_key_create (Some (hdr_rights h)) None (hdr_type h) (hdr_params h) (hdr_size h) (Some b) a).
Proof.
  intros Hl. unfold create_from_header, stored_key_create.
  destruct (negb (key_type_supports_any _ _ _)); [reflexivity|].
  destruct (negb (rights_validate_format _)); [reflexivity|]. destruct (negb a); [reflexivity|].
  cbn [option_map snd restrict_child_rights]. f_equal. unfold key_of. cbn [sk_header sk_bytes].
  fold (copied h). destruct (copied_seen h Hl) as (-> & -> & -> & ->). reflexivity.
Qed.

(** ** Exhausted memory *)
Lemma padding_needed_for_crash d k rand wa : wa_pad wa = true -> fst (import_stored_key d k rand wa) <> Crash.
Proof.
  intros Hp. unfold import_stored_key. destruct (negb _); [discriminate|]. destruct rand as [di|]; [|discriminate].
  unfold wrapped_key_create. destruct (negb (wa_alloc wa)); [discriminate|]. rewrite Hp, pad_key_ok.
  destruct (wa_iv wa); [|discriminate]. destruct (negb (wa_enc wa)); [discriminate|]. cbv zeta.
  destruct (negb (wa_hmac wa)); discriminate.
Qed.
Lemma padding_needed_for_crash_export d w mixin room ua wa : wa_pad wa = true -> export d w mixin room ua wa <> ExportCrash.
Proof.
  intros Hp. unfold export. destruct (match mixin with None => _ | Some _ => _ end); [|discriminate].
  destruct (negb _); [discriminate|]. cbv zeta. destruct room as [room|]; [|discriminate].
  destruct (room <? _); [discriminate|]. destruct (wrapped_key_unwrap d w ua) as [k|]; [|discriminate].
  unfold wrapped_key_create. destruct (negb (wa_alloc wa)); [discriminate|]. rewrite Hp, pad_key_ok.
  destruct (wa_iv wa); [|discriminate]. destruct (negb (wa_enc wa)); [discriminate|]. cbv zeta.
  destruct (negb (wa_hmac wa)); discriminate.
Qed.

(** ** A device and a key *)
Definition toy_device : device :=
  MkDevice (fun l => l_c3 l) (fun _ _ m => map (fun b => Z.lxor (b mod 256) 90) m)
    (fun _ _ m => map (fun b => Z.lxor (b mod 256) 90) m)
    (fun key m => repeat (fold_left Z.add (key ++ m) 7 mod 256) 32).
Definition toy_rights : list Z :=
  [107; 49] ++ repeat 0 62 ++ le_bytes 8 (2 ^ 13 + 2 ^ 3) ++ repeat 0 8 ++ repeat 0 8 ++ repeat 255 8 ++ repeat 255 16 ++ repeat 0 496.
Definition toy_key : skey := MkSkey (make_header toy_rights [0] (repeat 0 1040) [16; 0]) (map Z.of_nat (seq 1 16)).
Definition toy_inputs : inputs := MkInputs (MkLadder (repeat 1 16) (repeat 2 16) (repeat 3 16)) (MkLadder (repeat 4 16) (repeat 5 16) (repeat 6 16)).
Definition toy_wrap : wrap_answers := MkWA true true (Some (repeat 9 16)) true true.
Lemma repeat_bytes b n : byte_ok b -> bytes_ok (repeat b n).
Proof. intros H. apply Forall_forall. intros x Hx. apply repeat_spec in Hx. now subst. Qed.
Definition bytes_okb (l : list Z) : bool := forallb (fun b => (0 <=? b) && (b <? 256)) l.
Lemma bytes_okb_ok l : bytes_okb l = true -> bytes_ok l.
Proof.
  unfold bytes_okb. rewrite forallb_forall. intros H. apply Forall_forall. intros x Hx. apply H in Hx. unfold byte_ok. lia.
Qed.
Lemma toy_proper : proper_key toy_key.
Proof.
  split; [exists toy_rights, [0], (repeat 0 1040), [16; 0]; repeat split; vm_compute; reflexivity|].
  split; [vm_compute; reflexivity|]. split; [vm_compute; reflexivity|]. split; [apply bytes_okb_ok; vm_compute; reflexivity|].
  split; [apply bytes_okb_ok; vm_compute; reflexivity|vm_compute; reflexivity].
Qed.

Lemma xor_byte b : byte_ok (Z.lxor (b mod 256) 90).
Proof.
  assert (H : 0 <= b mod 256 < 256) by (apply Z.mod_pos_bound; lia). set (x := b mod 256) in *. clearbody x. unfold byte_ok.
  split; [apply Z.lxor_nonneg; lia|].
  destruct (Z.eq_dec (Z.lxor x 90) 0) as [->|Hne]; [lia|].
  assert (0 <= Z.lxor x 90) by (apply Z.lxor_nonneg; lia).
  change 256 with (2 ^ 8). apply Z.log2_lt_pow2; [lia|].
  eapply Z.le_lt_trans; [apply Z.log2_lxor; lia|]. apply Z.max_lub_lt; [|reflexivity].
  destruct (Z.eq_dec x 0) as [->|]; [reflexivity|]. apply Z.log2_lt_pow2; lia.
Qed.
Lemma toy_good : good_device toy_device.
Proof.
  constructor; cbn [toy_device d_enc d_dec d_hmac]; intros; try (now rewrite map_length); try (now rewrite repeat_length).
  - rewrite map_map. transitivity (map (fun b => b) m); [|apply map_id]. apply map_ext_in. intros b Hb.
    unfold bytes_ok in H. rewrite Forall_forall in H. apply H in Hb.
    rewrite (Z.mod_small (Z.lxor (b mod 256) 90)) by apply xor_byte. unfold byte_ok in Hb. rewrite (Z.mod_small b) by lia.
    now rewrite Z.lxor_assoc, Z.lxor_nilpotent, Z.lxor_0_r.
  - apply Forall_forall. intros x Hx. apply in_map_iff in Hx. destruct Hx as (b & <- & _). apply xor_byte.
  - apply Forall_forall. intros x Hx. apply in_map_iff in Hx. destruct Hx as (b & <- & _). apply xor_byte.
  - apply repeat_bytes. unfold byte_ok. apply Z.mod_pos_bound. lia.
Qed.
Definition toy_stored : wkey :=
  match fst (import_stored_key toy_device toy_key (Some toy_inputs) toy_wrap) with Made w => w | _ => MkWkey [] [] 0 [] [] toy_inputs end.
Definition toy_blob : list Z :=
  match export toy_device toy_stored (Some (repeat 8 16)) (Some 2000) unwrapping_works toy_wrap with Exported _ _ (Some b) => b | _ => [] end.
Lemma toy_store_step : import_stored_key toy_device toy_key (Some toy_inputs) toy_wrap = (Made toy_stored, OK).
Proof. vm_compute. reflexivity. Qed.
Lemma toy_export_step : export toy_device toy_stored (Some (repeat 8 16)) (Some 2000) unwrapping_works toy_wrap = Exported OK (Some 1776) (Some toy_blob).
Proof. vm_compute. reflexivity. Qed.
Lemma toy_authentic : authentic toy_device toy_blob (key_of toy_key).
Proof.
  assert (V : vector_ok toy_wrap) by (split; [reflexivity|apply repeat_bytes; unfold byte_ok; lia]).
  apply (export_authentic toy_device toy_key toy_stored (Some (repeat 8 16)) 2000 unwrapping_works toy_wrap (Some 1776) toy_blob
    toy_good toy_proper V); [apply repeat_bytes; unfold byte_ok; lia| |exact toy_export_step].
  apply (stored_wraps _ _ _ _ _ V toy_store_step).
Qed.
(** One changed byte of the ciphertext. *)
Lemma toy_tampered : import_exported toy_device (update 1720 0 toy_blob) unwrapping_works (Some toy_inputs) toy_wrap = Some (NotMade, INVALID_KEY_FORMAT).
Proof. vm_compute. reflexivity. Qed.
Lemma exhausted_memory_crashes : fst (import_stored_key toy_device toy_key (Some toy_inputs) (MkWA true false None true true)) = Crash.
Proof. vm_compute. reflexivity. Qed.
Lemma exhausted_memory_crashes_any d k di iv e h : validate_header_format (sk_header k) = true ->
  fst (import_stored_key d k (Some di) (MkWA true false iv e h)) = Crash.
Proof.
  intros V. unfold import_stored_key. rewrite V. cbn [negb]. unfold wrapped_key_create. cbn [wa_alloc wa_pad negb].
  unfold pad_key. cbn [negb]. cbv zeta. replace (_ =? 0) with false; [reflexivity|]. unfold PADDED_SIZE. lia.
Qed.
