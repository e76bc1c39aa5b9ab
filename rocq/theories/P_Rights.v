(** Proofs about rights, key types and child rights. *)
From Verif Require Import Base M_ObjectStore M_Rights S_Rights.

Lemma BIT_TEST_testbit a b : 0 <= b -> BIT_TEST a b = Z.testbit a b.
Proof.
  intros Hb. unfold BIT_TEST, BIT_MASK. rewrite Z.shiftl_1_l.
  destruct (Z.testbit a b) eqn:E.
  - destruct (Z.land a (2 ^ b) =? 0) eqn:H; auto.
    apply Z.eqb_eq in H. assert (T : Z.testbit (Z.land a (2 ^ b)) b = true).
    { rewrite Z.land_spec, E, Z.pow2_bits_true by auto. reflexivity. }
    rewrite H, Z.bits_0 in T. discriminate.
  - replace (Z.land a (2 ^ b)) with 0; [reflexivity|].
    symmetry. apply Z.bits_inj'. intros n Hn. rewrite Z.land_spec, Z.bits_0.
    destruct (Z.eq_dec n b) as [->|Hne]; [now rewrite E|].
    rewrite Z.pow2_bits_false by auto. apply andb_false_r.
Qed.

Lemma output_mask_bits b : 0 <= b ->
  Z.testbit OUTPUT_PROTECTIONS_MASK b = (6 <=? b) && (b <=? 12).
Proof.
  intros Hb. change OUTPUT_PROTECTIONS_MASK with (Z.shiftl (Z.ones 7) 6).
  rewrite Z.shiftl_spec by auto.
  destruct (Z_lt_dec b 6).
  - rewrite Z.testbit_neg_r by lia. lia.
  - rewrite Z.testbit_ones by lia. lia.
Qed.

Lemma usage_mask_bits b : 0 <= b -> Z.testbit KEY_USAGE_MASK b = (b <=? 5).
Proof.
  intros Hb. change KEY_USAGE_MASK with (Z.ones 6). rewrite Z.testbit_ones by lia. lia.
Qed.

(** ** Time, allow list, outputs *)
Lemma allowed_time_iff r t : rights_allowed_time r t = true <-> in_window r t.
Proof.
  unfold rights_allowed_time, in_window.
  destruct (t <? r_not_before r) eqn:A; destruct (r_not_on_or_after r <=? t) eqn:B;
    split; intros H; try discriminate; lia.
Qed.

Lemma allowed_uuid_iff r u : rights_allowed_uuid r u = true <-> listed r u.
Proof.
  unfold rights_allowed_uuid, listed. unfold NO_MATCH, ALL_MATCH.
  induction (r_tas r) as [|t l IH]; cbn [allowed_uuid_loop In].
  - split; [discriminate|tauto].
  - unfold NO_MATCH, ALL_MATCH.
    destruct (t =? 0) eqn:E0.
    { apply Z.eqb_eq in E0. subst. rewrite IH. split.
      - intros [H|[H1 H2]]; auto.
      - intros [[H|H]|[H1 [H|H]]]; auto; try discriminate. congruence. }
    destruct (t =? 2 ^ 128 - 1) eqn:E1; [apply Z.eqb_eq in E1; subst; split; auto|].
    destruct (t =? u) eqn:E2.
    { apply Z.eqb_eq in E2. subst. split; auto. intros _. right. split; auto. lia. }
    rewrite IH. split.
    + intros [H|[H1 H2]]; auto.
    + intros [[H|H]|[H1 [H|H]]]; auto; lia.
Qed.

Lemma flag_bool r f : 0 <= f -> BIT_TEST (r_usage r) f = true <-> has_flag r f.
Proof. intros H. rewrite BIT_TEST_testbit by auto. reflexivity. Qed.

Lemma allowed_video_iff r v : rights_allowed_video r v = true <-> outputs_permitted r v.
Proof.
  unfold rights_allowed_video, outputs_permitted, has_flag.
  unfold F_SVP_OPTIONAL, F_ANALOG_UNPROTECTED, F_ANALOG_CGMSA, F_DIGITAL_UNPROTECTED, F_HDCP14, F_HDCP22.
  rewrite !BIT_TEST_testbit by lia.
  destruct (Z.testbit (r_usage r) 12); destruct (Z.testbit (r_usage r) 6);
  destruct (Z.testbit (r_usage r) 7); destruct (Z.testbit (r_usage r) 8);
  destruct (Z.testbit (r_usage r) 9); destruct (Z.testbit (r_usage r) 10);
  destruct (v_svp_enabled v); cbn [negb andb];
  repeat match goal with |- context [if ?c then _ else _] => destruct c eqn:? end;
  split; intros H; repeat split; intros; try reflexivity; try discriminate; try lia;
  destruct H as (A1 & A2 & A3 & A4 & A5 & A6);
  repeat match goal with
  | X : _ > 0 -> false = true |- _ => assert (~ (0 < 1) \/ True) by auto;
       match type of X with ?p > 0 -> _ => destruct (Z_gt_dec p 0) as [G|G]; [discriminate (X G)|clear X] end
  | X : false = false -> false = true |- _ => discriminate (X eq_refl)
  end; lia.
Qed.

Lemma flag_time_iff f r t : 0 <= f ->
  rights_allowed_flag_time f r t = true <-> has_flag r f /\ in_window r t.
Proof.
  intros Hf. unfold rights_allowed_flag_time. rewrite <- flag_bool, <- allowed_time_iff by auto.
  destruct (BIT_TEST (r_usage r) f); cbn; [|intuition discriminate].
  destruct (rights_allowed_time r t); cbn; intuition discriminate.
Qed.

Lemma validate_video_iff r p : validate_video r p = true <-> exists v, p = Some v /\ outputs_permitted r v.
Proof.
  unfold validate_video. destruct p as [v|].
  - rewrite <- (allowed_video_iff r v) at 1 || idtac.
    destruct (rights_allowed_video r v) eqn:E; cbn; split; intros H; try discriminate; auto.
    + exists v; split; auto. now apply allowed_video_iff.
    + destruct H as (v' & E' & H). injection E' as <-. apply allowed_video_iff in H. congruence.
  - split; [discriminate|]. intros (v & E & _). discriminate.
Qed.

Lemma crypt_iff f r kt t p : 0 <= f ->
  rights_allowed_crypt f r kt t p = true <->
  has_flag r f /\ in_window r t /\
  (kt = KT_SYMMETRIC -> exists v, p = Some v /\ outputs_permitted r v).
Proof.
  intros Hf. unfold rights_allowed_crypt.
  rewrite <- flag_bool, <- allowed_time_iff, <- validate_video_iff by auto.
  destruct (BIT_TEST (r_usage r) f); cbn; [|intuition discriminate].
  destruct (rights_allowed_time r t); cbn; [|intuition discriminate].
  destruct (kt =? KT_SYMMETRIC) eqn:E.
  - apply Z.eqb_eq in E. destruct (validate_video r p); cbn; intuition discriminate.
  - apply Z.eqb_neq in E. intuition.
Qed.

Lemma clear_iff r : rights_allowed_clear r = true <-> has_flag r F_SVP_OPTIONAL.
Proof.
  unfold rights_allowed_clear. rewrite <- flag_bool by (unfold F_SVP_OPTIONAL; lia).
  destruct (BIT_TEST (r_usage r) F_SVP_OPTIONAL); cbn; intuition discriminate.
Qed.

(** ** Child rights *)
Lemma key_only_mask_zero p : Z.land (r_usage p) KEY_ONLY_MASK = 0 <-> unwrap_only p.
Proof.
  unfold unwrap_only, is_usage_flag, has_flag. split.
  - intros H f Hf Hb. destruct (Z.eq_dec f F_UNWRAP); auto. exfalso.
    assert (T : Z.testbit (Z.land (r_usage p) KEY_ONLY_MASK) f = true).
    { rewrite Z.land_spec, Hb. change KEY_ONLY_MASK with 59. cbn [andb].
      unfold F_UNWRAP in *.
      assert (C : f = 0 \/ f = 1 \/ f = 3 \/ f = 4 \/ f = 5) by lia.
      destruct C as [-> | [-> | [-> | [-> | ->]]]]; reflexivity. }
    rewrite H, Z.bits_0 in T. discriminate.
  - intros H. apply Z.bits_inj'. intros n Hn. rewrite Z.land_spec, Z.bits_0.
    destruct (Z.testbit (r_usage p) n) eqn:E; auto. cbn [andb].
    unfold KEY_ONLY_MASK. rewrite Z.land_spec, usage_mask_bits by auto.
    destruct (n <=? 5) eqn:L; [|apply andb_false_r].
    specialize (H n ltac:(lia) E). subst. reflexivity.
Qed.

Lemma restrict_bits c p f : 0 <= f ->
  Z.testbit (r_usage (restrict_child_rights c (Some p))) f =
  Z.testbit (r_usage c) f &&
  (if negb (Z.land (r_usage p) KEY_ONLY_MASK =? 0) || (r_child_usage p =? 0)
   then negb ((6 <=? f) && (f <=? 12)) || Z.testbit (r_usage p) f
   else negb (f <=? 5) || Z.testbit (r_child_usage p) f).
Proof.
  intros Hf. unfold restrict_child_rights.
  destruct (negb (Z.land (r_usage p) KEY_ONLY_MASK =? 0) || (r_child_usage p =? 0));
    cbn [with_usage r_usage]; rewrite Z.land_spec, Z.lnot_spec, Z.land_spec, Z.lnot_spec by auto.
  - rewrite output_mask_bits by auto.
    destruct (Z.testbit (r_usage c) f), (Z.testbit (r_usage p) f), (6 <=? f), (f <=? 12); reflexivity.
  - rewrite usage_mask_bits by auto.
    destruct (Z.testbit (r_usage c) f), (Z.testbit (r_child_usage p) f), (f <=? 5); reflexivity.
Qed.

Lemma restrict_rest c p : same_but_usage (restrict_child_rights c p) c.
Proof.
  unfold restrict_child_rights, same_but_usage. destruct p as [p|]; [|tauto].
  destruct (_ || _); cbn; tauto.
Qed.

Lemma restrict_never_adds c p f : 0 <= f -> has_flag (restrict_child_rights c p) f -> has_flag c f.
Proof.
  destruct p as [p|]; auto. unfold has_flag. intros Hf. rewrite restrict_bits by auto.
  intros H. apply andb_prop in H. tauto.
Qed.

(** Parent usable for something besides unwrapping, or without child flags. *)
Lemma restrict_outputs c p f :
  ~ (unwrap_only p /\ r_child_usage p <> 0) -> 0 <= f ->
  (has_flag (restrict_child_rights c (Some p)) f <->
   has_flag c f /\ (is_output_flag f -> has_flag p f)).
Proof.
  intros Hn Hf. unfold has_flag. rewrite restrict_bits by auto.
  replace (negb (Z.land (r_usage p) KEY_ONLY_MASK =? 0) || (r_child_usage p =? 0)) with true.
  - unfold is_output_flag. destruct (Z.testbit (r_usage c) f); cbn [andb]; [|intuition discriminate].
    destruct ((6 <=? f) && (f <=? 12)) eqn:E; cbn [negb orb].
    + assert (6 <= f <= 12) by lia. tauto.
    + assert (~ 6 <= f <= 12) by lia. tauto.
  - destruct (Z.land (r_usage p) KEY_ONLY_MASK =? 0) eqn:E; cbn; auto.
    apply Z.eqb_eq, key_only_mask_zero in E.
    destruct (r_child_usage p =? 0) eqn:E2; auto.
    exfalso. apply Hn. split; auto. lia.
Qed.

(** Parent used only for unwrapping, with child flags. *)
Lemma restrict_children c p f :
  unwrap_only p -> r_child_usage p <> 0 -> 0 <= f ->
  (has_flag (restrict_child_rights c (Some p)) f <->
   has_flag c f /\ (is_usage_flag f -> Z.testbit (r_child_usage p) f = true)).
Proof.
  intros Hu Hc Hf. unfold has_flag. rewrite restrict_bits by auto.
  apply key_only_mask_zero in Hu. rewrite Hu. cbn [Z.eqb negb orb].
  replace (r_child_usage p =? 0) with false by lia.
  unfold is_usage_flag. destruct (Z.testbit (r_usage c) f); cbn [andb]; [|intuition discriminate].
  destruct (f <=? 5) eqn:E; cbn [negb orb].
  + assert (0 <= f <= 5) by lia. tauto.
  + assert (~ 0 <= f <= 5) by lia. tauto.
Qed.

(** Witnesses. *)
Definition all_rights (u cu : Z) : rights :=
  MkRights (repeat 0 64) u cu 0 (2 ^ 64 - 1) (ALL_MATCH :: repeat 0 31).
Lemma child_gains_output_flag : exists parent child,
  unwrap_only parent /\ ~ has_flag parent F_SVP_OPTIONAL /\
  has_flag (restrict_child_rights child (Some parent)) F_SVP_OPTIONAL.
Proof.
  exists (all_rights 4 16), (all_rights (16 + 2 ^ 12) 0). split.
  - apply key_only_mask_zero. reflexivity.
  - split; [unfold has_flag; vm_compute; discriminate|vm_compute; reflexivity].
Qed.

Lemma child_flags_zero_ignored : exists parent child,
  unwrap_only parent /\ r_child_usage parent = 0 /\
  has_flag (restrict_child_rights child (Some parent)) F_DECRYPT.
Proof.
  exists (all_rights 4 0), (all_rights 16 0). split.
  - apply key_only_mask_zero. reflexivity.
  - split; vm_compute; reflexivity.
Qed.

(** ** Key creation *)
Lemma valid_ec_iff c s : valid_ec_size c s = true <->
  In (c, s) [(7, 24); (8, 28); (0, 32); (1, 48); (2, 66); (3, 32); (4, 32); (5, 57); (6, 56)].
Proof.
  unfold valid_ec_size.
  change (ec_key_size_from_curve 7) with 24; change (ec_key_size_from_curve 8) with 28;
  change (ec_key_size_from_curve 0) with 32; change (ec_key_size_from_curve 1) with 48;
  change (ec_key_size_from_curve 2) with 66; change (ec_key_size_from_curve 3) with 32;
  change (ec_key_size_from_curve 4) with 32; change (ec_key_size_from_curve 5) with 57;
  change (ec_key_size_from_curve 6) with 56.
  rewrite !orb_true_iff, !andb_true_iff, !Z.eqb_eq. cbn [In].
  split.
  - intros H. repeat (destruct H as [H|H]); destruct H as [-> ->]; tauto.
  - intros H. repeat (destruct H as [H|H]; [injection H as <- <-; tauto|]). contradiction.
Qed.

Lemma supports_any_iff t c s : key_type_supports_any t c s = true <-> size_allowed t c s.
Proof.
  unfold key_type_supports_any, key_type_supports_aes, key_type_supports_hmac,
    key_type_supports_rsa, key_type_supports_ec, key_type_supports_dh.
  rewrite !orb_true_iff, !andb_true_iff, valid_ec_iff, !Z.eqb_eq.
  unfold valid_aes_size, valid_hmac_size, valid_rsa_size, valid_dh_size.
  rewrite !orb_true_iff, !andb_true_iff, !Z.eqb_eq, !Z.leb_le, Z.ltb_lt.
  split.
  - intros H. destruct H as [[[[[-> H]|[-> H]]|[-> H]]|[-> H]]|[-> H]].
    + apply sz_symmetric. lia.
    + apply sz_symmetric. lia.
    + apply sz_rsa. cbn [In]. lia.
    + now apply sz_ec.
    + apply sz_dh. lia.
  - intros H. destruct H as [c s H | c s H | c s H | c s H].
    + left; left; left; right. auto.
    + cbn [In] in H. left; left; right. split; auto. lia.
    + left; right. auto.
    + right. split; auto. lia.
Qed.

Lemma strnlen_full l : forall n, (n <= length l)%nat ->
  strnlen l n = n <-> forall i, (i < n)%nat -> nth_error l i <> Some 0.
Proof.
  induction l as [|b l IH]; intros [|n] Hn; cbn [strnlen length] in *; try lia.
  - split; intros; lia.
  - split; intros; lia.
  - destruct (b =? 0) eqn:E.
    + apply Z.eqb_eq in E. subst. split; [lia|]. intros H. exfalso. apply (H 0%nat); [lia|reflexivity].
    + apply Z.eqb_neq in E. split.
      * intros H [|i] Hi; cbn; [congruence|]. injection H as H. apply (IH n); auto; lia.
      * intros H. f_equal. apply IH; [lia|]. intros i Hi. apply (H (S i)). lia.
Qed.

Lemma validate_format_iff r : length (r_id r) = 64%nat ->
  rights_validate_format r = true <-> id_terminated r.
Proof.
  intros Hl. unfold rights_validate_format, id_terminated.
  assert (F := strnlen_full (r_id r) 64 ltac:(lia)).
  split.
  - intros H.
    destruct (in_dec Z.eq_dec 0 (r_id r)) as [I|I].
    + apply In_nth_error in I. destruct I as [i Hi]. exists i. split; auto.
      assert (nth_error (r_id r) i <> None) by congruence.
      apply nth_error_Some in H0. lia.
    + exfalso. assert (X : strnlen (r_id r) 64 = 64%nat).
      { apply F. intros i _ E. apply nth_error_In in E. auto. }
      rewrite X in H. discriminate.
  - intros (i & Hi & E). destruct (strnlen (r_id r) 64 =? 64)%nat eqn:X; auto.
    apply Nat.eqb_eq in X. exfalso. apply (proj1 F X i); auto.
Qed.

Lemma create_ok r parent t ps s b alloc k :
  length (r_id r) = 64%nat ->
  stored_key_create (Some r) parent t ps s (Some b) alloc = (OK, Some k) ->
  size_allowed (k_type k) (p_curve (k_params k)) (k_size k) /\ id_terminated (k_rights k) /\
  k_type k = t /\ k_params k = ps /\ k_size k = s /\ k_bytes k = b /\
  k_rights k = restrict_child_rights r parent.
Proof.
  intros Hl. unfold stored_key_create.
  destruct (key_type_supports_any t (p_curve ps) s) eqn:A; cbn [negb]; [|discriminate].
  destruct (rights_validate_format r) eqn:B; cbn [negb]; [|discriminate].
  destruct alloc; cbn [negb]; [|discriminate].
  intros E. injection E as <-. cbn. split; [now apply supports_any_iff|].
  split; [|repeat split].
  apply validate_format_iff in B; auto. unfold id_terminated in *.
  destruct (restrict_rest r parent) as (-> & _). exact B.
Qed.

Lemma create_iff r parent t ps s b : length (r_id r) = 64%nat ->
  (fst (stored_key_create (Some r) parent t ps s (Some b) true) = OK <->
   size_allowed t (p_curve ps) s /\ id_terminated r).
Proof.
  intros Hl. unfold stored_key_create.
  rewrite <- supports_any_iff, <- validate_format_iff by auto.
  destruct (key_type_supports_any t (p_curve ps) s); cbn; [|intuition discriminate].
  destruct (rights_validate_format r); cbn; intuition discriminate.
Qed.

Lemma create_fail_none r parent t ps s b alloc st k :
  stored_key_create r parent t ps s b alloc = (st, k) -> (st = OK <-> k <> None).
Proof.
  unfold stored_key_create. destruct r; [|intros E; injection E as <- <-; intuition discriminate].
  destruct b; [|intros E; injection E as <- <-; intuition discriminate].
  repeat match goal with |- context [if ?c then _ else _] => destruct c end;
    intros E; injection E as <- <-; intuition discriminate.
Qed.

(** ** The checks of single operations *)
Lemma operations_iff r now :
  (rights_allowed_exchange r now = true <-> has_flag r 0 /\ in_window r now) /\
  (rights_allowed_derive r now = true <-> has_flag r 1 /\ in_window r now) /\
  (rights_allowed_unwrap r now = true <-> has_flag r 2 /\ in_window r now) /\
  (rights_allowed_sign r now = true <-> has_flag r 5 /\ in_window r now).
Proof. repeat apply conj; now apply flag_time_iff. Qed.
Lemma ciphers_iff r kt now p :
  (rights_allowed_encrypt r kt now p = true <->
   has_flag r 3 /\ in_window r now /\ (kt = 0 -> exists v, p = Some v /\ outputs_permitted r v)) /\
  (rights_allowed_decrypt r kt now p = true <->
   has_flag r 4 /\ in_window r now /\ (kt = 0 -> exists v, p = Some v /\ outputs_permitted r v)).
Proof. split; now apply crypt_iff. Qed.

(** ** Usage words of key containers *)
Lemma bit_clear_spec u b f : 0 <= b -> 0 <= f ->
  Z.testbit (BIT_CLEAR u b) f = Z.testbit u f && negb (f =? b).
Proof.
  intros Hb Hf. unfold BIT_CLEAR, BIT_MASK. rewrite Z.land_spec, Z.lnot_spec, Z.shiftl_1_l by auto.
  rewrite Z.pow2_bits_eqb by auto. now rewrite (Z.eqb_sym b f).
Qed.
Lemma bit_set_spec u b f : 0 <= b -> 0 <= f ->
  Z.testbit (BIT_SET u b) f = Z.testbit u f || (f =? b).
Proof.
  intros Hb Hf. unfold BIT_SET, BIT_MASK. rewrite Z.lor_spec, Z.shiftl_1_l.
  rewrite Z.pow2_bits_eqb by auto. now rewrite (Z.eqb_sym b f).
Qed.

Lemma clear_key_usage_spec u f : 0 <= f ->
  Z.testbit (clear_key_usage u) f = Z.testbit u f && negb (f <=? 5).
Proof.
  intros Hf. unfold clear_key_usage. cbn [fold_left].
  unfold F_KEY_EXCHANGE, F_DERIVE, F_UNWRAP, F_DECRYPT, F_ENCRYPT, F_SIGN.
  rewrite !bit_clear_spec by lia. destruct (Z.testbit u f); cbn [andb]; lia.
Qed.

Lemma usage_flags_table u ku kt sub f : 0 <= f -> 0 <= ku <= 3 ->
  snd (key_usage_to_usage_flags u ku kt sub) = OK /\
  Z.testbit (fst (key_usage_to_usage_flags u ku kt sub)) f =
  (if f <=? 5 then usage_table ku kt sub f else Z.testbit u f).
Proof.
  intros Hf Hk. unfold key_usage_to_usage_flags, usage_table.
  assert (C : ku = 0 \/ ku = 1 \/ ku = 2 \/ ku = 3) by lia.
  unfold F_KEY_EXCHANGE, F_DERIVE, F_UNWRAP, F_DECRYPT, F_ENCRYPT, F_SIGN, KT_DH, KT_EC.
  destruct C as [-> | [-> | [-> | ->]]]; cbn [Z.eqb Pos.eqb orb fst snd set_bits fold_left];
    (split; [reflexivity|]);
    destruct ((kt =? 3) || (kt =? 1)) eqn:E1;
    try destruct (sub =? 2) eqn:E2;
    rewrite ?bit_set_spec, ?clear_key_usage_spec by lia;
    destruct (Z.testbit u f); cbn [andb orb negb];
    destruct (f <=? 5) eqn:E5; cbn [negb];
    repeat match goal with |- context [f =? ?n] => destruct (f =? n) eqn:? end; cbn; try reflexivity; lia.
Qed.

Lemma usage_flags_other u ku kt sub : ~ (0 <= ku <= 3) ->
  snd (key_usage_to_usage_flags u ku kt sub) = INVALID_KEY_FORMAT.
Proof.
  intros Hk. unfold key_usage_to_usage_flags.
  replace ((ku =? 0) || (ku =? 3)) with false by lia.
  replace (ku =? 1) with false by lia. replace (ku =? 2) with false by lia. reflexivity.
Qed.

Lemma dtcp_not_gated : exists r o now,
  ~ all_outputs_permitted r o /\
  rights_allowed_decrypt r KT_SYMMETRIC now (Some (o_video o)) = true.
Proof.
  exists (all_rights (16 + 2 ^ 12 + 2 ^ 10) 0), (MkOutputs (MkVideo 0 0 0 0 1 true) 1), 5.
  split; [|vm_compute; reflexivity].
  intros [_ H]. cbn in H. specialize (H ltac:(lia)). vm_compute in H. discriminate.
Qed.
