From Verif Require Import Base M_RootKey S_RootKey.

(** ** Reading DER *)
Definition here (data : list Z) (off : Z) (s : list Z) : Prop := 0 <= off /\ skipn (Z.to_nat off) data = s.
Lemma here_byte data off x s : here data off (x :: s) -> byte_at data off = Some x.
Proof.
  intros [H0 H]. unfold byte_at. replace (off <? 0) with false by lia.
  rewrite <- (firstn_skipn (Z.to_nat off) data), H.
  assert (L : (length (firstn (Z.to_nat off) data) = Z.to_nat off)%nat).
  { rewrite firstn_length. assert (length (skipn (Z.to_nat off) data) <> 0)%nat by (rewrite H; discriminate). rewrite skipn_length in H1. lia. }
  rewrite nth_error_app2 by lia. rewrite L, Nat.sub_diag. reflexivity.
Qed.
Lemma skipn_add (a b : nat) (l : list Z) : skipn (a + b) l = skipn a (skipn b l).
Proof. revert l. induction b as [|b IH]; intros l; [rewrite Nat.add_0_r; reflexivity|]. rewrite Nat.add_succ_r. destruct l; [cbn; rewrite skipn_nil; reflexivity|]. apply IH. Qed.
Lemma here_app data off a s : here data off (a ++ s) -> here data (off + zlen a) s.
Proof.
  intros [H0 H]. split; [unfold zlen; lia|]. unfold zlen. replace (Z.to_nat (off + Z.of_nat (length a))) with (length a + Z.to_nat off)%nat by lia.
  rewrite skipn_add, H, skipn_app, skipn_all, Nat.sub_diag. reflexivity.
Qed.
Lemma here_next data off x s : here data off (x :: s) -> here data (off + 1) s.
Proof. intros H. apply (here_app data off [x] s H). Qed.
Lemma zlen_app (a b : list Z) : zlen (a ++ b) = zlen a + zlen b.
Proof. unfold zlen. rewrite app_length. lia. Qed.
Lemma zlen_cons (x : Z) a : zlen (x :: a) = 1 + zlen a.
Proof. unfold zlen. cbn [length]. lia. Qed.
Lemma zlen_nonneg (a : list Z) : 0 <= zlen a.
Proof. unfold zlen. lia. Qed.
Lemma here_len data off s : here data off s -> s <> [] -> off + zlen s = zlen data.
Proof.
  intros [H0 H] N. subst s. unfold zlen. rewrite skipn_length. assert (length (skipn (Z.to_nat off) data) <> 0)%nat by (destruct (skipn _ data); [congruence|discriminate]).
  rewrite skipn_length in H. lia.
Qed.

Lemma item_length_at data off n s : 0 <= n < 2 ^ 31 -> here data off (der_length n ++ s) ->
  item_length data off = Length n (off + zlen (der_length n)).
Proof.
  intros Hn H. unfold item_length. unfold der_length in *.
  destruct (n <? 128) eqn:E1; [cbn in H; rewrite (here_byte _ _ _ _ H), E1; reflexivity|].
  destruct (n <? 2 ^ 8) eqn:E2; [|destruct (n <? 2 ^ 16) eqn:E3; [|destruct (n <? 2 ^ 24) eqn:E4]]; cbn [app] in H; rewrite (here_byte _ _ _ _ H);
    match goal with |- context [?b <? 128] => replace (b <? 128) with false by reflexivity end.
  - apply here_next in H. change (Z.to_nat (129 - 128)) with 1%nat. cbn [length_bytes]. rewrite (here_byte _ _ _ _ H).
    change (2 ^ 31) with 2147483648 in *; change (2 ^ 8) with 256 in *.
    replace (2147483648 <=? 0 * 256 + n) with false by lia. unfold zlen. cbn [length]. f_equal; lia.
  - apply here_next in H. change (Z.to_nat (130 - 128)) with 2%nat. cbn [length_bytes]. rewrite (here_byte _ _ _ _ H). apply here_next in H. 
    change (2 ^ 31) with 2147483648 in *; change (2 ^ 8) with 256 in *; change (2 ^ 16) with 65536 in *.
    replace (2147483648 <=? 0 * 256 + n / 256) with false by lia. rewrite (here_byte _ _ _ _ H).
    match goal with |- context [2147483648 <=? ?x] => replace (2147483648 <=? x) with false by lia end. unfold zlen. cbn [length]. f_equal; lia.
  - apply here_next in H. change (Z.to_nat (131 - 128)) with 3%nat. cbn [length_bytes]. rewrite (here_byte _ _ _ _ H). apply here_next in H. 
    change (2 ^ 31) with 2147483648 in *; change (2 ^ 8) with 256 in *; change (2 ^ 16) with 65536 in *; change (2 ^ 24) with 16777216 in *.
    match goal with |- context [2147483648 <=? ?x] => replace (2147483648 <=? x) with false by lia end. rewrite (here_byte _ _ _ _ H). apply here_next in H.
    match goal with |- context [2147483648 <=? ?x] => replace (2147483648 <=? x) with false by lia end. rewrite (here_byte _ _ _ _ H).
    match goal with |- context [2147483648 <=? ?x] => replace (2147483648 <=? x) with false by lia end. unfold zlen. cbn [length]. f_equal; lia.
  - apply here_next in H. change (Z.to_nat (132 - 128)) with 4%nat. cbn [length_bytes]. rewrite (here_byte _ _ _ _ H). apply here_next in H. 
    change (2 ^ 31) with 2147483648 in *; change (2 ^ 8) with 256 in *; change (2 ^ 16) with 65536 in *; change (2 ^ 24) with 16777216 in *.
    match goal with |- context [2147483648 <=? ?x] => replace (2147483648 <=? x) with false by lia end. rewrite (here_byte _ _ _ _ H). apply here_next in H.
    match goal with |- context [2147483648 <=? ?x] => replace (2147483648 <=? x) with false by lia end. rewrite (here_byte _ _ _ _ H). apply here_next in H.
    match goal with |- context [2147483648 <=? ?x] => replace (2147483648 <=? x) with false by lia end. rewrite (here_byte _ _ _ _ H).
    match goal with |- context [2147483648 <=? ?x] => replace (2147483648 <=? x) with false by lia end. unfold zlen. cbn [length]. f_equal; lia.
Qed.
Lemma der_length_pos n : 1 <= zlen (der_length n).
Proof. unfold der_length. repeat match goal with |- context [if ?b then _ else _] => destruct b end; unfold zlen; cbn [length]; lia. Qed.

(** What follows an item's header. *)
Lemma here_item data off t c s : here data off (item t c ++ s) ->
  byte_at data off = Some t /\ here data (off + 1) (der_length (zlen c) ++ c ++ s) /\ off + zlen (item t c) + zlen s = zlen data.
Proof.
  intros H. pose proof (here_len data off _ H ltac:(discriminate)) as L. rewrite zlen_app in L.
  unfold item in *. cbn [app] in H. rewrite <- app_assoc in H. split; [|split; [|lia]].
  - apply (here_byte _ _ _ _ H).
  - apply (here_next _ _ _ _ H).
Qed.
Lemma zlen_item t c : zlen (item t c) = 1 + zlen (der_length (zlen c)) + zlen c.
Proof. unfold item. rewrite zlen_cons, zlen_app. lia. Qed.

Section Scan.
Variable data : list Z.
Hypothesis small : zlen data < 2 ^ 31.
Lemma head_at off t c s : here data off (item t c ++ s) ->
  item_length data (off + 1) = Length (zlen c) (off + 1 + zlen (der_length (zlen c))).
Proof.
  intros H. destruct (here_item _ _ _ _ _ H) as [_ [H2 H3]]. apply item_length_at with (s := c ++ s); [|exact H2].
  pose proof (zlen_nonneg c). pose proof (zlen_nonneg s). pose proof (der_length_pos (zlen c)). rewrite zlen_item in H3. destruct H. lia.
Qed.
Lemma into_seq f off c s : here data off (item 48 c ++ s) ->
  exists off', to_a0 (S f) data off = to_a0 f data off' /\ here data off' (c ++ s).
Proof.
  intros H. pose proof (head_at _ _ _ _ H) as HL. destruct (here_item _ _ _ _ _ H) as [H1 [H2 H3]]. cbn [to_a0]. rewrite H1, HL.
  exists (off + 1 + zlen (der_length (zlen c))). split; [reflexivity|]. apply here_app. exact H2.
Qed.
Lemma past_oid f off c s : here data off (item 6 c ++ s) ->
  exists off', to_a0 (S f) data off = to_a0 f data off' /\ here data off' s.
Proof.
  intros H. pose proof (head_at _ _ _ _ H) as HL. destruct (here_item _ _ _ _ _ H) as [H1 [H2 H3]]. cbn [to_a0]. rewrite H1, HL.
  exists (off + 1 + zlen (der_length (zlen c)) + zlen c). split.
  - pose proof (zlen_nonneg s). rewrite zlen_item in H3. cbn [Z.eqb Pos.eqb]. change (6 mod 32 =? 16) with false. cbn iota.
    replace (2 ^ 31 <=? _) with false by lia. reflexivity.
  - apply here_app. apply here_app. exact H2.
Qed.
Lemma at_tag f off c s : here data off (item 160 c ++ s) ->
  exists off', to_a0 (S f) data off = At off' /\ here data off' (c ++ s).
Proof.
  intros H. pose proof (head_at _ _ _ _ H) as HL. destruct (here_item _ _ _ _ _ H) as [H1 [H2 H3]]. cbn [to_a0]. rewrite H1, HL.
  exists (off + 1 + zlen (der_length (zlen c))). split; [reflexivity|]. apply here_app. exact H2.
Qed.
End Scan.

Lemma scan_finds oid type secret attributes : zlen (secret_bag oid type secret attributes) < 2 ^ 31 ->
  scan (secret_bag oid type secret attributes) = Found secret.
Proof.
  intros SM. unfold scan. set (data := secret_bag oid type secret attributes) in *.
  assert (F : exists f, S (length data) = (S (S (S f)))).
  { pose proof (zlen_item 48 (item 6 oid ++ item 160 (item 48 (item 6 type ++ item 160 (item 4 secret))) ++ attributes)) as L.
    change (zlen data = 1 + zlen (der_length (zlen (item 6 oid ++ item 160 (item 48 (item 6 type ++ item 160 (item 4 secret))) ++ attributes))) +
      zlen (item 6 oid ++ item 160 (item 48 (item 6 type ++ item 160 (item 4 secret))) ++ attributes)) in L.
    match type of L with _ = 1 + zlen (der_length ?n) + zlen ?c => pose proof (der_length_pos n); pose proof (zlen_nonneg c) end.
    exists (length data - 2)%nat. unfold zlen at 1 in L. lia. }
  destruct F as [f ->].
  assert (H : here data 0 (item 48 (item 6 oid ++ item 160 (item 48 (item 6 type ++ item 160 (item 4 secret))) ++ attributes) ++ [])).
  { rewrite app_nil_r. split; [lia|reflexivity]. }
  destruct (into_seq data SM (S (S f)) _ _ _ H) as [o1 [-> H1]]. rewrite <- !app_assoc in H1.
  destruct (past_oid data SM (S f) _ _ _ H1) as [o2 [-> H2]].
  destruct (at_tag data SM f _ _ _ H2) as [o3 [-> H3]].
  destruct (into_seq data SM (S (S f)) _ _ _ H3) as [o4 [-> H4]]. rewrite <- !app_assoc in H4.
  destruct (past_oid data SM (S f) _ _ _ H4) as [o5 [-> H5]].
  destruct (at_tag data SM f _ _ _ H5) as [o6 [-> H6]].
  pose proof (head_at data SM _ _ _ _ H6) as HL. destruct (here_item _ _ _ _ _ H6) as [B [H7 H8]]. rewrite B. cbn [Z.eqb Pos.eqb negb]. rewrite HL.
  rewrite zlen_item in H8. pose proof (zlen_nonneg (attributes ++ [])).
  replace (zlen data <? _) with false by lia. apply here_app in H7. destruct H7 as [_ H7]. rewrite H7.
  unfold zlen. rewrite Nat2Z.id, firstn_app, Nat.sub_diag, firstn_all. cbn. rewrite app_nil_r. reflexivity.
Qed.

(** ** Names *)
Lemma hex_digit c : 0 <= digit c -> hex c = Some (digit c) /\ digit c < 16.
Proof.
  unfold digit, hex. intros H.
  destruct ((65 <=? c) && (c <=? 90)) eqn:E0; cbn zeta.
  - destruct ((48 <=? c) && (c <=? 57)) eqn:E1; [lia|]. destruct ((97 <=? c) && (c <=? 102)) eqn:E2; [lia|].
    destruct ((65 <=? c) && (c <=? 70)) eqn:E3; [|lia]. replace ((48 <=? c + 32) && (c + 32 <=? 57)) with false by lia.
    replace ((97 <=? c + 32) && (c + 32 <=? 102)) with true by lia. split; [f_equal; lia|lia].
  - destruct ((48 <=? c) && (c <=? 57)) eqn:E1; [split; [f_equal|]; lia|]. destruct ((97 <=? c) && (c <=? 102)) eqn:E2; [split; [f_equal|]; lia|].
    destruct ((65 <=? c) && (c <=? 70)) eqn:E3; [|lia]. exfalso. lia.
Qed.
Lemma to_int_from_number l : forall v, Forall (fun c => 0 <= digit c) l -> 0 <= v -> v * 16 ^ zlen l + 16 ^ zlen l <= 2 ^ 64 ->
  to_int_from v l = fold_left (fun v c => 16 * v + digit c) l v.
Proof.
  induction l as [|c l IH]; intros v F H0 H; [reflexivity|]. inversion F as [|? ? F1 F2]; subst. destruct (hex_digit c F1) as [E B]. cbn [to_int_from fold_left]. rewrite E.
  rewrite zlen_cons in H. rewrite Z.pow_add_r in H by (try lia; apply zlen_nonneg). change (16 ^ 1) with 16 in H. pose proof (Z.pow_pos_nonneg 16 (zlen l) ltac:(lia) (zlen_nonneg l)).
  rewrite Z.mod_small by nia. replace (v * 16 + digit c) with (16 * v + digit c) by lia. apply IH; [exact F2|lia|nia].
Qed.
Lemma to_int_number l : Forall (fun c => 0 <= digit c) l -> zlen l <= 16 -> to_int l = number l.
Proof.
  intros F H. unfold to_int. replace (16 <? zlen l) with false by lia. apply to_int_from_number; [exact F|lia|].
  pose proof (Z.pow_le_mono_r 16 (zlen l) 16 ltac:(lia) H). change (16 ^ 16) with (2 ^ 64) in H0. lia.
Qed.
Lemma device_not_common n r : 2 <= zlen n -> Forall (fun c => 0 <= digit c) n -> strneq 10 COMMON (n ++ r) = false.
Proof.
  intros L F. destruct n as [|a [|b n]]; [unfold zlen in L; cbn in L; lia|unfold zlen in L; cbn in L; lia|].
  inversion F as [|? ? F1 F2]; subst. inversion F2 as [|? ? F3 F4]; subst. cbn [app strneq COMMON].
  assert (E : (111 =? b) = false). { destruct (111 =? b) eqn:E; [|reflexivity]. assert (b = 111) by lia. subst b. cbn in F3. lia. }
  destruct (99 =? a); [|reflexivity]. rewrite E. reflexivity.
Qed.
Lemma common_is_common r : strneq 10 COMMON (COMMON ++ r) = true.
Proof. reflexivity. Qed.

(** ** Bags *)
(** Bags of the kind not asked for are passed over if their names fit. *)
Definition kind (want : bool) (b : bag) : Prop :=
  if want then exists k, common b k else exists n k, device b n k.
Lemma kind_parse want b s n : kind want b -> b_name b = Some n -> 0 < zlen n <= s_name_length s ->
  exists k, b_secret b = Some k /\ zlen k = 16 /\
  parse b s = (Parsed, MkBufs (k ++ skipn (length k) (s_key s)) (zlen k) (n ++ skipn (length n) (s_name s)) (zlen n)) /\
  strneq 10 COMMON (n ++ skipn (length n) (s_name s)) = want.
Proof.
  intros K N L. unfold parse. rewrite N. replace ((0 <? zlen n) && (zlen n <=? s_name_length s)) with true by lia.
  destruct want.
  - destruct K as [k [-> Hk]]. cbn in N. injection N as <-. exists k. cbn [b_secret]. replace (16 <? zlen k) with false by lia. auto.
  - destruct K as [n' [k [-> [Hn [Hf Hk]]]]]. cbn in N. injection N as <-. exists k. cbn [b_secret]. replace (16 <? zlen k) with false by lia.
    repeat split; auto. apply device_not_common; [lia|exact Hf].
Qed.
Lemma bags_found want pre b post : forall s, Forall (kind (negb want)) pre -> kind want b -> fits (s_name_length s) (pre ++ [b]) ->
  exists n k s', b = MkBag (Some n) (Some k) /\ zlen k = 16 /\ parse_bags want (pre ++ b :: post) s = (End true false, s') /\
    s_key_length s' = 16 /\ firstn 16 (s_key s') = k /\ s_name_length s' = zlen n /\ firstn (length n) (s_name s') = n.
Proof.
  induction pre as [|x pre IH]; intros s F K H.
  - cbn [app] in *. destruct b as [bn bs]. cbn [fits b_name] in H. destruct bn as [n|]; [|contradiction]. destruct H as [H _].
    destruct (kind_parse want (MkBag (Some n) bs) s n K eq_refl H) as [k [E [Hk [P C]]]]. cbn in E. subst bs.
    exists n, k. eexists. split; [reflexivity|]. split; [exact Hk|]. cbn [parse_bags]. rewrite P. cbn zeta iota. cbn [s_name]. rewrite C, eqb_reflx. split; [reflexivity|]. cbn [s_key s_key_length s_name s_name_length].
    assert (length k = 16%nat) by (unfold zlen in Hk; lia).
    repeat split.
    + exact Hk.
    + rewrite <- H0. rewrite firstn_app, Nat.sub_diag, firstn_all. cbn. apply app_nil_r.
    + rewrite firstn_app, Nat.sub_diag, firstn_all. cbn. apply app_nil_r.
  - cbn [app] in *. inversion F as [|? ? F1 F2]; subst. cbn [fits] in H. destruct (b_name x) as [n|] eqn:N; [|contradiction]. destruct H as [H H'].
    destruct (kind_parse (negb want) x s n F1 N H) as [k [E [Hk [P C]]]]. cbn [parse_bags]. rewrite P. cbn zeta iota. cbn [s_name]. rewrite C.
    replace (Bool.eqb (negb want) want) with false by (destruct want; reflexivity). apply IH; assumption.
Qed.

Lemma root_found pre b post w : w_dead w = false -> r_length w = 0 ->
  Forall (fun x => exists k, common x k) pre -> fits 16 (pre ++ [b]) ->
  forall n k, device b n k -> number n <> 0 ->
  exists w', step (GetRoot (Some [Data (Some (pre ++ b :: post))])) w = (w', Key k) /\ w_dead w' = false /\ w_id w' = number n /\
    r_length w' = 16 /\ firstn 16 (r_key w') = k /\ c_length w' = c_length w /\ c_key w' = c_key w.
Proof.
  intros D R F H n k B N. unfold step. rewrite D. unfold get_root. rewrite R. cbn [Z.eqb]. unfold load. cbn [s_name_length s_name].
  change (strneq (Z.to_nat 16) (zeros 16) (COMMON ++ [0])) with false. cbn [parse_safes].
  destruct (bags_found false pre b post (MkBufs (r_key w) 0 (zeros 16) 16)) as [n' [k' [s' [E1 [E2 [E3 [E4 [E5 [E6 E7]]]]]]]]].
  { exact F. } { exists n, k. exact B. } { exact H. }
  rewrite E3. cbn [orb]. destruct B as [B1 [B2 [B3 B4]]]. assert (n' = n /\ k' = k) as [-> ->] by (rewrite B1 in E1; injection E1; auto).
  rewrite E6, E4. change (Z.to_nat 16) with 16%nat. unfold zlen. rewrite !Nat2Z.id, E7, E5. rewrite to_int_number by (try assumption; lia).
  replace (number n =? 0) with false by lia. eexists. split; [reflexivity|]. cbn. auto 10.
Qed.
Lemma common_found pre b post w : w_dead w = false -> c_length w = 0 ->
  Forall (fun x => exists n k, device x n k) pre -> fits 50 (pre ++ [b]) ->
  forall k, common b k ->
  exists w', step (GetCommon (Some [Data (Some (pre ++ b :: post))])) w = (w', Key k) /\ w_dead w' = false /\ w_id w' = w_id w /\
    c_length w' = 16 /\ firstn 16 (c_key w') = k /\ r_length w' = r_length w /\ r_key w' = r_key w.
Proof.
  intros D R F H k B. unfold step. rewrite D. unfold get_common. rewrite R. cbn [Z.eqb]. unfold load. cbn [s_name_length s_name].
  replace (strneq (Z.to_nat 50) (COMMON ++ zeros 40) (COMMON ++ [0])) with true by reflexivity. cbn [parse_safes].
  destruct (bags_found true pre b post (MkBufs (c_key w) 0 (COMMON ++ zeros 40) 50)) as [n' [k' [s' [E1 [E2 [E3 [E4 [E5 [E6 E7]]]]]]]]].
  { exact F. } { exists k. exact B. } { exact H. }
  rewrite E3. cbn [orb]. destruct B as [B1 B2]. assert (k' = k) as -> by (rewrite B1 in E1; injection E1; auto).
  rewrite E4. change (Z.to_nat 16) with 16%nat. rewrite E5. eexists. split; [reflexivity|]. cbn. auto 10.
Qed.

(** ** Histories with a proper keystore *)
Section Proper.
Variables name key ckey : list Z.
Definition Good (w : world) : Prop :=
  w_dead w = false /\ ((r_length w = 0 /\ w_id w = 0) \/ (r_length w = 16 /\ firstn 16 (r_key w) = key /\ w_id w = number name)) /\
  (c_length w = 0 \/ (c_length w = 16 /\ firstn 16 (c_key w) = ckey)).
Lemma good_root k w : proper name key ckey k -> Good w -> exists w', step (GetRoot k) w = (w', Key key) /\ Good w' /\ w_id w' = number name.
Proof.
  intros [d [c [rest [-> [Hd [Hn [Hz Hc]]]]]]] [D [[[R I0]|[R [R' I0]]] C]].
  - destruct (root_found [] d (c :: rest) w D R) with (n := name) (k := key) as [w' [E [E1 [E2 [E3 [E4 [E5 E6]]]]]]]; auto.
    { cbn. destruct Hd as [-> [Hd _]]. cbn. split; [lia|auto]. }
    exists w'. cbn [app] in E. rewrite E. split; [reflexivity|]. split; [|exact E2]. split; [exact E1|]. split; [right; auto|]. rewrite E5, E6. exact C.
  - exists w. unfold step. rewrite D. unfold get_root. rewrite R. cbn [Z.eqb]. change (Z.to_nat 16) with 16%nat. rewrite R'. split; [reflexivity|]. split; [|exact I0]. split; [exact D|]. auto 6.
Qed.
Lemma good_step o w : proper name key ckey (store_of o) -> Good w -> Good (fst (step o w)) /\ snd (step o w) = right name key ckey o.
Proof.
  intros P G. destruct o; cbn [store_of] in P.
  - destruct (good_root k w P G) as [w' [E [G' _]]]. rewrite E. auto.
  - destruct G as [D [R [C|[C C']]]].
    + destruct P as [d [c [rest [-> [Hd [Hn [Hz Hc]]]]]]].
      destruct (common_found [d] c rest w D C) with (k := ckey) as [w' [E [E1 [E2 [E3 [E4 [E5 E6]]]]]]]; auto.
      { constructor; [exists name, key; exact Hd|constructor]. }
      { cbn. destruct Hd as [-> [Hd _]], Hc as [-> _]. cbn. split; [lia|]. split; [lia|exact Logic.I]. }
      cbn [app] in E. rewrite E. split; [|reflexivity]. split; [exact E1|]. cbn [fst]. rewrite E2, E5, E6. auto.
    + unfold step. rewrite D. unfold get_common. rewrite C. cbn [Z.eqb fst snd right]. change (Z.to_nat 16) with 16%nat. rewrite C'. split; [|reflexivity]. split; [exact D|]. auto.
  - pose proof G as [D [R C]]. assert (NZ : number name <> 0) by (destruct P as [d [c [rest [_ [_ [_ [H _]]]]]]]; exact H).
    cbn [right]. destruct (w_id w =? 0) eqn:Z.
    + assert (r_length w = 0) by (destruct R as [[? ?]|[? [? ?]]]; [assumption|lia]).
      destruct (good_root k w P G) as [w' [E [G' I']]]. unfold step in E. rewrite D in E. unfold step. rewrite D, Z, E. cbn [fst snd]. split; [exact G'|].
      destruct G' as [D' _]. rewrite D', I'. reflexivity.
    + unfold step. rewrite D, Z. cbn [fst snd]. split; [exact G|]. rewrite D. f_equal. destruct R as [[? ?]|[? [? ?]]]; [lia|assumption].
Qed.
Lemma good_run l : forall w, Forall (fun o => proper name key ckey (store_of o)) l -> Good w -> snd (run l w) = map (right name key ckey) l.
Proof.
  induction l as [|o l IH]; intros w F G; [reflexivity|]. inversion F as [|? ? F1 F2]; subst. destruct (good_step o w F1 G) as [G' A].
  cbn [run map]. destruct (step o w) as [w1 a]. cbn [fst snd] in *. specialize (IH w1 F2 G'). destruct (run l w1) as [w2 r]. cbn in *. congruence.
Qed.
Lemma proper_run l : Forall (fun o => proper name key ckey (store_of o)) l -> snd (run l start) = map (right name key ckey) l.
Proof. intros F. apply good_run; [exact F|]. split; [reflexivity|]. cbn. auto. Qed.
End Proper.

(** ** Once a key was given *)
Lemma root_kept o w : r_length w <> 0 -> r_length (fst (step o w)) = r_length w /\ r_key (fst (step o w)) = r_key w.
Proof.
  intros H. unfold step. destruct (w_dead w); [auto|]. destruct o; cbn.
  - unfold get_root. replace (r_length w =? 0) with false by lia. auto.
  - unfold get_common. destruct (c_length w =? 0); [|auto]. destruct (load _ _) as [[[]|] s]; auto.
  - unfold get_root. replace (r_length w =? 0) with false by lia. destruct (w_id w =? 0); auto.
Qed.
Lemma run_fst o l w : fst (run (o :: l) w) = fst (run l (fst (step o w))).
Proof. cbn [run]. destruct (step o w) as [w1 a]. cbn [fst]. destruct (run l w1). reflexivity. Qed.
Lemma root_kept_run l : forall w, r_length w <> 0 -> r_length (fst (run l w)) = r_length w /\ r_key (fst (run l w)) = r_key w.
Proof.
  induction l as [|o l IH]; intros w H; [auto|]. rewrite run_fst. destruct (root_kept o w H) as [E1 E2]. destruct (IH (fst (step o w))) as [E3 E4]; [congruence|]. split; congruence.
Qed.
Lemma step_alive o w : snd (step o w) <> Crash -> w_dead w = false.
Proof. unfold step. destruct (w_dead w); [cbn; congruence|reflexivity]. Qed.
Lemma root_cached w k ks l ks' : snd (step (GetRoot ks) w) = Key k -> k <> [] ->
  let a := snd (step (GetRoot ks') (fst (run l (fst (step (GetRoot ks) w))))) in a = Key k \/ a = Crash.
Proof.
  intros H N. cbn zeta. assert (D : w_dead w = false) by (apply (step_alive (GetRoot ks)); congruence).
  assert (L : r_length (fst (step (GetRoot ks) w)) <> 0 /\ firstn (Z.to_nat (r_length (fst (step (GetRoot ks) w)))) (r_key (fst (step (GetRoot ks) w))) = k).
  { unfold step in *. rewrite D in *. unfold get_root in *. destruct (r_length w =? 0) eqn:E.
    - destruct (load _ _) as [[[]|] s]; cbn [fst snd] in *; try discriminate. destruct (to_int _ =? 0); [discriminate|]. injection H as H.
      cbn. split; [|exact H]. intros Z. rewrite Z in H. apply N. rewrite <- H. reflexivity.
    - cbn [fst snd] in *. injection H as H. split; [lia|exact H]. }
  destruct L as [L1 L2]. set (w1 := fst (step (GetRoot ks) w)) in *. destruct (root_kept_run l w1 L1) as [R1 R2]. set (w2 := fst (run l w1)) in *.
  unfold step. destruct (w_dead w2); [right; reflexivity|]. left. unfold get_root. rewrite R1. replace (r_length w1 =? 0) with false by lia. cbn [snd]. rewrite R2, L2. reflexivity.
Qed.

(** ** What goes wrong *)
Definition DEV : list Z := repeat 102 16.            (* "ffffffffffffffff" *)
Definition dk := repeat 1 16. Definition ck := repeat 2 16.
Definition dev := MkBag (Some DEV) (Some dk). Definition com := MkBag (Some COMMON) (Some ck).
Definition one l : keystore := Some [Data (Some l)].

Lemma other_secret : scan (item 48 (item 6 [42; 3] ++ item 160 (item 4 [7]) ++ item 49 [])) = BeyondEnd.
Proof. reflexivity. Qed.
Lemma order_matters : snd (run [GetRoot (one [com; dev]); GetRoot (one [com; dev]); DeviceId (one [com; dev])] start) = [Failed; Key dk; Id 0].
Proof. reflexivity. Qed.
Lemma common_as_root : snd (run [GetRoot (one [com]); GetRoot (one [com])] start) = [Failed; Key ck].
Proof. reflexivity. Qed.
Lemma two_safes : snd (run [GetCommon (Some [Data (Some [com]); Data (Some [dev])])] start) = [Key dk].
Proof. reflexivity. Qed.
Lemma long_key : snd (run [GetRoot (one [MkBag (Some DEV) (Some (repeat 1 32))])] start) = [Crash].
Proof. reflexivity. Qed.
Lemma other_safe : snd (run [GetRoot (Some [Data (Some [dev; com]); OtherType])] start) = [Crash].
Proof. reflexivity. Qed.
Lemma no_secret : snd (run [GetRoot (one [MkBag (Some DEV) None]); GetCommon (one [MkBag None None])] start) = [Key []; Key []].
Proof. reflexivity. Qed.
Lemma refused_once : snd (run [GetRoot (one [MkBag (Some [120; 121]) (Some dk)]); GetRoot None] start) = [Failed; Key dk].
Proof. reflexivity. Qed.
Lemma during : snd (common_during [dev; com] 1 start) = Key dk /\ snd (step (GetCommon (one [dev; com])) start) = Key ck.
Proof. split; reflexivity. Qed.
