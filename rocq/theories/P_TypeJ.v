(** Proofs about Type-J containers. *)
From Verif Require Import Base M_ObjectStore M_Memory M_Rights M_Mac M_KeyStore M_Unwrap M_Json M_TypeJ
  S_Bytes S_Rights S_Mac S_Unwrap S_Json S_TypeJ P_Bytes P_Rights P_Mac P_Unwrap P_Json.

(** ** Texts *)
Lemma split_dot_some l : forall a b, split_dot l = Some (a, b) -> l = a ++ 46 :: b /\ ~ In 46 a.
Proof.
  induction l as [|c l IH]; intros a b H; [discriminate|]. cbn [split_dot] in H. destruct (Z.eqb_spec c 46) as [->|Hc].
  - injection H as <- <-. split; [reflexivity|intros []].
  - destruct (split_dot l) as [[a' b']|]; [|discriminate]. injection H as <- <-. destruct (IH _ _ eq_refl) as [-> N].
    split; [reflexivity|]. intros [E|E]; [exact (Hc E)|exact (N E)].
Qed.
Lemma split_dot_app a b : ~ In 46 a -> split_dot (a ++ 46 :: b) = Some (a, b).
Proof.
  induction a as [|c a IH]; intros H; [reflexivity|]. cbn [app split_dot].
  destruct (Z.eqb_spec c 46) as [->|_]; [destruct H; now left|]. rewrite IH; [reflexivity|]. intros X. apply H. now right.
Qed.
Lemma three_split input header payload mac : three_parts input header payload mac <->
  exists rest, split_dot input = Some (header, rest) /\ split_dot rest = Some (payload, mac).
Proof.
  split.
  - intros (-> & H & P). exists (payload ++ 46 :: mac). split; [now apply split_dot_app|now apply split_dot_app].
  - intros (rest & A & B). apply split_dot_some in A, B. destruct A as [-> A], B as [-> B]. now split.
Qed.

Lemma standard_is c : b64_translate c = standard c.
Proof.
  unfold b64_translate. destruct (Z.eqb_spec c 45) as [->|H1]; [reflexivity|]. destruct (Z.eqb_spec c 95) as [->|H2]; [reflexivity|].
  unfold standard. destruct c as [|p|p]; try reflexivity. repeat (destruct p as [p|p|]; try reflexivity); contradiction.
Qed.
Lemma data_length n : 0 <= n -> b64_data_length n = n + (4 - n mod 4) mod 4 /\ 4 * b64_decoded_length n = 3 * b64_data_length n.
Proof. intros H. unfold b64_data_length, b64_decoded_length. destruct (Z.ltb_spec 0 (n mod 4)); lia. Qed.
Lemma zlen_nonneg {A} (l : list A) : 0 <= zlen l.
Proof. unfold zlen. lia. Qed.
Lemma cut_nothing bio (data d : list Z) n : good_bio bio -> bio data = Some d -> 4 * n = 3 * zlen data -> firstn (Z.to_nat n) d = d.
Proof. intros G H E. apply firstn_all2. assert (B := G _ _ H). unfold zlen in *. lia. Qed.
Lemma zlen_app {A} (a b : list A) : zlen (a ++ b) = zlen a + zlen b.
Proof. unfold zlen. rewrite app_length. lia. Qed.

Lemma url_decode bio l junk d : good_bio bio -> b64_decode bio true l junk true = Some d <-> url_content bio l d.
Proof.
  intros G. unfold b64_decode. cbn [negb]. destruct (data_length (zlen l) (zlen_nonneg l)) as [D1 D2].
  set (k := Z.to_nat (b64_data_length (zlen l) - zlen l)).
  assert (Hk : Z.of_nat k = (4 - zlen l mod 4) mod 4) by (unfold k; lia).
  rewrite (map_ext _ _ standard_is).
  assert (L : zlen (List.map standard l ++ repeat 61 k) = b64_data_length (zlen l)).
  { rewrite zlen_app. unfold zlen at 1 2. rewrite map_length, repeat_length. unfold zlen in *. lia. }
  split.
  - destruct (bio _) as [x|] eqn:E; [|discriminate]. intros H. injection H as <-.
    rewrite (cut_nothing bio _ _ _ G E) by lia. exists k. repeat split; try assumption; lia.
  - intros (k' & K1 & K2 & B). assert (k' = k) as -> by lia. rewrite B.
    now rewrite (cut_nothing bio _ _ _ G B) by lia.
Qed.
Lemma plain_decode bio l junk d : good_bio bio -> zlen l mod 4 = 0 -> b64_decode bio false l junk true = Some d <-> padded_content bio l d.
Proof.
  intros G M. unfold b64_decode. cbn [negb]. destruct (data_length (zlen l) (zlen_nonneg l)) as [D1 D2].
  replace (Z.to_nat (b64_data_length (zlen l) - zlen l)) with 0%nat by lia. cbn [firstn]. rewrite app_nil_r.
  split.
  - destruct (bio l) as [x|] eqn:E; [|discriminate]. intros H. injection H as <-. rewrite (cut_nothing bio _ _ _ G E) by lia. now split.
  - intros [_ B]. rewrite B. now rewrite (cut_nothing bio _ _ _ G B) by lia.
Qed.
Lemma any_decode bio l junk ok d : good_bio bio -> (4 <= List.length junk)%nat -> b64_decode bio false l junk ok = Some d -> some_content bio l d.
Proof.
  intros G J. unfold b64_decode. destruct ok; [|discriminate]. cbn [negb]. destruct (data_length (zlen l) (zlen_nonneg l)) as [D1 D2].
  set (k := Z.to_nat (b64_data_length (zlen l) - zlen l)).
  assert (L : zlen (l ++ firstn k junk) = b64_data_length (zlen l)).
  { rewrite zlen_app. unfold zlen at 2. rewrite firstn_length. unfold zlen in *. unfold k. lia. }
  destruct (bio _) as [x|] eqn:E; [|discriminate]. intros H. injection H as <-. rewrite (cut_nothing bio _ _ _ G E) by lia.
  exists (firstn k junk). split; [rewrite firstn_length; unfold k; lia|]. split; [rewrite L, D1; lia|exact E].
Qed.

(** ** Content key rights *)
Lemma has_cons b c l : has b (c :: l) = (b =? c) || has b l.
Proof. reflexivity. Qed.
Ltac bits := repeat (rewrite ?bit_set_spec, ?bit_clear_spec by (unfold F_SVP_OPTIONAL, F_DTCP, F_HDCP14, F_HDCP22, F_ANALOG_UNPROTECTED, F_ANALOG_CGMSA; lia)).
Definition right_bit (bytes : list Z) (u : Z) (cg an : bool) (f : Z) : bool :=
  if f =? 12 then Z.testbit u 12 && negb (has 1 bytes)
  else if f =? 11 then Z.testbit u 11 || has 2 bytes
  else if f =? 10 then Z.testbit u 10 || has 4 bytes
  else if f =? 9 then Z.testbit u 9 || has 3 bytes
  else if f =? 7 then Z.testbit u 7 || has 5 bytes
  else if f =? 6 then (an || has 5 bytes) && negb (cg || has 8 bytes)
  else Z.testbit u f.
Lemma right_bits bytes : forall u cg an, Z.testbit u 6 = an && negb cg -> (an = true -> Z.testbit u 7 = true) ->
  let '(u', s) := rights_loop bytes u cg an in
  (s = OK <-> Forall known_right bytes) /\ (s = OK \/ s = INVALID_KEY_FORMAT) /\
  (s = OK -> forall f, 0 <= f -> Z.testbit u' f = right_bit bytes u cg an f).
Proof.
  induction bytes as [|b bytes IH]; intros u cg an H6 H7.
  - cbn [rights_loop]. split; [split; [constructor|reflexivity]|]. split; [now left|]. intros _ f Hf. unfold right_bit. cbn [has existsb].
    repeat match goal with |- context [f =? ?n] => destruct (Z.eqb_spec f n) as [->|?] end; rewrite ?andb_true_r, ?orb_false_r; congruence.
  - cbn [rights_loop].
    assert (K : forall u' cg' an', Z.testbit u' 6 = an' && negb cg' -> (an' = true -> Z.testbit u' 7 = true) -> known_right b ->
      (forall f, 0 <= f -> right_bit bytes u' cg' an' f = right_bit (b :: bytes) u cg an f) ->
      let '(u'', s) := rights_loop bytes u' cg' an' in
      (s = OK <-> Forall known_right (b :: bytes)) /\ (s = OK \/ s = INVALID_KEY_FORMAT) /\
      (s = OK -> forall f, 0 <= f -> Z.testbit u'' f = right_bit (b :: bytes) u cg an f)).
    { intros u' cg' an' A B Kb E. specialize (IH u' cg' an' A B). destruct (rights_loop bytes u' cg' an') as [u'' s].
      destruct IH as (I1 & I2 & I3). split; [|split; [exact I2|]].
      - rewrite I1. split; [now constructor|now inversion 1].
      - intros Es f Hf. rewrite (I3 Es f Hf). now apply E. }
    unfold F_SVP_OPTIONAL, F_DTCP, F_HDCP14, F_HDCP22, F_ANALOG_UNPROTECTED, F_ANALOG_CGMSA.
    Ltac side := bits; cbn [Z.eqb Pos.eqb negb orb andb]; rewrite ?orb_false_r, ?andb_false_r, ?orb_true_r, ?andb_true_r; auto.
    Ltac each := let f := fresh "f" in let Hf := fresh "Hf" in intros f Hf; unfold right_bit; rewrite !has_cons; bits; cbn [Z.eqb Pos.eqb orb];
      repeat match goal with |- context [f =? ?n] => destruct (Z.eqb_spec f n) as [->|?]; cbn [negb orb andb Z.eqb Pos.eqb]; rewrite ?orb_false_r, ?orb_true_r, ?andb_true_r, ?andb_false_r end; try (reflexivity || lia).
    destruct (Z.eqb_spec b 0) as [->|N0]; [apply K; [exact H6|exact H7|now left|reflexivity]|].
    destruct (Z.eqb_spec b 1) as [->|N1]; [apply K; [side|side|unfold known_right; lia|each]|].
    destruct (Z.eqb_spec b 2) as [->|N2]; [apply K; [side|side|unfold known_right; lia|each]|].
    destruct (Z.eqb_spec b 3) as [->|N3]; [apply K; [side|side|unfold known_right; lia|each]|].
    destruct (Z.eqb_spec b 4) as [->|N4]; [apply K; [side|side|unfold known_right; lia|each]|].
    destruct (Z.eqb_spec b 5) as [->|N5]; [destruct cg; (apply K; [side|side|unfold known_right; lia|each])|].
    destruct (Z.eqb_spec b 8) as [->|N8].
    { destruct an; (apply K; [side|side|unfold known_right; lia|each]). now rewrite (H7 eq_refl). }
    split; [split; [discriminate|]|split; [now right|discriminate]].
    inversion 1 as [|x l Hb]; subst. unfold known_right in Hb. lia.
Qed.

Lemma rights_flags bytes : let '(u, s) := content_key_rights_to_usage_flags 0 bytes in
  (s = OK <-> Forall known_right bytes) /\ (s = OK \/ s = INVALID_KEY_FORMAT) /\
  (s = OK -> forall f, 0 <= f -> Z.testbit u f = output_allowed bytes f).
Proof.
  unfold content_key_rights_to_usage_flags. change (BIT_SET _ F_SVP_OPTIONAL) with 4096.
  assert (R := right_bits bytes 4096 false false eq_refl ltac:(discriminate)).
  destruct (rights_loop bytes 4096 false false) as [u s]. destruct R as (R1 & R2 & R3). split; [exact R1|]. split; [exact R2|].
  intros Es f Hf. rewrite (R3 Es f Hf). unfold right_bit, output_allowed.
  change 4096 with (2 ^ 12).
  repeat match goal with |- context [f =? ?n] => destruct (Z.eqb_spec f n) as [->|?]; [rewrite Z.pow2_bits_eqb by lia; reflexivity|] end.
  rewrite Z.pow2_bits_eqb by lia. replace (12 =? f) with false by lia.
  destruct f as [|p|p]; try reflexivity. repeat (destruct p as [p|p|]; try reflexivity; try lia).
Qed.

(** ** Fields *)
Lemma until_nul_parts l : exists b, l = until_nul l ++ b /\ ~ In 0 (until_nul l) /\ (b = [] \/ exists b', b = 0 :: b').
Proof.
  induction l as [|c l (b & E & N & B)]; [exists []; cbn; tauto|]. cbn [until_nul]. destruct (Z.eqb_spec c 0) as [->|Hc].
  - exists (0 :: l). split; [reflexivity|]. split; [intros []|]. right. now exists l.
  - exists b. split; [cbn [app]; now rewrite <- E|]. split; [|exact B]. intros [X|X]; [exact (Hc X)|exact (N X)].
Qed.
Lemma id_of_ok l : zlen l <= 63 -> id_bytes l (id_of l).
Proof.
  intros H. destruct (until_nul_parts l) as (b & E & N & B). unfold id_of. split.
  - rewrite app_length, repeat_length. assert (L : (List.length (until_nul l) <= List.length l)%nat) by (rewrite E at 2; rewrite app_length; lia).
    unfold zlen in H. lia.
  - exists (until_nul l), b, (repeat 0 (64 - List.length (until_nul l))). split; [exact E|]. split; [reflexivity|]. split; [exact N|].
    split; [|exact B]. apply Forall_forall. intros x Hx. symmetry. exact (repeat_spec _ _ _ Hx).
Qed.
Lemma id_bytes_one l a b : id_bytes l a -> id_bytes l b -> a = b.
Proof.
  intros (La & x & y & z & E & -> & N & Z1 & B) (Lb & x' & y' & z' & E' & -> & N' & Z2 & B').
  assert (x = x').
  { rewrite E in E'. clear - E' N N' B B'. revert x' E' N'. induction x as [|c x IH]; intros [|c' x'] E' N'; cbn [app] in E'.
    - reflexivity.
    - exfalso. subst y. destruct B as [B|[b B]]; [discriminate|]. injection B as -> _. apply N'. now left.
    - exfalso. subst y'. destruct B' as [B1|[b0 B1]]; [discriminate|]. injection B1 as -> _. apply N. now left.
    - injection E' as -> E'. f_equal. apply IH; try assumption; intros X; [apply N|apply N']; now right. }
  subst x'. f_equal. rewrite app_length in La, Lb. assert (L : List.length z = List.length z') by lia. clear - Z1 Z2 L.
  revert z' Z2 L. induction Z1 as [|c z <- _ IH]; intros [|c' z'] Z2 L; try discriminate; [reflexivity|].
  inversion Z2; subst. f_equal. apply IH; [assumption|]. cbn in L. lia.
Qed.

Lemma epoch_time_iff J l t : epoch_time J l = Some t <-> stated_time (j_time J) l t.
Proof.
  unfold epoch_time, stated_time. destruct (Z.eqb_spec (zlen l) 20) as [L|L]; cbn [negb].
  - destruct (j_time J l) as [s|]; [|split; [discriminate|intros (_ & s & H & _); discriminate]].
    destruct (Z.ltb_spec s 0), (Z.eqb_spec s (-1)); cbn [negb andb]; split; intros H';
      try discriminate; try (injection H' as <-; split; [exact L|]; exists s; repeat split; auto; lia);
      destruct H' as (_ & s' & E & B & ->); injection E as <-; (lia || reflexivity).
  - split; [discriminate|tauto].
Qed.

Lemma convert_written_ok fuel : forall str len i j id id', convert_loop fuel str len i j id = ConvTrue id' ->
  convert_written fuel str len i j id = id'.
Proof.
  induction fuel as [|fuel IH]; intros str len i j id id' H; cbn [convert_loop convert_written] in *; [congruence|].
  destruct (i <? len)%nat; cbn [negb] in *; [|congruence].
  destruct (nth_error str i) as [c0|] eqn:E0; [|discriminate]. rewrite (nth_error_nth str i 0 E0).
  set (i1 := if c0 =? 45 then S i else i) in *.
  destruct (len <=? i1)%nat; [discriminate|]. destruct (nth_error str i1) as [c1|] eqn:E1; [|discriminate].
  rewrite (nth_error_nth str i1 0 E1). destruct (len <=? S i1)%nat; [discriminate|]. cbn [orb].
  destruct (is_hex (lower c1)); cbn [negb orb] in *; [|discriminate].
  destruct (nth_error str (S i1)) as [c2|] eqn:E2; [|discriminate]. rewrite (nth_error_nth str (S i1) 0 E2).
  destruct (is_hex (lower c2)); cbn [negb] in *; [|discriminate]. now apply IH.
Qed.
Lemma ta_entry_ok s : zlen s = 36 -> ta_named s (ta_entry s).
Proof.
  intros L. split; [exact L|]. intros id H. unfold ta_entry.
  assert (C := convert_complete s id (repeat 0 16) H eq_refl). unfold convert_uuid in C. cbn [Nat.eqb negb] in C.
  now rewrite (convert_written_ok _ _ _ _ _ _ _ C).
Qed.

Section Fields.
Variables (J : jlib) (e : surroundings) (fs : list (list Z * json)).
Hypothesis GJ : good_jlib J.
Hypothesis Ge : good_surroundings e.
Notation entries := (entries_of fs).

Lemma field_go name v : field_of name entries = Go v <-> exists j, says fs name j /\ v = tree j.
Proof.
  unfold field_of. destruct (find_first fs (txt name)) as [(j & F & ->)|[N ->]].
  - split; [intros H; injection H as <-; now exists j|]. intros (j' & F' & ->). now rewrite (first_one _ _ _ _ F F').
  - split; [discriminate|]. intros (j & F & _). destruct (not_both _ _ _ F N).
Qed.
Lemma field_stop name i : field_of name entries = Stop i -> i = Refused INVALID_KEY_FORMAT.
Proof. unfold field_of. destruct (find_first fs (txt name)) as [(j & F & ->)|[N ->]]; congruence. Qed.
Lemma string_go name l : string_of name entries = Go l <-> says fs name (JString l).
Proof.
  unfold string_of. destruct (field_of name entries) as [v|i] eqn:E; cbn [bind].
  - apply field_go in E. destruct E as (j & F & ->). destruct (as_string (tree j)) as [s|] eqn:S.
    + apply tree_string in S. subst j. split; [intros H; injection H as <-; exact F|]. intros F'.
      assert (X := first_one _ _ _ _ F F'). congruence.
    + split; [discriminate|]. intros F'. rewrite (first_one _ _ _ _ F F') in S. discriminate.
  - split; [discriminate|]. intros F. assert (G : field_of name entries = Go (tree (JString l))) by (apply field_go; now exists (JString l)).
    congruence.
Qed.
Lemma string_stop name i : string_of name entries = Stop i -> i = Refused INVALID_KEY_FORMAT.
Proof.
  unfold string_of. destruct (field_of name entries) as [v|i'] eqn:E; cbn [bind].
  - destruct (as_string v); congruence.
  - apply field_stop in E. congruence.
Qed.
Lemma time_go name t : time_of J name entries = Go t <-> exists l, says fs name (JString l) /\ stated_time (j_time J) l t.
Proof.
  unfold time_of. destruct (string_of name entries) as [l|i] eqn:E; cbn [bind].
  - apply string_go in E. destruct (epoch_time J l) as [t'|] eqn:T.
    + split.
      * intros H. injection H as <-. exists l. split; [exact E|]. now apply epoch_time_iff.
      * intros (l' & F & S). assert (X := first_one _ _ _ _ E F). injection X as <-. apply epoch_time_iff in S. congruence.
    + split; [discriminate|]. intros (l' & F & S). assert (X := first_one _ _ _ _ E F). injection X as <-. apply epoch_time_iff in S. congruence.
  - split; [discriminate|]. intros (l & F & _). apply string_go in F. congruence.
Qed.
Lemma time_stop name i : time_of J name entries = Stop i -> i = Refused INVALID_KEY_FORMAT.
Proof.
  unfold time_of. destruct (string_of name entries) as [l|i'] eqn:E; cbn [bind].
  - destruct (epoch_time J l); congruence.
  - apply string_stop in E. congruence.
Qed.

Lemma ta_loop_go l : forall i ts, ta_loop e i (List.map tree l) = Go ts <->
  exists texts, l = List.map JString texts /\ ts = List.map ta_entry texts /\ Forall (fun s => zlen s = 36) texts.
Proof.
  induction l as [|j l IH]; intros i ts; cbn [List.map ta_loop].
  - split; [intros H; injection H as <-; now exists []|]. intros ([|] & E & -> & _); [reflexivity|discriminate].
  - destruct (as_string (tree j)) as [s|] eqn:S.
    + apply tree_string in S. subst j. unfold need. destruct (Z.eqb_spec (zlen s) 36) as [L|L]; cbn [bind].
      * destruct (ta_loop e (i + 1) (List.map tree l)) as [ts'|i'] eqn:E; cbn [bind].
        -- apply IH in E. destruct E as (texts & -> & -> & F). split.
           ++ intros H. injection H as <-. exists (s :: texts). repeat split; try reflexivity. now constructor.
           ++ intros ([|s' texts'] & E' & -> & F'); [discriminate|]. injection E' as <- E'. cbn [List.map].
              assert (texts = texts'); [|now subst]. clear - E'. revert texts' E'. induction texts as [|a t IH]; intros [|b t'] E'; try discriminate; [reflexivity|].
              injection E' as <- E'. f_equal. now apply IH.
        -- split; [discriminate|]. intros ([|s' texts'] & E' & -> & F'); [discriminate|]. injection E' as <- E'.
           inversion F'; subst. assert (G : ta_loop e (i + 1) (List.map tree (List.map JString texts')) = Go (List.map ta_entry texts')) by (apply IH; now exists texts').
           rewrite G in E. discriminate.
      * split; [discriminate|]. intros ([|s' texts'] & E' & -> & F'); [discriminate|]. injection E' as <- E'. inversion F'. contradiction.
    + split; [destruct (e_size e i =? 36); discriminate|]. intros ([|s' texts'] & E' & -> & F'); [discriminate|]. injection E' as -> E'. discriminate S.
Qed.

Lemma entries_named texts : Forall (fun s => zlen s = 36) texts -> Forall2 ta_named texts (List.map ta_entry texts).
Proof. induction 1; cbn [List.map]; constructor; [now apply ta_entry_ok|assumption]. Qed.

Lemma ta_list_states tas : ta_list e entries = Go tas -> stated_tas fs tas.
Proof.
  unfold ta_list. destruct (find_first fs (txt "entitledTaIds")) as [(j & F & ->)|[N ->]].
  - destruct j as [|b|d|z|l|l|f]; cbn [tree as_array].
    1-5,7: destruct (Z.of_nat MAX_TAS <? e_size e 0); [discriminate|]; destruct (e_size e 0 =? 0); [|discriminate];
      intros H; injection H as <-; right; right; eexists; split; [exact F|]; split; [discriminate|reflexivity].
    destruct (e_alloc e 5); [|destruct l; cbn [List.map]; [|discriminate]].
    + unfold need. destruct (Z.leb_spec (zlen (List.map tree l)) (Z.of_nat MAX_TAS)) as [L|L]; [|discriminate]. cbn [bind].
      destruct (ta_loop e 1 (List.map tree l)) as [ts|i] eqn:E; cbn [bind]; [|discriminate]. intros H. injection H as <-.
      apply ta_loop_go in E. destruct E as (texts & -> & -> & F'). right; left. exists texts, (List.map ta_entry texts).
      split; [exact F|]. unfold zlen in L. rewrite !map_length in L. unfold MAX_TAS in L. split; [lia|]. split; [now apply entries_named|].
      reflexivity.
    + cbn. intros H. injection H as <-. right; left. exists [], []. split; [exact F|]. split; [cbn; lia|]. split; [constructor|reflexivity].
  - intros H. injection H as <-. left. split; [exact N|reflexivity].
Qed.
Lemma ta_list_accepts : no_failure e ->
  no_field fs (txt "entitledTaIds") \/
  (exists texts, says fs "entitledTaIds" (JArray (List.map JString texts)) /\ (List.length texts <= 32)%nat /\ Forall (fun s => zlen s = 36) texts) ->
  exists tas, ta_list e entries = Go tas.
Proof.
  intros NF [N|(texts & F & L & A)]; unfold ta_list.
  - rewrite (find_none_iff _ _ N). eauto.
  - rewrite (find_iff _ _ _ F). cbn [tree as_array]. rewrite (proj1 NF). unfold need.
    replace (zlen (List.map tree (List.map JString texts)) <=? Z.of_nat MAX_TAS) with true
      by (unfold zlen, MAX_TAS; rewrite !map_length; lia). cbn [bind].
    assert (G : ta_loop e 1 (List.map tree (List.map JString texts)) = Go (List.map ta_entry texts)) by (apply ta_loop_go; now exists texts).
    rewrite G. cbn [bind]. eauto.
Qed.
End Fields.
