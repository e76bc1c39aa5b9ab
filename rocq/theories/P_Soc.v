(** Proofs about SoC containers. *)
From Verif Require Import Base M_ObjectStore M_Memory M_Rights M_Mac M_KeyStore M_Kdf M_Unwrap M_Json M_TypeJ M_Soc
  S_Bytes S_Rights S_Mac S_Unwrap S_Json S_TypeJ S_Soc P_Bytes P_Rights P_Mac P_Unwrap P_Json P_TypeJ P_TypeJ2.

(** ** Names *)
Lemma same_go v s lit b : same_as v s (txt lit) = Go b -> (b = true <-> taken_for v s lit).
Proof.
  unfold same_as, taken_for. destruct (v_strict v && _); [discriminate|]. intros H. injection H as <-.
  destruct (list_eq_dec _ _ _) as [E|E]; split; try discriminate; try reflexivity.
  - intros _. set (X := txt lit ++ _) in *. exists (skipn (List.length s) X).
    transitivity (firstn (List.length s) X ++ skipn (List.length s) X); [symmetry; apply firstn_skipn|now rewrite <- E].
  - intros (more & M). destruct E. rewrite M, firstn_app, Nat.sub_diag, firstn_O, app_nil_r, firstn_all. reflexivity.
Qed.
Lemma same_lax v s lit : v_strict v = false -> exists b, same_as v s lit = Go b.
Proof. unfold same_as. intros ->. cbn [andb]. eauto. Qed.

Definition same_of {A} (s : step A) (P : A -> Prop) : Prop := forall a, s = Go a -> P a.
Lemma one_of_go v s a b c r : is_one_of v s a b c = Go r -> (r = true <-> taken_for v s a \/ taken_for v s b \/ taken_for v s c).
Proof.
  unfold is_one_of. intros H. apply bind_go in H. destruct H as (x & E1 & H). apply same_go in E1. destruct x; [injection H as <-; tauto|].
  apply bind_go in H. destruct H as (x & E2 & H). apply same_go in E2. destruct x; [injection H as <-; tauto|].
  apply same_go in H. rewrite H. split; [tauto|]. intros [X|[X|X]]; [apply E1 in X; discriminate|apply E2 in X; discriminate|exact X].
Qed.
Lemma type_go v s l t : find_type v s l = Go t -> exists name, In (name, t) l /\ taken_for v s name.
Proof.
  induction l as [|[name u] l IH]; cbn [find_type]; [discriminate|]. intros H. apply bind_go in H. destruct H as (x & E & H).
  apply same_go in E. destruct x.
  - injection H as <-. exists name. split; [now left|]. now apply E.
  - destruct (IH H) as (n & I & T). exists n. split; [now right|exact T].
Qed.
Lemma types_same name t : In (name, t) types <-> In (name, t) key_types.
Proof. split; intros H; cbn [types key_types In] in *; tauto. Qed.

(** ** Parts *)
Section Soc.
Variables (J : jlib) (e : surroundings) (v : soc).
Hypothesis GJ : good_jlib J.
Hypothesis Ge : good_surroundings e.
Hypothesis Gv : good_soc v.
Notation bio := (j_bio J).
Notation U := (j_ulib J).

Lemma once_sound place l d : decode_once J e place l = Go d -> url_content bio l d.
Proof.
  unfold decode_once. destruct (e_alloc e place); cbn [negb]; [|discriminate].
  destruct (b64_decode _ _ _ _ _) as [x|] eqn:E; [|discriminate]. intros H. injection H as <-.
  unfold b64_decode in E. destruct (e_b64 e place) eqn:B; [|discriminate]. fold (b64_decode bio true l (e_junk e place) true) in E.
  apply (url_decode bio l (e_junk e place)); [apply GJ|exact E].
Qed.
Lemma once_complete place l d : no_failure e -> url_content bio l d -> decode_once J e place l = Go d.
Proof.
  intros NF H. unfold decode_once. rewrite (proj1 NF), (proj1 (proj2 NF)). cbn [negb].
  apply (url_decode bio l (e_junk e place)) in H; [|apply GJ]. now rewrite H.
Qed.
Lemma unpack_sound input h p tag : unpack_soc J e input = Go (h, p, tag) -> exists header payload mac, three_parts input header payload mac /\
  url_content bio header h /\ url_content bio payload p /\ url_content bio mac tag.
Proof.
  unfold unpack_soc. destruct (e_alloc e 0); cbn [negb]; [|discriminate]. destruct (split_dot input) as [[h' rest]|] eqn:E1; [|discriminate].
  intros H. apply bind_go in H. destruct H as ([] & _ & H). destruct (split_dot rest) as [[p' m]|] eqn:E2; [|discriminate].
  apply bind_go in H. destruct H as ([] & _ & H). apply bind_go in H. destruct H as (hd & Hh & H). apply bind_go in H. destruct H as (pd' & Hp & H).
  apply bind_go in H. destruct H as (md' & Hm & H). injection H as -> -> ->. exists h', p', m. split; [apply three_split; eauto|].
  split; [|split]; eapply once_sound; eassumption.
Qed.
Lemma unpack_complete input header payload mac h p tag : no_failure e -> three_parts input header payload mac -> mac <> [] ->
  url_content bio header h -> url_content bio payload p -> url_content bio mac tag -> unpack_soc J e input = Go (h, p, tag).
Proof.
  intros NF T Hm A B C. unfold unpack_soc. rewrite (proj1 NF). cbn [negb]. apply three_split in T. destruct T as (rest & -> & E2).
  replace (0 <? zlen rest) with true by (destruct rest; [discriminate|unfold zlen; cbn [List.length]; lia]). cbn [need bind].
  rewrite E2. replace (0 <? zlen mac) with true by (destruct mac; [contradiction|unfold zlen; cbn [List.length]; lia]). cbn [need bind].
  rewrite (once_complete 1 header h NF A). cbn [bind]. rewrite (once_complete 2 payload p NF B). cbn [bind]. rewrite (once_complete 3 mac tag NF C). reflexivity.
Qed.
End Soc.

Lemma fields_go J e doc entries : good_jlib J -> good_surroundings e -> fields_of J e doc = Go entries ->
  exists fs, entries = entries_of fs /\ j_yajl J doc = Some (events (JObject fs)).
Proof.
  intros GJ Ge. unfold fields_of. destruct (parse _ _ _ _) as [x|] eqn:EP; [|discriminate]. destruct x as [ | | | | |before es]; try discriminate.
  destruct (e_alloc e 8); cbn [negb]; [|destruct es; discriminate]. intros H. injection H as <-.
  destruct (j_yajl J doc) as [es'|] eqn:EY; [|unfold parse in EP; rewrite EY in EP; destruct (e_parser e); discriminate].
  destruct (e_parser e); [|unfold parse in EP; rewrite EY in EP; discriminate].
  destruct (proj1 (proj2 GJ) _ _ EY) as (j & ->). rewrite (parse_tree _ _ j _ EY (proj1 Ge)) in EP. destruct (short_names j); [|discriminate].
  destruct j as [ | | | | | |fs]; try discriminate. exists fs. cbn [tree] in EP. split; [unfold entries_of; congruence|reflexivity].
Qed.
Lemma fields_made J e doc fs : good_surroundings e -> no_failure e -> j_yajl J doc = Some (events (JObject fs)) -> short_names (JObject fs) = true ->
  fields_of J e doc = Go (entries_of fs).
Proof.
  intros Ge NF Y S. unfold fields_of. rewrite (proj1 (proj2 (proj2 NF))). rewrite (parse_tree _ _ _ _ Y (proj1 Ge)), S. cbn [tree].
  rewrite (proj1 NF). reflexivity.
Qed.

Section Payload.
Variables (J : jlib) (e : surroundings) (v : soc).
Hypothesis GJ : good_jlib J.
Hypothesis Ge : good_surroundings e.
Hypothesis Gv : good_soc v.
Notation bio := (j_bio J).
Notation U := (j_ulib J).
Variable fs : list (list Z * json).
Notation entries := (entries_of fs).

Definition content_of (url : bool) := if url then url_content bio else some_content bio.
Lemma decode_some url l place d : b64_decode bio url l (e_junk e place) (e_b64 e place) = Some d -> content_of url l d.
Proof.
  destruct url; cbn [content_of].
  - intros E. unfold b64_decode in E. destruct (e_b64 e place) eqn:B; [|discriminate]. fold (b64_decode bio true l (e_junk e place) true) in E.
    apply (url_decode bio l (e_junk e place)); [apply GJ|exact E].
  - apply any_decode; [apply GJ|apply Ge].
Qed.
Lemma into_sound url place n old name x b : zlen old = n -> field_of name entries = Go x -> decode_into J e url place n old x = Go b ->
  says_bytes fs (content_of url) old name b /\ zlen b = n.
Proof.
  intros L F H. apply field_go in F. destruct F as (j & F & ->). unfold decode_into in H.
  destruct (as_string (tree j)) as [s|] eqn:S.
  - apply tree_string in S. subst j. destruct (b64_decode _ _ _ _ _) as [d|] eqn:E.
    + apply decode_some in E. destruct (Z.ltb_spec n (zlen d)) as [|Hd]; [discriminate|]. injection H as <-. split.
      * exists (JString s). split; [exact F|]. right. exists s, d. repeat split; try assumption. lia.
      * rewrite zlen_app. unfold zlen in *. rewrite skipn_length. lia.
    + destruct (_ =? n); [|discriminate]. injection H as <-. split; [|exact L]. exists (JString s). split; [exact F|now left].
  - destruct (_ =? n); [|discriminate]. injection H as <-. split; [|exact L]. exists j. split; [exact F|now left].
Qed.
Lemma byte_is j : byte_of (tree j) = number j mod 256.
Proof. unfold byte_of. now destruct j. Qed.
Lemma byte_range x : 0 <= byte_of x < 256.
Proof. unfold byte_of. apply Z.mod_pos_bound. lia. Qed.

Lemma root_sound n r : root_of e v n entries = Go r -> 0 <= r <= 2 /\ (n < 5 -> r = 0) /\
  (n < 5 /\ r = 0 \/ 5 <= n /\
    (no_field fs (txt "rootKeyType") /\ r = 0 \/
     (exists j, says fs "rootKeyType" j /\ (forall text, j <> JString text) /\ r = 1) \/
     (exists text, says fs "rootKeyType" (JString text) /\ (taken_for v text "unique" /\ r = 1 \/ taken_for v text "common" /\ r = 2)))).
Proof.
  unfold root_of. destruct (Z.leb_spec 5 n) as [Hn|Hn]; [|intros H; injection H as <-; lia].
  destruct (find_first fs (txt "rootKeyType")) as [(j & F & ->)|[N ->]].
  - destruct (as_string (tree j)) as [s|] eqn:S.
    + apply tree_string in S. subst j. intros H. apply bind_go in H. destruct H as (x & E & H). apply same_go in E. destruct x.
      * injection H as <-. split; [lia|]. split; [lia|]. right. split; [exact Hn|]. right. right. exists s. split; [exact F|]. left. split; [now apply E|reflexivity].
      * apply bind_go in H. destruct H as (x & E2 & H). apply same_go in E2. destruct x; [|discriminate]. injection H as <-. split; [lia|]. split; [lia|].
        right. split; [exact Hn|]. right. right. exists s. split; [exact F|]. right. split; [now apply E2|reflexivity].
    + destruct (e_size e 100 =? 0); [|discriminate]. intros H. injection H as <-. split; [lia|]. split; [lia|]. right. split; [exact Hn|]. right. left.
      exists j. split; [exact F|]. split; [intros text ->; discriminate|reflexivity].
  - intros H. injection H as <-. split; [lia|]. split; [lia|]. right. split; [exact Hn|]. left. now split.
Qed.
Lemma soc_loop_go l : forall i ts, 0 <= i -> soc_ta_loop e i (List.map tree l) = Go ts ->
  l = List.map JString ts /\ (i < 32 -> i + zlen ts <= 32) /\ (ts = [] \/ i < 32) /\ Forall (fun s => zlen s = 36) ts.
Proof.
  induction l as [|j l IH]; intros i ts Hi; cbn [List.map soc_ta_loop].
  - intros H. injection H as <-. split; [reflexivity|]. split; [unfold zlen; cbn; lia|]. split; [now left|constructor].
  - intros H. apply bind_go in H. destruct H as (s & Hs & H). apply bind_go in H. destruct H as (ss & Hr & H). injection H as <-.
    destruct (as_string (tree j)) as [s'|] eqn:S; [|destruct (e_size e _ =? 36); discriminate]. apply tree_string in S. subst j.
    apply bind_go in Hs. destruct Hs as ([] & L & Hs). apply need_go in L. apply Z.eqb_eq in L.
    destruct (Z.leb_spec (Z.of_nat MAX_TAS) i) as [|Hm]; [discriminate|]. change (Z.of_nat MAX_TAS) with 32 in Hm. injection Hs as ->.
    apply IH in Hr; [|lia]. destruct Hr as (-> & A & B & C). split; [reflexivity|]. split; [|split; [now right|now constructor]].
    intros _. destruct B as [->|B]; [unfold zlen; cbn [List.length]; lia|]. specialize (A B). unfold zlen in *. cbn [List.length]. lia.
Qed.
Lemma tas_sound tas : soc_tas e entries = Go tas -> ((List.length tas <= 32)%nat /\ Forall (fun s => zlen s = 36) tas) /\
  (no_field fs (txt "entitledTaIds") /\ tas = [] \/ says fs "entitledTaIds" (JArray (List.map JString tas)) \/
   (exists j, says fs "entitledTaIds" j /\ (forall l, j <> JArray l) /\ tas = [])).
Proof.
  unfold soc_tas. assert (N0 : (List.length (@nil (list Z)) <= 32)%nat /\ Forall (fun s : list Z => zlen s = 36) []) by (split; [cbn; lia|constructor]).
  destruct (find_first fs (txt "entitledTaIds")) as [(j & F & ->)|[N ->]].
  - destruct j as [|b|d|z|l|l|f]; cbn [tree as_array].
    1-5,7: intros H; injection H as <-; split; [exact N0|]; right; right; eexists; split; [exact F|]; split; [discriminate|reflexivity].
    destruct (e_alloc e 5); [|destruct l; cbn [List.map]; [|discriminate]].
    + intros H. apply soc_loop_go in H; [|lia]. destruct H as (-> & A & _ & C). split; [split; [specialize (A ltac:(lia)); unfold zlen in A; lia|exact C]|].
      right. left. exact F.
    + cbn. intros H. injection H as <-. split; [exact N0|]. right. left. exact F.
  - intros H. injection H as <-. split; [exact N0|]. left. now split.
Qed.

(** What [parse_payload] leaves: a statement that has its lengths. *)
Record parsed (p : soc_payload) : Prop := {
  pa_version : 0 <= y_version p < 256;
  pa_root : 0 <= y_root p <= 2;
  pa_old : y_version p < 5 -> y_root p = 0;
  pa_usage : 0 <= y_usage p < 256;
  pa_child : 0 <= y_child p < 256 /\ (y_usage p <> 2 -> y_child p = 0);
  pa_iv : zlen (y_iv p) = 12;
  pa_c : zlen (y_c1 p) = 16 /\ zlen (y_c2 p) = 16 /\ zlen (y_c3 p) = 16;
  pa_tas : (List.length (y_tas p) <= 32)%nat /\ Forall (fun s => zlen s = 36) (y_tas p)
}.
Lemma payload_sound p : parse_payload J e v entries = Go p -> says_somehow J v fs p /\ parsed p.
Proof.
  intros H. unfold parse_payload in H.
  apply bind_go in H. destruct H as (x1 & Hv & H). apply bind_go in H. destruct H as (root & Hr & H). apply bind_go in H. destruct H as (type & Ht & H).
  apply bind_go in H. destruct H as (x2 & Hk & H). apply bind_go in H. destruct H as (key & Hkt & H).
  apply bind_go in H. destruct H as (x3 & Hi & H). apply bind_go in H. destruct H as (iv & Hiv & H).
  apply bind_go in H. destruct H as (x4 & Hu & H). apply bind_go in H. destruct H as (child & Hc & H). apply bind_go in H. destruct H as (tas & Hta & H).
  apply bind_go in H. destruct H as (x5 & Hf1 & H). apply bind_go in H. destruct H as (c1 & Hc1 & H).
  apply bind_go in H. destruct H as (x6 & Hf2 & H). apply bind_go in H. destruct H as (c2 & Hc2 & H).
  apply bind_go in H. destruct H as (x7 & Hf3 & H). apply bind_go in H. destruct H as (c3 & Hc3 & H). injection H as <-.
  apply root_sound in Hr. destruct Hr as (R1 & R2 & R3). apply string_go in Ht.
  apply (into_sound false 7 12 _ "iv") in Hiv; [|reflexivity|exact Hi]. apply tas_sound in Hta. destruct Hta as (T1 & T2).
  apply (into_sound false 11 16 _ "c1") in Hc1; [|apply Gv|exact Hf1].
  apply (into_sound true 12 16 _ "c2") in Hc2; [|apply Gv|exact Hf2].
  apply (into_sound false 13 16 _ "c3") in Hc3; [|apply Gv|exact Hf3].
  apply field_go in Hv. destruct Hv as (j1 & F1 & ->). apply field_go in Hu. destruct Hu as (j4 & F4 & ->).
  assert (CH : (0 <= child < 256 /\ (byte_of (tree j4) <> 2 -> child = 0)) /\
    (byte_of (tree j4) = 2 -> no_field fs (txt "decryptedKeyUsage") /\ child = 0 \/ says_byte fs "decryptedKeyUsage" child)).
  { destruct (Z.eqb_spec (byte_of (tree j4)) 2) as [E|E].
    - destruct (find_first fs (txt "decryptedKeyUsage")) as [(j & F & Ef)|[N Ef]]; rewrite Ef in Hc; injection Hc as <-.
      + split; [split; [apply byte_range|contradiction]|]. intros _. right. exists j. split; [exact F|apply byte_is].
      + split; [split; [lia|reflexivity]|]. intros _. left. now split.
    - injection Hc as <-. split; [split; [lia|reflexivity]|contradiction]. }
  split; constructor; cbn [y_version y_root y_type y_key y_iv y_usage y_child y_tas y_c1 y_c2 y_c3]; try assumption; try apply byte_range; try tauto.
  - exists j1. split; [exact F1|apply byte_is].
  - apply field_go in Hk. destruct Hk as (j & F & ->). unfold key_text in Hkt. destruct (e_alloc e 6); cbn [negb] in Hkt; [|discriminate].
    destruct (as_string (tree j)) as [s|] eqn:S; [|discriminate]. apply tree_string in S. subst j.
    destruct (b64_decode _ _ _ _ _) as [d|] eqn:E; [|discriminate]. injection Hkt as <-. exists s. split; [exact F|]. exact (decode_some false s 6 d E).
  - exists j4. split; [exact F4|apply byte_is].
Qed.
End Payload.

(** ** Associated data *)
Lemma append_go a b c : append a b = Go c -> c = a ++ b.
Proof. unfold append. destruct (_ <? _); [discriminate|]. congruence. Qed.
Lemma append_tas_go l : forall a c, append_tas a l = Go c -> c = a ++ flat_map to_lower l.
Proof.
  induction l as [|t l IH]; intros a c; cbn [append_tas flat_map].
  - intros H. injection H as <-. now rewrite app_nil_r.
  - intros H. apply bind_go in H. destruct H as (b & Hb & H). apply append_go in Hb. subst b. apply IH in H. now rewrite app_assoc.
Qed.
Lemma root_text_is p : parsed p -> (if 5 <=? y_version p then if y_root p =? 1 then txt "unique" else if y_root p =? 2 then txt "common" else [] else []) = root_text p.
Proof.
  intros P. unfold root_text. destruct (Z.leb_spec 5 (y_version p)) as [H|H].
  - destruct (Z.eqb_spec (y_root p) 1) as [->|N1]; [reflexivity|]. destruct (Z.eqb_spec (y_root p) 2) as [->|N2]; [reflexivity|].
    destruct (pa_root p P) as [A B]. replace (y_root p) with 0 by lia. reflexivity.
  - rewrite (pa_old p P H). reflexivity.
Qed.
Lemma aad_sound v alg p aad : parsed p -> build_aad v alg p = Go aad ->
  alg = txt "A128GCM" /\ usable p /\ y_type p <> [] /\ aad = aad_of p /\
  (y_usage p = 2 -> ~ (taken_for v (y_type p) "HMAC-128" \/ taken_for v (y_type p) "HMAC-160" \/ taken_for v (y_type p) "HMAC-256")).
Proof.
  intros P H. unfold build_aad in H.
  apply bind_go in H. destruct H as ([] & Ha & H). apply need_go in Ha. destruct (list_eq_dec _ _ _) as [Ealg|]; [|discriminate]. rewrite Ealg in H. clear Ha.
  apply bind_go in H. destruct H as ([] & Hver & H). apply need_go in Hver. rewrite (root_text_is p P) in H.
  apply bind_go in H. destruct H as ([] & Hty & H). apply need_go in Hty. apply bind_go in H. destruct H as (a1 & A1 & H). apply append_go in A1.
  apply bind_go in H. destruct H as ([] & Hus & H). apply need_go in Hus. apply bind_go in H. destruct H as (hm & Hhm & H).
  apply bind_go in H. destruct H as ([] & Hneg & H). apply need_go in Hneg. apply bind_go in H. destruct H as (a2 & A2 & H). apply append_go in A2.
  apply bind_go in H. destruct H as (a3 & A3 & H). apply bind_go in H. destruct H as (a4 & A4 & H). apply append_go in A4.
  apply bind_go in H. destruct H as (a5 & A5 & H). apply append_go in A5. apply bind_go in H. destruct H as (a6 & A6 & H). apply append_go in A6.
  apply bind_go in H. destruct H as (a7 & A7 & H). apply append_go in A7. apply append_tas_go in H.
  assert (CH : a3 = a2 ++ (if y_usage p =? 2 then [y_child p] else []) /\ (y_usage p = 2 /\ 1 <= y_child p <= 3 \/ y_usage p <> 2 /\ y_child p = 0)).
  { destruct (Z.eqb_spec (y_usage p) 2) as [E|E].
    - apply bind_go in A3. destruct A3 as ([] & Hch & A3). apply need_go in Hch. apply append_go in A3. split; [exact A3|]. left. split; [exact E|lia].
    - injection A3 as <-. rewrite app_nil_r. split; [reflexivity|]. right. split; [exact E|]. now apply (proj2 (pa_child p P)). }
  destruct CH as [-> CH]. split; [exact Ealg|]. split.
  { destruct P as [V R O _ _ I C T]. constructor; try assumption; lia. }
  split. { intros E. rewrite E in Hty. discriminate. }
  split. { subst aad a7 a6 a5 a4 a2 a1. unfold aad_of. rewrite <- !app_assoc. reflexivity. }
  intros E. rewrite E in Hhm. cbn [Z.eqb Pos.eqb] in Hhm. apply one_of_go in Hhm. destruct hm; [discriminate|]. rewrite <- Hhm. discriminate.
Qed.

(** ** Rights *)
Lemma be_snoc l b : be_num (l ++ [b]) = 256 * be_num l + b.
Proof. unfold be_num. now rewrite fold_left_app. Qed.
Lemma be_cons b l : be_num (b :: l) = b * 256 ^ Z.of_nat (List.length l) + be_num l.
Proof.
  revert b. induction l as [|c l IH] using rev_ind; intros b; [unfold be_num; cbn; lia|].
  change (b :: l ++ [c]) with ((b :: l) ++ [c]). rewrite !be_snoc, IH, app_length. cbn [List.length].
  replace (Z.of_nat (List.length l + 1)) with (Z.of_nat (List.length l) + 1) by lia. rewrite Z.pow_add_r by lia. lia.
Qed.
Lemma big_endian_ok n z : List.length (big_endian n z) = n /\ Forall (fun b => 0 <= b < 256) (big_endian n z) /\ be_num (big_endian n z) = z mod 256 ^ Z.of_nat n.
Proof.
  induction n as [|n (L & F & E)]; [repeat split; [constructor|]; cbn; now rewrite Z.mod_1_r|]. cbn [big_endian]. split; [cbn [List.length]; lia|].
  split; [constructor; [apply Z.mod_pos_bound; lia|exact F]|]. rewrite be_cons, E, L.
  replace (Z.of_nat (S n)) with (Z.of_nat n + 1) by lia. rewrite Z.pow_add_r, Z.pow_1_r by lia.
  rewrite Z.rem_mul_r by (try apply Z.pow_nonzero; lia). lia.
Qed.
Lemma id_ok parameters id :
  (match parameters with
   | None => Go (repeat 0 64)
   | Some q => let* _ := need (sp_size q =? SOC_PARAMETERS) INVALID_PARAMETER in
               let* _ := need ((sp_version q =? 2) || (sp_version q =? 3)) INVALID_PARAMETER in
               Go (big_endian 8 (sp_id q) ++ repeat 0 56)
   end : step (list Z)) = Go id <-> good_parameters parameters /\ id = (match parameters with None => repeat 0 64 | Some q => big_endian 8 (sp_id q) ++ repeat 0 56 end).
Proof.
  destruct parameters as [q|]; cbn [good_parameters]; [|intuition congruence]. unfold need, SOC_PARAMETERS.
  destruct (Z.eqb_spec (sp_size q) 624); cbn [bind]; [|split; [discriminate|tauto]].
  destruct (Z.eqb_spec (sp_version q) 2), (Z.eqb_spec (sp_version q) 3); cbn [orb bind]; split; try discriminate; intuition congruence.
Qed.
Lemma caller_ok parameters : caller_id parameters (match parameters with None => repeat 0 64 | Some q => big_endian 8 (sp_id q) ++ repeat 0 56 end).
Proof.
  destruct parameters as [q|].
  - exists (big_endian 8 (sp_id q)). destruct (big_endian_ok 8 (sp_id q)) as (A & B & C). split; [exact A|]. split; [reflexivity|]. split; [exact B|]. exact C.
  - exists (repeat 0 8). split; [reflexivity|]. split; [reflexivity|]. split; [|reflexivity]. repeat constructor; lia.
Qed.
Definition entitled (tas : list (list Z)) : list Z := match tas with [] => fill_tas [ALL_MATCH] | l => fill_tas (List.map ta_entry l) end.
Lemma rights_go t sub p parameters r : usable p -> soc_rights t sub p parameters = Go r <-> good_parameters parameters /\
  exists u c, r = MkRights (match parameters with None => repeat 0 64 | Some q => big_endian 8 (sp_id q) ++ repeat 0 56 end) u c 0 (2 ^ 64 - 1) (entitled (y_tas p)) /\
    u = fst (key_usage_to_usage_flags (Z.lor (BIT_SET 0 F_CACHEABLE) OUTPUT_PROTECTIONS_MASK) (y_usage p) t sub) /\
    c = (if y_usage p =? 2 then fst (key_usage_to_usage_flags 0 (y_child p) t sub) else 0).
Proof.
  intros P. unfold soc_rights. rewrite bind_go.
  assert (K : forall id, (let '(u, s) := key_usage_to_usage_flags (Z.lor (BIT_SET 0 F_CACHEABLE) OUTPUT_PROTECTIONS_MASK) (y_usage p) t sub in
    let* _ := need (status_eqb s OK) s in
    let* c := (if y_usage p =? 2 then let '(c, s) := key_usage_to_usage_flags 0 (y_child p) t sub in let* _ := need (status_eqb s OK) s in Go c else Go 0) in
    let* _ := need (zlen (y_tas p) <=? 32) INVALID_KEY_FORMAT in
    Go (MkRights id u c 0 (W64 - 1) (match y_tas p with [] => fill_tas [ALL_MATCH] | l => fill_tas (List.map ta_entry l) end))) =
    Go (MkRights id (fst (key_usage_to_usage_flags (Z.lor (BIT_SET 0 F_CACHEABLE) OUTPUT_PROTECTIONS_MASK) (y_usage p) t sub))
      (if y_usage p =? 2 then fst (key_usage_to_usage_flags 0 (y_child p) t sub) else 0) 0 (2 ^ 64 - 1) (entitled (y_tas p)))).
  { intros id. assert (U1 := us_usage p P). assert (S1 := proj1 (usage_flags_table (Z.lor (BIT_SET 0 F_CACHEABLE) OUTPUT_PROTECTIONS_MASK) (y_usage p) t sub 0 ltac:(lia) ltac:(lia))).
    destruct (key_usage_to_usage_flags _ (y_usage p) t sub) as [u s]. cbn [snd fst] in *. subst s. replace (status_eqb OK OK) with true by (symmetry; now apply status_ok). cbn [need bind].
    assert (T : zlen (y_tas p) <=? 32 = true) by (assert (X := proj1 (us_tas p P)); unfold zlen; lia). rewrite T.
    destruct (Z.eqb_spec (y_usage p) 2) as [E2|E2].
    - assert (U2 : 1 <= y_child p <= 3) by (destruct (us_child p P); lia).
      assert (S2 := proj1 (usage_flags_table 0 (y_child p) t sub 0 ltac:(lia) ltac:(lia))).
      destruct (key_usage_to_usage_flags 0 (y_child p) t sub) as [c s]. cbn [snd fst] in *. subst s. replace (status_eqb OK OK) with true by (symmetry; now apply status_ok). unfold need, entitled. cbn [bind]. now destruct (y_tas p).
    - unfold need, entitled. cbn [bind]. now destruct (y_tas p). }
  split.
  - intros (id & Hid & H). apply id_ok in Hid. destruct Hid as [G ->]. split; [exact G|]. rewrite K in H. injection H as <-. eauto.
  - intros (G & u & c & -> & -> & ->). eexists. split; [apply id_ok; split; [exact G|reflexivity]|]. apply K.
Qed.

Lemma outputs_bits f : 0 <= f -> Z.testbit (Z.lor (BIT_SET 0 F_CACHEABLE) OUTPUT_PROTECTIONS_MASK) f = (6 <=? f) && (f <=? 13).
Proof.
  intros H. destruct (Z.leb_spec f 13) as [L|L].
  - assert (In f [0;1;2;3;4;5;6;7;8;9;10;11;12;13]) as I by (cbn; lia). cbn [In] in I.
    repeat (destruct I as [<-|I]; [vm_compute; reflexivity|]). destruct I.
  - rewrite andb_false_r. replace (Z.lor _ _) with (2 ^ 14 - 64) by (vm_compute; reflexivity). apply Z.bits_above_log2; [lia|].
    replace (Z.log2 (2 ^ 14 - 64)) with 13 by (vm_compute; reflexivity). lia.
Qed.
Lemma key_made_of t size sub curve p parameters r bytes : usable p -> soc_rights t sub p parameters = Go r ->
  made_of parameters p (t, size, sub, curve) bytes (MkKey r t (MkParams curve ([], [])) size bytes).
Proof.
  intros P H. apply (rights_go t sub p parameters r P) in H. destruct H as (G & u & c & -> & -> & ->). unfold made_of. cbn [k_type k_size k_params p_curve k_bytes k_rights r_id r_not_before r_not_on_or_after r_usage r_child_usage r_tas].
  split; [reflexivity|]. split; [reflexivity|]. split; [reflexivity|]. split; [reflexivity|]. split; [apply caller_ok|]. split; [reflexivity|]. split; [reflexivity|].
  assert (U1 := us_usage p P). split; [|split].
  - intros f Hf. rewrite (proj2 (usage_flags_table _ (y_usage p) t sub f Hf ltac:(lia))). destruct (Z.leb_spec f 5); [reflexivity|].
    rewrite outputs_bits by lia. replace (6 <=? f) with true by lia. reflexivity.
  - intros f Hf. destruct (Z.eqb_spec (y_usage p) 2) as [E|E]; [|now rewrite Z.testbit_0_l].
    assert (U2 : 1 <= y_child p <= 3) by (destruct (us_child p P); lia).
    rewrite (proj2 (usage_flags_table _ (y_child p) t sub f Hf ltac:(lia))). cbn [andb]. destruct (f <=? 5); [reflexivity|apply Z.testbit_0_l].
  - destruct (us_tas p P) as [L A]. destruct (y_tas p) as [|a l]; [left; split; reflexivity|]. right. split; [discriminate|].
    exists (List.map ta_entry (a :: l)). split; [now apply entries_named|]. reflexivity.
Qed.

Definition made_from parameters p (t : Z * Z * Z * Z) bytes k : Prop :=
  let '(t, size, sub, curve) := t in exists r, soc_rights t sub p parameters = Go r /\ k = MkKey r t (MkParams curve ([], [])) size bytes.
Lemma from_of parameters p t bytes k : usable p -> made_from parameters p t bytes k -> made_of parameters p t bytes k.
Proof. destruct t as [[[t size] sub] curve]. intros P (r & H & ->). now apply key_made_of. Qed.

Section Decrypt.
Variables (J : jlib) (e : surroundings) (v : soc).
Hypothesis GJ : good_jlib J.
Hypothesis Ge : good_surroundings e.
Notation bio := (j_bio J).
Notation U := (j_ulib J).

Lemma otp_go buf p aad tag bytes : zlen (y_key p) < 2 ^ 31 -> zlen buf = zlen (y_key p) ->
  otp_gcm J e v buf (if y_root p =? 0 then 1 else y_root p) p aad tag = Go bytes <->
  v_ladder v = true /\ e_answer e = true /\ zlen tag <= 16 /\ exists root, v_root v (if y_root p =? 0 then 1 else y_root p) = Some root /\
    u_gcm U (ladder_key U root (y_c1 p) (y_c2 p) (y_c3 p)) (y_iv p) aad tag (y_key p) = Some bytes.
Proof.
  intros L B. unfold otp_gcm. destruct (v_root v _) as [root|]; [|split; [discriminate|intros (_ & _ & _ & root & E & _); discriminate]].
  destruct (v_ladder v); cbn [negb]; [|split; [discriminate|intros (E & _); discriminate]].
  destruct (Z.ltb_spec 16 (zlen tag)); [split; [discriminate|lia]|].
  rewrite evp_ok; [|exact L|exact B|intros q; apply GJ].
  destruct (e_answer e); [|split; [discriminate|intros (_ & E & _); discriminate]].
  destruct (u_gcm _ _ _ _ _ _) as [m|] eqn:E.
  - split; [intros H'; injection H' as <-; repeat split; try assumption; exists root; now split|]. intros (_ & _ & _ & r' & E1 & E2). congruence.
  - split; [discriminate|]. intros (_ & _ & _ & r' & E1 & E2). congruence.
Qed.
Lemma no_parent r : restrict_child_rights r None = r.
Proof. reflexivity. Qed.

Lemma decrypt_sound alg p tag parameters k : parsed p -> zlen (y_key p) < 2 ^ 31 -> decrypt_and_verify J e v alg p tag parameters = Go k ->
  alg = txt "A128GCM" /\ usable p /\ y_type p <> [] /\ zlen tag <= 16 /\ good_parameters parameters /\
  exists name t bytes, In (name, t) key_types /\ taken_for v (y_type p) name /\ (y_usage p = 2 -> snd (fst t) <> 2) /\
    authentic J v p tag bytes /\ right_size U t bytes /\ made_from parameters p t bytes k.
Proof.
  intros P L H. unfold decrypt_and_verify in H. apply bind_go in H. destruct H as (aad & Ha & H). apply (aad_sound v alg p aad P) in Ha.
  destruct Ha as (Ealg & Us & Ne & -> & Nh). apply bind_go in H. destruct H as ([[[t size] sub] curve] & Ht & H). apply type_go in Ht.
  destruct Ht as (name & I & T). apply types_same in I. destruct (e_mem e (zlen (y_key p))) as [buf|] eqn:EM; [|discriminate].
  assert (Lb : zlen buf = zlen (y_key p)). { assert (X := proj1 (proj2 Ge) (zlen (y_key p))). rewrite EM in X. exact X. }
  apply bind_go in H. destruct H as (bytes & Hb & H). apply (otp_go buf p (aad_of p) tag bytes L Lb) in Hb. destruct Hb as (_ & _ & Lt & root & Er & Eg).
  apply bind_go in H. destruct H as (r & Hr & H). apply bind_go in H. destruct H as ([] & Hs & H).
  split; [exact Ealg|]. split; [exact Us|]. split; [exact Ne|]. split; [exact Lt|].
  split; [apply (rights_go t sub p parameters r Us) in Hr; apply Hr|].
  exists name, (t, size, sub, curve), bytes. split; [exact I|]. split; [exact T|].
  split. { intros E2. cbn [fst snd]. intros ->. apply (Nh E2). cbn [key_types In] in I. repeat (destruct I as [X|I]; [injection X; intros; subst; try discriminate; auto|]). destruct I. }
  split. { exists (ladder_key U root (y_c1 p) (y_c2 p) (y_c3 p)). split; [|exact Eg]. exists root. do 2 eexists. split; [|repeat split].
    rewrite <- Er. f_equal. assert (X := us_root p Us). destruct (Z.eqb_spec (y_root p) 0), (Z.eqb_spec (y_root p) 2); lia. }
  assert (Lm : zlen bytes = zlen (y_key p)). { apply GJ in Eg. exact Eg. }
  split.
  - unfold right_size. change KT_RSA with 2 in Hs. change KT_EC with 1 in Hs. destruct (t =? 2). { apply need_go in Hs. now apply Z.eqb_eq. }
    destruct (t =? 1). { destruct (u_ec_size U curve bytes =? 0); [discriminate|]. apply need_go in Hs. now apply Z.eqb_eq. }
    apply need_go in Hs. apply Z.eqb_eq in Hs. congruence.
  - unfold stored_key_create in H. destruct (negb (key_type_supports_any _ _ _)); [discriminate|]. destruct (negb (rights_validate_format r)); [discriminate|].
    destruct (negb (e_alloc e 9)); [discriminate|]. rewrite no_parent in H. injection H as <-. exists r. now split.
Qed.
End Decrypt.
