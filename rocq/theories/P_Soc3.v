(** SoC containers: documented ones are imported. *)
From Verif Require Import Base M_ObjectStore M_Memory M_Rights M_Mac M_KeyStore M_Kdf M_Unwrap M_Json M_TypeJ M_Soc
  S_Bytes S_Rights S_Mac S_Unwrap S_Json S_TypeJ S_Soc P_Bytes P_Rights P_Mac P_Unwrap P_Json P_TypeJ P_TypeJ2 P_Soc P_Soc2.

Lemma append_ok a b : zlen a + zlen b <= 1300 -> append a b = Go (a ++ b).
Proof. intros H. unfold append, MAX_AAD. rewrite zlen_app. now replace (1300 <? zlen a + zlen b) with false by lia. Qed.
Lemma append_tas_ok l : forall a, Forall (fun s => zlen s = 36) l -> zlen a + 36 * zlen l <= 1300 -> append_tas a l = Go (a ++ flat_map to_lower l).
Proof.
  induction l as [|s l IH]; intros a F H; cbn [append_tas flat_map]; [now rewrite app_nil_r|]. inversion F as [|x y Ls Fl]; subst.
  assert (Lt : zlen (to_lower s) = 36) by (unfold zlen, to_lower in *; now rewrite map_length).
  assert (Lc : zlen (s :: l) = 1 + zlen l) by (unfold zlen; cbn [List.length]; lia).
  rewrite append_ok by (assert (X := zlen_nonneg l); lia). cbn [bind]. rewrite IH; [now rewrite <- app_assoc|exact Fl|rewrite zlen_app; lia].
Qed.
Lemma name_short name t : In (name, t) key_types -> 0 < zlen (txt name) <= 12.
Proof. intros I. cbn [key_types In] in I. repeat (destruct I as [X|I]; [injection X as <- <-; vm_compute; split; [reflexivity|discriminate]|]). destruct I. Qed.
Lemma type_found v name t : v_strict v = false -> In (name, t) key_types -> find_type v (txt name) types = Go t.
Proof.
  destruct v as [a b c d f g]. cbn [v_strict]. intros -> I. cbn [key_types In] in I.
  repeat (destruct I as [X|I]; [injection X as <- <-; vm_compute; reflexivity|]). destruct I.
Qed.
Lemma hmac_found v name t : v_strict v = false -> In (name, t) key_types -> is_one_of v (txt name) "HMAC-128" "HMAC-160" "HMAC-256" = Go (snd (fst t) =? 2).
Proof.
  destruct v as [a b c d f g]. cbn [v_strict]. intros -> I. cbn [key_types In] in I.
  repeat (destruct I as [X|I]; [injection X as <- <-; vm_compute; reflexivity|]). destruct I.
Qed.
Lemma type_size t : (exists name, In (name, t) key_types) -> let '(t, size, sub, curve) := t in
  (t = 0 \/ t = 1 \/ t = 2) /\ 0 < size /\ key_type_supports_any t curve size = true.
Proof.
  intros (name & I). cbn [key_types In] in I.
  repeat (destruct I as [X|I]; [injection X as <- <-; split; [lia|]; split; [lia|vm_compute; reflexivity]|]). destruct I.
Qed.

Lemma usable_parsed p : usable p -> parsed p.
Proof. intros [V R O Us C I C3 T]. constructor; try assumption; try lia. Qed.
Lemma aad_complete v p t : v_strict v = false -> documented p t -> build_aad v (txt "A128GCM") p = Go (aad_of p).
Proof.
  intros St (P & (name & I & Ty) & Nh). unfold build_aad. destruct (list_eq_dec _ _ _) as [_|X]; [|now contradiction X]. cbn [need bind].
  assert (V := us_version p P). replace (4 <=? y_version p) with true by lia. cbn [need bind]. rewrite (root_text_is p (usable_parsed p P)).
  assert (Ls := name_short name t I). rewrite Ty. replace (0 <? zlen (txt name)) with true by lia. cbn [need bind].
  assert (Lr : zlen (root_text p) <= 6) by (unfold root_text; destruct (y_root p) as [|[q|[q|q|]|]|q]; vm_compute; discriminate).
  rewrite append_ok by (rewrite !zlen_app; change (zlen (txt "A128GCM")) with 7; change (zlen [y_version p]) with 1; lia). cbn [bind].
  assert (Uu := us_usage p P). replace ((0 <? y_usage p) && (y_usage p <=? 3)) with true by lia. cbn [need bind].
  assert (Hm : (if y_usage p =? 2 then is_one_of v (txt name) "HMAC-128" "HMAC-160" "HMAC-256" else Go false) = Go false).
  { destruct (Z.eqb_spec (y_usage p) 2) as [E|E]; [|reflexivity]. rewrite (hmac_found v name t St I). specialize (Nh E). f_equal. lia. }
  rewrite Hm. cbn [bind negb need]. set (a1 := (_ ++ _ ++ _) ++ txt name).
  assert (L1 : zlen a1 <= 26) by (unfold a1; rewrite !zlen_app; change (zlen (txt "A128GCM")) with 7; change (zlen [y_version p]) with 1; lia).
  rewrite append_ok by (change (zlen [y_usage p]) with 1; lia). cbn [bind].
  set (ch := if y_usage p =? 2 then [y_child p] else []).
  assert (Lc : zlen ch <= 1) by (unfold ch; destruct (_ =? _); vm_compute; discriminate).
  assert (Ch : (if y_usage p =? 2 then let* _ := need ((0 <? y_child p) && (y_child p <=? 3)) INVALID_KEY_FORMAT in append (a1 ++ [y_usage p]) [y_child p]
    else Go (a1 ++ [y_usage p])) = Go ((a1 ++ [y_usage p]) ++ ch)).
  { unfold ch. destruct (Z.eqb_spec (y_usage p) 2) as [E|E]; [|now rewrite app_nil_r]. assert (Uc := us_child p P).
    replace ((0 <? y_child p) && (y_child p <=? 3)) with true by lia. cbn [need bind]. apply append_ok. rewrite zlen_app. change (zlen [y_usage p]) with 1. change (zlen [y_child p]) with 1. lia. }
  rewrite Ch. cbn [bind]. destruct (us_c p P) as (P1 & P2 & P3). assert (Pi := us_iv p P). destruct (us_tas p P) as (T1 & T2).
  set (a2 := (a1 ++ _) ++ ch). assert (L2 : zlen a2 <= 28) by (unfold a2; rewrite !zlen_app; change (zlen [y_usage p]) with 1; lia).
  rewrite append_ok by lia. cbn [bind]. rewrite append_ok by (rewrite !zlen_app; lia). cbn [bind]. rewrite append_ok by (rewrite !zlen_app; lia). cbn [bind].
  rewrite append_ok by (rewrite !zlen_app; lia). cbn [bind]. rewrite append_tas_ok; [|exact T2|rewrite !zlen_app; unfold zlen at 6; lia].
  f_equal. unfold a2, a1, ch, aad_of. rewrite Ty, <- !app_assoc. reflexivity.
Qed.

Section Import.
Variables (J : jlib) (e : surroundings) (v : soc).
Hypothesis GJ : good_jlib J.
Hypothesis Ge : good_surroundings e.
Hypothesis Gv : good_soc v.
Hypothesis NF : no_failure e.
Hypothesis SW : soc_works v.
Notation bio := (j_bio J).
Notation U := (j_ulib J).

Lemma loop_ok texts : forall i, 0 <= i -> i + zlen texts <= 32 -> Forall (fun s => zlen s = 36) texts ->
  soc_ta_loop e i (List.map tree (List.map JString texts)) = Go texts.
Proof.
  induction texts as [|s l IH]; intros i Hi Hl F; [reflexivity|]. inversion F as [|x y Ls Fl]; subst. cbn [List.map tree soc_ta_loop as_string].
  rewrite Ls. cbn [Z.eqb Pos.eqb need bind]. assert (Lc : zlen (s :: l) = 1 + zlen l) by (unfold zlen; cbn [List.length]; lia).
  replace (Z.of_nat MAX_TAS <=? i) with false by (assert (X := zlen_nonneg l); change (Z.of_nat MAX_TAS) with 32; lia). cbn [bind].
  rewrite IH; [reflexivity|lia|lia|exact Fl].
Qed.
Lemma field_is fs name j : says fs name j -> field_of name (entries_of fs) = Go (tree j).
Proof. intros H. apply field_go. now exists j. Qed.
Lemma into_padded place n old text d : padded_content bio text d -> zlen d = n -> zlen old = n -> decode_into J e false place n old (Some (VString text)) = Go d.
Proof.
  intros C L Lo. unfold decode_into. cbn [as_string]. rewrite (proj1 (proj2 NF)). rewrite (proj2 (plain_decode bio text _ d (proj1 GJ) (proj1 C)) C).
  replace (n <? zlen d) with false by lia. rewrite skipn_all2 by (unfold zlen in *; lia). now rewrite app_nil_r.
Qed.
Lemma into_url place n old text d : url_content bio text d -> zlen d = n -> zlen old = n -> decode_into J e true place n old (Some (VString text)) = Go d.
Proof.
  intros C L Lo. unfold decode_into. cbn [as_string]. rewrite (proj1 (proj2 NF)). rewrite (proj2 (url_decode bio text _ d (proj1 GJ)) C).
  replace (n <? zlen d) with false by lia. rewrite skipn_all2 by (unfold zlen in *; lia). now rewrite app_nil_r.
Qed.
Lemma byte_small z : 0 <= z < 256 -> byte_of (tree (JInt z)) = z.
Proof. intros H. cbn. apply Z.mod_small. lia. Qed.

Lemma same_name s : same_as v (txt s) (txt s) = Go true.
Proof.
  unfold same_as. rewrite (proj2 (proj2 SW)). cbn [andb]. rewrite firstn_app, Nat.sub_diag, firstn_O, firstn_all, app_nil_r.
  destruct (list_eq_dec _ _ _) as [_|X]; [reflexivity|now contradiction X].
Qed.
Lemma common_not : same_as v (txt "common") (txt "unique") = Go false.
Proof. unfold same_as. rewrite (proj2 (proj2 SW)). vm_compute. reflexivity. Qed.

Lemma payload_complete fs p : usable p -> says_plainly J fs p -> parse_payload J e v (entries_of fs) = Go p.
Proof.
  intros P [S1 S2 S3 (tk & S4 & K4) (ti & S5 & K5) S6 S7 S8 (t1 & S9 & K9) (t2 & S10 & K10) (t3 & S11 & K11)]. unfold parse_payload.
  assert (V := us_version p P). assert (Uu := us_usage p P). destruct (us_c p P) as (P1 & P2 & P3). assert (Pi := us_iv p P).
  rewrite (field_is _ _ _ S1). cbn [bind]. rewrite byte_small by lia.
  assert (R : root_of e v (y_version p) (entries_of fs) = Go (y_root p)).
  { unfold root_of. destruct (Z.leb_spec 5 (y_version p)) as [H5|H5]; [|now rewrite (us_old p P H5)].
    destruct S2 as [|[(N & ->)|[(F & ->)|(F & ->)]]]; [lia| | |].
    - now rewrite (find_none_iff _ _ N).
    - rewrite (find_iff _ _ _ F). cbn [tree as_string]. now rewrite same_name.
    - rewrite (find_iff _ _ _ F). cbn [tree as_string]. rewrite common_not. cbn [bind]. now rewrite same_name. }
  rewrite R. cbn [bind]. rewrite (proj2 (string_go fs "keyType" _) S3). cbn [bind].
  rewrite (field_is _ _ _ S4). cbn [bind tree]. unfold key_text. rewrite (proj1 NF), (proj1 (proj2 NF)). cbn [negb as_string].
  rewrite (proj2 (plain_decode bio tk _ _ (proj1 GJ) (proj1 K4)) K4). cbn [bind].
  rewrite (field_is _ _ _ S5). cbn [bind tree]. rewrite (into_padded 7 12 _ ti _ K5 Pi) by reflexivity. cbn [bind].
  rewrite (field_is _ _ _ S6). cbn [bind]. rewrite byte_small by lia.
  assert (C : (if y_usage p =? 2 then match find_field (txt "decryptedKeyUsage") (entries_of fs) with
      | FoundNone => Go 0 | FoundWild => Stop BadAccess | Found x => Go (byte_of x) end else Go 0) = Go (y_child p)).
  { destruct (us_child p P) as [(E & Hc)|(E & Hc)].
    - rewrite E, (find_iff _ _ _ (S7 E)). cbn [Z.eqb Pos.eqb]. rewrite byte_small by lia. reflexivity.
    - replace (y_usage p =? 2) with false by lia. now rewrite Hc. }
  rewrite C. cbn [bind]. destruct (us_tas p P) as (T1 & T2).
  assert (T : soc_tas e (entries_of fs) = Go (y_tas p)).
  { unfold soc_tas. destruct S8 as [(N & ->)|F]; [now rewrite (find_none_iff _ _ N)|]. rewrite (find_iff _ _ _ F). cbn [tree as_array].
    rewrite (proj1 NF). apply loop_ok; [lia|unfold zlen; lia|exact T2]. }
  rewrite T. cbn [bind]. rewrite (field_is _ _ _ S9). cbn [bind tree]. rewrite (into_padded 11 16 _ t1 _ K9 P1) by apply Gv. cbn [bind].
  rewrite (field_is _ _ _ S10). cbn [bind tree]. rewrite (into_url 12 16 _ t2 _ K10 P2) by apply Gv. cbn [bind].
  rewrite (field_is _ _ _ S11). cbn [bind tree]. rewrite (into_padded 13 16 _ t3 _ K11 P3) by apply Gv. cbn [bind]. now destruct p.
Qed.

Lemma id_length parameters : List.length (match parameters with None => repeat 0 64 | Some q => big_endian 8 (sp_id q) ++ repeat 0 56 end) = 64%nat /\
  nth_error (match parameters with None => repeat 0 64 | Some q => big_endian 8 (sp_id q) ++ repeat 0 56 end) 63 = Some 0.
Proof. destruct parameters; split; reflexivity. Qed.

Theorem soc_complete input parameters header payload mac hs fs tag p t bytes : zlen input < 2 ^ 30 - 4 -> good_parameters parameters ->
  three_parts input header payload mac -> mac <> [] -> url_content bio mac tag -> zlen tag <= 16 ->
  states J header hs -> short_names (JObject hs) = true -> says hs "alg" (JString (txt "A128GCM")) ->
  states J payload fs -> short_names (JObject fs) = true -> says_plainly J fs p -> documented p t ->
  authentic J v p tag bytes -> right_size U t bytes ->
  exists k, import_soc J e v input parameters = Made k /\ made_of parameters p t bytes k.
Proof.
  intros Hn Gp T Hm Um Lt (hdoc & Uh & Yh) Sh Ha (pdoc & Up & Yp) Sp Pl D A R. assert (St : states J payload fs) by (exists pdoc; now split).
  enough (exists k, soc_unwrap J e v input parameters = Go k /\ made_of parameters p t bytes k) as (k & K & M) by (exists k; split; [now apply import_made|exact M]).
  unfold soc_unwrap. rewrite (unpack_complete J e GJ input header payload mac hdoc pdoc tag NF T Hm Uh Up Um). cbn [bind].
  rewrite (fields_made J _ hdoc hs (proj1 Gv) (proj1 SW) Yh Sh). cbn [bind]. rewrite (proj2 (string_go hs "alg" _) Ha). cbn [bind].
  rewrite (fields_made J _ pdoc fs Ge NF Yp Sp). cbn [bind]. rewrite (payload_complete fs p (proj1 D) Pl). cbn [bind].
  unfold decrypt_and_verify. rewrite (aad_complete v p t (proj2 (proj2 SW)) D). cbn [bind].
  destruct D as (P & (name & I & Ty) & Nh). rewrite Ty, (type_found v name t (proj2 (proj2 SW)) I). cbn [bind].
  assert (Ts := type_size t (ex_intro _ name I)). destruct t as [[[t size] sub] curve]. destruct Ts as (Tt & Tp & Tk).
  assert (L : zlen (y_key p) < 2 ^ 31).
  { destruct (sp_key_is _ _ _ Pl) as (text & F & C). apply (content_short J GJ text); [|now apply padded_some].
    exact (short_text J GJ payload fs _ _ (part_short _ _ _ _ T Hn) St F). }
  destruct (e_mem e (zlen (y_key p))) as [buf|] eqn:EM; [|destruct NF as (_ & _ & _ & _ & _ & N6); destruct (N6 _ (zlen_nonneg (y_key p)) EM)].
  assert (Lb : zlen buf = zlen (y_key p)). { assert (X := proj1 (proj2 Ge) (zlen (y_key p))). rewrite EM in X. exact X. }
  destruct A as (key & (root & k1 & k2 & Er & -> & -> & ->) & Eg).
  assert (O : otp_gcm J e v buf (if y_root p =? 0 then 1 else y_root p) p (aad_of p) tag = Go bytes).
  { apply (otp_go J e v GJ buf p (aad_of p) tag bytes L Lb). split; [apply SW|]. split; [apply NF|]. split; [exact Lt|]. exists root.
    split; [|exact Eg]. rewrite <- Er. f_equal. assert (X := us_root p P). destruct (Z.eqb_spec (y_root p) 0), (Z.eqb_spec (y_root p) 2); lia. }
  rewrite O. cbn [bind].
  assert (exists r, soc_rights t sub p parameters = Go r /\ rights_validate_format r = true) as (r & Er' & Fr).
  { eexists. split; [apply (rights_go t sub p parameters _ P); split; [exact Gp|]; do 2 eexists; split; [reflexivity|split; reflexivity]|].
    destruct (id_length parameters) as (L1 & L2). apply validate_format_iff; [exact L1|]. exists 63%nat. split; [lia|exact L2]. }
  rewrite Er'. cbn [bind]. assert (Lm : zlen bytes = zlen (y_key p)) by (apply GJ in Eg; exact Eg).
  assert (Sz : (if t =? KT_RSA then need (u_rsa_size U bytes =? size) INVALID_KEY_FORMAT
     else if t =? KT_EC then let n := u_ec_size U curve bytes in if n =? 0 then Stop NoKey else need (n =? size) INVALID_KEY_FORMAT
     else need (zlen (y_key p) =? size) INVALID_KEY_FORMAT) = Go tt).
  { unfold right_size in R. change KT_RSA with 2. change KT_EC with 1. destruct (t =? 2). { apply need_go. now apply Z.eqb_eq. }
    destruct (t =? 1). { cbn zeta. rewrite R. replace (size =? 0) with false by lia. now rewrite Z.eqb_refl. }
    apply need_go. apply Z.eqb_eq. congruence. }
  cbn zeta in Sz. rewrite Sz. cbn [bind]. unfold stored_key_create. cbn [p_curve]. rewrite Tk, Fr, (proj1 NF). cbn [negb].
  eexists. split; [reflexivity|]. rewrite no_parent. now apply key_made_of.
Qed.

(** A tag of one byte: one of 256 fits, whatever is stated. *)
Theorem short_tag parameters header payload hs fs p t (text : Z -> list Z) : cuts_tags U -> (forall root, v_root v root <> None) ->
  (forall b, 0 <= b < 256 -> url_content bio (text b) [b] /\ text b <> []) ->
  (forall b, 0 <= b < 256 -> zlen (header ++ [46] ++ payload ++ [46] ++ text b) < 2 ^ 30 - 4) -> ~ In 46 header -> ~ In 46 payload ->
  good_parameters parameters -> states J header hs -> short_names (JObject hs) = true -> says hs "alg" (JString (txt "A128GCM")) ->
  states J payload fs -> short_names (JObject fs) = true -> says_plainly J fs p -> documented p t ->
  (forall bytes, zlen bytes = zlen (y_key p) -> right_size U t bytes) ->
  exists b bytes k, 0 <= b < 256 /\ import_soc J e v (header ++ [46] ++ payload ++ [46] ++ text b) parameters = Made k /\ made_of parameters p t bytes k.
Proof.
  intros CT Hr Ht Hn N1 N2 Gp S1 S2 S3 S4 S5 S6 D Rs.
  destruct (v_root v (if y_root p =? 2 then 2 else 1)) as [root|] eqn:Er; [|destruct (Hr _ Er)].
  destruct (CT (u_ecb U (u_ecb U (u_ecb U root (y_c1 p)) (y_c2 p)) (y_c3 p)) (y_iv p) (aad_of p) (y_key p)) as (tag & m & L & F & Lm & G).
  destruct tag as [|b tag]; [discriminate|]. inversion F as [|x l Hb _]; subst. exists b, m. destruct (Ht b Hb) as (C & Ne).
  destruct (soc_complete _ parameters header payload (text b) hs fs [b] p t m (Hn b Hb) Gp (conj eq_refl (conj N1 N2)) Ne C ltac:(unfold zlen; cbn [List.length]; lia) S1 S2 S3 S4 S5 S6 D) as (k & K & M).
  - eexists. split; [exists root; do 2 eexists; split; [exact Er|repeat split]|]. exact (G 1%nat ltac:(lia)).
  - now apply Rs.
  - exists k. repeat split; try assumption; lia.
Qed.
End Import.
