(** Type-J containers: what cannot happen with tidy containers, what happens with others. *)
From Verif Require Import Base M_ObjectStore M_Memory M_Rights M_Mac M_KeyStore M_Unwrap M_Json M_TypeJ
  S_Bytes S_Rights S_Mac S_Unwrap S_Json S_TypeJ P_Bytes P_Rights P_Mac P_Unwrap P_Json P_TypeJ P_TypeJ2.

Section Safe.
Variables (J : jlib) (e : surroundings).
Hypothesis GJ : good_jlib J.
Hypothesis Ge : good_surroundings e.
Hypothesis NF : no_failure e.
Notation bio := (j_bio J).
Notation U := (j_ulib J).

Lemma fields_fine fs : (forall j, says fs "entitledTaIds" j -> exists texts, j = JArray (List.map JString texts)) -> fine (fields_to_rights J e (entries_of fs)).
Proof.
  intros H. unfold fields_to_rights. apply bind_fine; [apply string_fine|]. intros id _. apply bind_fine; [apply need_fine|]. intros _ _.
  apply bind_fine; [apply string_fine|]. intros l _.
  apply bind_fine. { destruct (negb _); [exact I|]. now destruct (b64_decode _ _ _ _ _). }
  intros bytes _. destruct (content_key_rights_to_usage_flags 0 bytes) as [u s]. apply bind_fine; [apply need_fine|]. intros _ _.
  apply bind_fine; [apply field_fine|]. intros v _. destruct (key_usage_to_usage_flags _ _ _ _) as [u2 s2]. apply bind_fine; [apply need_fine|]. intros _ _.
  apply bind_fine; [apply time_fine|]. intros b _. apply bind_fine; [apply time_fine|]. intros a _. apply bind_fine; [apply field_fine|]. intros c _.
  apply bind_fine; [now apply ta_fine|]. intros tas _. exact I.
Qed.
Lemma decoded url place l d : decode_again J e url place l = Go d -> fine (decode_again J e url place l).
Proof. now intros ->. Qed.
Section Key.
Variables (fs : list (list Z * json)) (r : rights) (w : stored_key) (now : Z).
Hypothesis Hw : honest U w.
Hypothesis May : may_unwrap w now.
Hypothesis Aes : k_type w = 0 /\ (k_size w = 16 \/ k_size w = 32).
Hypothesis Short : forall name text, says fs name (JString text) -> zlen text < 2 ^ 30.
Hypothesis HK : forall text, says fs "contentKey" (JString text) -> exists d, padded_content bio text d /\ d <> [].
Hypothesis HI : forall text, says fs "contentKeyTransportIv" (JString text) -> exists d, padded_content bio text d /\ zlen d = 16.

Lemma unwrap_fine alg pkcs7 f c : block_alg J w alg pkcs7 f -> zlen c < 2 ^ 31 -> c <> [] -> fine (unwrap_content J e r w c pkcs7 f).
Proof.
  intros HB L P. unfold unwrap_content. destruct (Z.eqb_spec (zlen c mod 16) 0) as [M|M].
  - assert (Q : 0 < zlen c) by (destruct c; [contradiction|unfold zlen; cbn [List.length]; lia]).
    assert (O := blocks_ok J e GJ Ge r w now Hw May Aes alg pkcs7 f c HB L (fun _ => Q) M). destruct (unwrap_blocks _ _ _ _ _ _ _ _ _ _ _); cbn in *; auto.
  - unfold unwrap_blocks. destruct (e_mem e (zlen c)); [|exact I]. replace (zlen c mod 16 =? 0) with false by lia. exact I.
Qed.
Lemma v1_fine : fine (unwrap_key_v1 J e (entries_of fs) r w).
Proof.
  unfold unwrap_key_v1. apply bind_fine; [apply string_fine|]. intros l Hl. apply string_go in Hl. destruct (HK l Hl) as (d & Cd & Nd).
  rewrite (decode_complete J e GJ 6 l d NF Cd). cbn [bind]. apply bind_fine; [apply need_fine|]. intros _ _.
  apply (unwrap_fine (UEcb false)); [now split| |exact Nd]. apply (content_short J GJ l d (Short _ _ Hl)). now apply padded_some.
Qed.
Lemma v2_fine : fine (unwrap_key_v2 J e (entries_of fs) r w).
Proof.
  unfold unwrap_key_v2. apply bind_fine; [apply field_fine|]. intros va _. apply bind_fine; [apply string_fine|]. intros l Hl. apply string_go in Hl. destruct (HK l Hl) as (d & Cd & Nd).
  rewrite (decode_complete J e GJ 6 l d NF Cd). cbn [bind]. apply bind_fine; [apply field_fine|]. intros vl _.
  assert (L : zlen d < 2 ^ 31) by (apply (content_short J GJ l d (Short _ _ Hl)); now apply padded_some).
  apply bind_fine; [|intros k _; apply bind_fine; [apply need_fine|intros; exact I]].
  destruct (parse_cipher_algorithm (as_string va)) as [[[|] p]|]; [| |exact I].
  - apply bind_fine; [apply string_fine|]. intros t Ht. apply string_go in Ht. destruct (HI t Ht) as (iv & Ci & Li).
    rewrite (decode_complete J e GJ 7 t iv NF Ci). cbn [bind]. rewrite Li. cbn [Z.eqb Pos.eqb negb].
    assert (F := unwrap_fine (UCbc p (Some (Bytes iv))) p _ d (conj eq_refl (conj eq_refl Li)) L Nd).
    destruct (unwrap_content _ _ _ _ _ _ _) as [x|[]]; auto.
  - apply (unwrap_fine (UEcb p)); [now split|exact L|exact Nd].
Qed.
End Key.

Theorem import_safe input wmac wenc now : honest U wenc -> zlen input < 2 ^ 30 - 4 ->
  (forall header payload mac, three_parts input header payload mac -> tidy J header payload mac) ->
  match import_typej J e input wmac wenc now with Made _ => True | Failed i => harmless i end.
Proof.
  intros Hw Hn Ht. unfold import_typej.
  match goal with |- context [match ?s with Go _ => _ | Stop _ => _ end] => enough (fine s) by (destruct s; assumption) end.
  apply bind_fine; [apply need_fine|]. intros _ _. apply bind_fine; [apply need_fine|]. intros _ _.
  apply bind_fine; [apply need_fine|]. intros [] HV. apply need_go, unwrap_allowed_iff in HV.
  apply bind_fine; [apply need_fine|]. intros [] HA. apply need_go, aes_iff in HA.
  unfold typej_unwrap. destruct NF as (N1 & N2 & N3 & N4 & N5 & N6).
  apply bind_fine.
  { unfold unpack_typej. rewrite N1. cbn [negb]. destruct (split_dot input) as [[h rest]|] eqn:E1; [|exact I].
    apply bind_fine; [apply need_fine|]. intros _ _. destruct (split_dot rest) as [[p m]|] eqn:E2; [|exact I].
    destruct (Ht h p m) as [(hd & Hh) (pd & Hp) (md & Hm) _]; [apply three_split; eauto|].
    apply bind_fine; [apply need_fine|]. intros _ _.
    rewrite (decode_url_complete J e GJ 1 h hd NF Hh). cbn [bind]. rewrite (decode_url_complete J e GJ 2 p pd NF Hp). cbn [bind].
    rewrite (decode_url_complete J e GJ 3 m md NF Hm). exact I. }
  intros [[[h p] pd] md] Hup. apply (unpack_go J e GJ) in Hup. destruct Hup as (m & hd & T & Uh & Up & Um).
  apply bind_fine; [apply need_fine|]. intros _ _. destruct (parse _ _ _ _) as [v|] eqn:EP; [|exact I]. destruct v as [ | | | | |before entries]; try exact I.
  rewrite N1. cbn [negb].
  assert (exists fs, states J p fs /\ entries = entries_of fs) as (fs & St & ->).
  { rewrite N3 in EP. destruct (j_yajl J pd) as [es|] eqn:EY; [|unfold parse in EP; rewrite EY in EP; discriminate].
    destruct (proj1 (proj2 GJ) _ _ EY) as (j & ->). rewrite (parse_tree _ _ j _ EY (proj1 Ge)) in EP. destruct (short_names j); [|discriminate].
    destruct j as [ | | | | | |fs]; try discriminate. exists fs. cbn [tree] in EP. split; [now exists pd|]. unfold entries_of. congruence. }
  destruct (tidy_fields _ _ _ _ (Ht h p m T) fs St) as (HK & HI & HT).
  apply bind_fine; [now apply fields_fine|]. intros r _.
  assert (Sh : forall name text, says fs name (JString text) -> zlen text < 2 ^ 30).
  { intros name text. apply (short_text J GJ p); [|exact St]. destruct T as (-> & _). rewrite !zlen_app in Hn. assert (X1 := zlen_nonneg h). assert (X2 := zlen_nonneg m). change (zlen [46]) with 1 in Hn. lia. }
  assert (F1 := v1_fine fs r wenc now Hw HV HA Sh HK HI). assert (F2 := v2_fine fs r wenc now Hw HV HA Sh HK HI).
  destruct (version_is fs) as (n & V & _ & F). destruct (find_field _ _) as [| |v]; [exact F1|contradiction|].
  destruct (_ =? 1); [exact F1|]. destruct (_ || _); [exact F2|exact I].
Qed.

(** Without a tidy header the memory for it is released twice, whatever the rest is. *)
Theorem header_twice input wmac wenc now header payload mac : three_parts input header payload mac -> mac <> [] -> (forall d, ~ url_content bio header d) ->
  may_sign wmac now -> k_type wmac = 0 /\ 16 <= k_size wmac <= 512 -> may_unwrap wenc now -> k_type wenc = 0 /\ (k_size wenc = 16 \/ k_size wenc = 32) ->
  import_typej J e input wmac wenc now = Failed DoubleFree.
Proof.
  intros T Hm Hd HS HM HV HA. unfold import_typej, need.
  assert (S := proj2 (proj2 (proj2 (operations_iff (k_rights wmac) now)))). assert (V := unwrap_allowed_iff wenc now). assert (A := aes_iff wenc).
  assert (M : key_type_supports_hmac (k_type wmac) (k_size wmac) = true <-> k_type wmac = 0 /\ 16 <= k_size wmac <= 512)
    by (unfold key_type_supports_hmac, valid_hmac_size; change KT_SYMMETRIC with 0; lia).
  rewrite (proj2 S HS), (proj2 M HM), (proj2 V HV), (proj2 A HA). cbn [bind].
  unfold typej_unwrap. destruct NF as (N1 & N2 & N3 & N4 & N5 & N6). assert (X := proj1 (three_split _ _ _ _) T). destruct X as (rest & E1 & E2).
  assert (Pm : 0 <? zlen mac = true). { destruct mac; [contradiction|]. unfold zlen. cbn [List.length]. lia. }
  assert (Pr : 0 <? zlen rest = true). { destruct rest; [discriminate|]. unfold zlen. cbn [List.length]. lia. }
  unfold unpack_typej. rewrite N1, E1, Pr. cbn [negb need bind]. rewrite E2, Pm. cbn [need bind].
  unfold decode_again. rewrite N1, N2. cbn [negb]. destruct (b64_decode bio true header (e_junk e 1) true) as [d|] eqn:E; [|reflexivity].
  exfalso. apply (Hd d). apply (url_decode bio header (e_junk e 1)); [apply GJ|exact E].
Qed.
End Safe.

(** ** Concrete libraries *)
Definition digit (c : Z) : option Z :=
  if (65 <=? c) && (c <=? 90) then Some (c - 65) else if (97 <=? c) && (c <=? 122) then Some (c - 71)
  else if (48 <=? c) && (c <=? 57) then Some (c + 4) else if c =? 43 then Some 62 else if c =? 47 then Some 63 else None.
Definition three (a b c d : Z) : list Z := [a * 4 + b / 16; b mod 16 * 16 + c / 4; c mod 4 * 64 + d].
Definition four (a b c d : Z) (last : bool) : option (list Z) :=
  match digit a, digit b, digit c, digit d with
  | Some a, Some b, Some c, Some d => Some (three a b c d)
  | Some a, Some b, Some c, None => if last && (d =? 61) then Some (firstn 2 (three a b c 0)) else None
  | Some a, Some b, None, None => if last && (c =? 61) && (d =? 61) then Some (firstn 1 (three a b 0 0)) else None
  | _, _, _, _ => None
  end.
Fixpoint base64 (l : list Z) : option (list Z) :=
  match l with
  | [] => Some []
  | a :: b :: c :: d :: rest =>
      match four a b c d (match rest with [] => true | _ => false end), base64 rest with
      | Some x, Some y => Some (x ++ y)
      | _, _ => None
      end
  | _ => None
  end.
Lemma base64_good : good_bio base64.
Proof.
  assert (F : forall a b c d last x, four a b c d last = Some x -> zlen x <= 3).
  { intros a b c d last x. unfold four. destruct (digit a), (digit b), (digit c), (digit d); try discriminate;
      repeat match goal with |- context [if ?b then _ else _] => destruct b end; try discriminate; intros H; injection H as <-; unfold zlen; cbn; lia. }
  assert (G : forall n l d, (List.length l <= n)%nat -> base64 l = Some d -> 4 * zlen d <= 3 * zlen l).
  { induction n as [|n IH]; intros l d L H.
    - destruct l; [|cbn in L; lia]. injection H as <-. reflexivity.
    - destruct l as [|a [|b [|c [|f rest]]]]; try discriminate; [injection H as <-; reflexivity|]. cbn [base64] in H.
      destruct (four a b c f _) as [x|] eqn:E; [|discriminate]. apply F in E. destruct (base64 rest) as [y|] eqn:R; [|discriminate].
      injection H as <-. cbn [List.length] in L. specialize (IH rest y ltac:(lia) R). rewrite zlen_app. unfold zlen in *. cbn [List.length]. lia. }
  intros l d H. apply (G (List.length l)); auto.
Qed.
Definition letter (z : Z) : Z := if z <? 26 then z + 65 else if z <? 52 then z + 71 else if z <? 62 then z - 4 else if z =? 62 then 45 else 95.
Fixpoint encode (l : list Z) : list Z :=
  match l with
  | a :: b :: c :: rest => letter (a / 4) :: letter (a mod 4 * 16 + b / 16) :: letter (b mod 16 * 4 + c / 64) :: letter (c mod 64) :: encode rest
  | [a; b] => [letter (a / 4); letter (a mod 4 * 16 + b / 16); letter (b mod 16 * 4)]
  | [a] => [letter (a / 4); letter (a mod 4 * 16)]
  | [] => []
  end.

(** Documents of 300 bytes mean [fs]; a text is a time by its year. *)
Definition toy_yajl (fs : list (list Z * json)) (l : list Z) : option (list event) := if zlen l =? 300 then Some (events (JObject fs)) else None.
Definition toy_time (l : list Z) : option Z := if nth 3 l 0 =? 57 then Some (-1) else Some 1000.
Definition toy_jlib fs : jlib := MkJlib base64 (toy_yajl fs) toy_time P_Mac.toy_lib toy_ulib.
Definition toy_e (junk : list Z) : surroundings := MkSurroundings (fun _ => true) (fun _ => true) true (fun _ _ => true) (fun _ => junk) (fun _ => 1)
  (fun n => if n <? 0 then None else Some (repeat 0 (Z.to_nat n))) true true.
Definition no_junk : list Z := [61; 61; 61; 61].
Definition toy_fields (usage : json) (after : string) (tas : json) (key : string) : list (list Z * json) :=
  [(txt "contentKeyId", JString (txt "film")); (txt "contentKeyRights", JString (txt "AgME")); (txt "contentKeyUsage", usage);
   (txt "contentKeyNotBefore", JString (txt "2020-01-01T00:00:00Z")); (txt "contentKeyNotOnOrAfter", JString (txt after));
   (txt "contentKeyCacheable", JBool true); (txt "entitledTaIds", tas); (txt "contentKey", JString (txt key))].
Definition toy_head : list Z := txt "e30".
Definition toy_payload : list Z := repeat 65 400.
Definition toy_container (header : list Z) (wmac : stored_key) : list Z :=
  header ++ [46] ++ toy_payload ++ [46] ++ encode (l_hmac P_Mac.toy_lib 1 (k_bytes wmac) (header ++ [46] ++ toy_payload)).
Definition one_ta : json := JArray [JString (txt "00112233-4455-6677-8899-aabbccddeeff")].
Definition key16 : string := "AAAAAAAAAAAAAAAAAAAAAA==".
Definition plain_fields := toy_fields (JInt 1) "2030-01-01T00:00:00Z" one_ta key16.

Definition texts_short (fs : list (list Z * json)) : Prop :=
  Forall (fun ev => match ev with EString s => zlen s <= 300 | _ => True end) (events (JObject fs)).
Lemma toy_jgood fs : texts_short fs -> good_jlib (toy_jlib fs).
Proof.
  intros H. split; [apply base64_good|]. split. { intros l es. cbn. unfold toy_yajl. destruct (_ =? _); [|discriminate]. intros X. injection X as <-. now exists (JObject fs). }
  split; [apply P_Mac.toy_good|]. split; [apply toy_ugood|]. split.
  - intros l t. cbn. unfold toy_time. destruct (_ =? _); intros X; injection X as <-; lia.
  - intros l es s. cbn [toy_jlib j_yajl]. unfold toy_yajl. destruct (Z.eqb_spec (zlen l) 300) as [->|]; [|discriminate]. intros X Hin.
    assert (E : es = events (JObject fs)) by congruence. rewrite E in Hin. unfold texts_short in H. rewrite Forall_forall in H. apply (H _ Hin).
Qed.
Lemma toy_egood junk : (4 <= List.length junk)%nat -> good_surroundings (toy_e junk).
Proof.
  intros H. split; [intros i k; reflexivity|]. split; [|split; [intros; exact H|intros; cbn; lia]].
  intros n. cbn [toy_e e_mem]. destruct (Z.ltb_spec n 0); [exact I|]. unfold zlen. rewrite repeat_length. lia.
Qed.
Lemma toy_quiet junk : no_failure (toy_e junk).
Proof. repeat split. intros n H. cbn [toy_e e_mem]. destruct (Z.ltb_spec n 0); [lia|discriminate]. Qed.
Lemma toy_ready : honest toy_ulib (toy_wrapping 0 16) /\ may_sign (toy_wrapping 0 16) 5 /\ may_unwrap (toy_wrapping 0 16) 5 /\
  k_type (toy_wrapping 0 16) = 0 /\ k_size (toy_wrapping 0 16) = 16.
Proof.
  split; [apply toy_honest; now left|]. split; [split; [reflexivity|split; reflexivity || discriminate]|].
  split; [split; [reflexivity|split; reflexivity || discriminate]|]. split; reflexivity.
Qed.

(** Imports of the container that says [fs]. *)
Definition toy_import fs header junk := import_typej (toy_jlib fs) (toy_e junk) (toy_container header (toy_wrapping 0 16)) (toy_wrapping 0 16) (toy_wrapping 0 16) 5.
Definition good_case fs := good_jlib (toy_jlib fs) /\ good_surroundings (toy_e no_junk) /\ no_failure (toy_e no_junk).
Lemma toy_case fs : texts_short fs -> good_case fs.
Proof. intros H. split; [now apply toy_jgood|]. split; [apply toy_egood; cbn; lia|apply toy_quiet]. Qed.
Ltac short_texts := unfold texts_short; cbn [events flat_map fst snd app List.map]; repeat (apply Forall_cons; [first [exact I|vm_compute; discriminate]|]); apply Forall_nil.

Ltac sample := match goal with |- _ = _ => vm_compute; reflexivity end.
Lemma toy_three header : ~ In 46 header -> three_parts (toy_container header (toy_wrapping 0 16)) header toy_payload
  (encode (l_hmac P_Mac.toy_lib 1 (k_bytes (toy_wrapping 0 16)) (header ++ [46] ++ toy_payload))).
Proof. intros H. split; [reflexivity|]. split; [exact H|]. unfold toy_payload. intros X. apply repeat_spec in X. discriminate. Qed.
Lemma toy_parts fs : exists payload mac, three_parts (toy_container toy_head (toy_wrapping 0 16)) toy_head payload mac /\
  genuine (toy_jlib fs) toy_head payload mac (toy_wrapping 0 16) /\ states (toy_jlib fs) payload fs.
Proof.
  exists toy_payload. eexists. split; [apply toy_three; cbn; intuition discriminate|]. split.
  - exists 1%nat. split; [lia|]. split; vm_compute; reflexivity.
  - eexists. split; [exists 0%nat; split; [lia|]; split; [reflexivity|]; vm_compute; reflexivity|]. reflexivity.
Qed.
Lemma toy_accepted fs k : texts_short fs -> toy_import fs toy_head no_junk = Made k ->
  accepted (toy_jlib fs) (toy_e no_junk) (toy_container toy_head (toy_wrapping 0 16)) (toy_wrapping 0 16) (toy_wrapping 0 16) 5 fs k.
Proof.
  intros H E. destruct (toy_case fs H) as (G1 & G2 & G3). split; [exact G1|]. split; [exact G2|]. split; [exact G3|].
  split; [apply toy_ready|]. split; [|exact E]. exists toy_head. apply toy_parts.
Qed.

Lemma usage_type : exists J e input wmac wenc now fs k text, accepted J e input wmac wenc now fs k /\ says fs "contentKeyUsage" (JString text) /\
  has_flag (k_rights k) 1 /\ has_flag (k_rights k) 2 /\ has_flag (k_rights k) 3 /\ has_flag (k_rights k) 4 /\ has_flag (k_rights k) 5.
Proof.
  set (fs := toy_fields (JString (txt "dataOnly")) "2030-01-01T00:00:00Z" one_ta key16).
  assert (exists k, toy_import fs toy_head no_junk = Made k /\ forallb (Z.testbit (r_usage (k_rights k))) [1; 2; 3; 4; 5] = true) as (k & E & F).
  { eexists. split; [vm_compute; reflexivity|reflexivity]. }
  cbn [forallb] in F. rewrite !andb_true_iff in F. do 7 eexists. exists k. eexists. split; [apply toy_accepted; [|exact E]; short_texts|].
  split; [exists (firstn 2 fs), (skipn 3 fs); split; [reflexivity|cbn; intuition discriminate]|]. unfold has_flag. tauto.
Qed.
Lemma expiry_wraps : exists J e input wmac wenc now fs k text, accepted J e input wmac wenc now fs k /\ says fs "contentKeyNotOnOrAfter" (JString text) /\
  j_time J text = Some (-1) /\ r_not_on_or_after (k_rights k) = 2 ^ 64 - 1.
Proof.
  set (fs := toy_fields (JInt 1) "1969-12-31T23:59:59Z" one_ta key16).
  assert (exists k, toy_import fs toy_head no_junk = Made k /\ r_not_on_or_after (k_rights k) = 2 ^ 64 - 1) as (k & E & F).
  { eexists. split; [vm_compute; reflexivity|reflexivity]. }
  do 7 eexists. exists k. eexists. split; [apply toy_accepted; [|exact E]; short_texts|].
  split; [exists (firstn 4 fs), (skipn 5 fs); split; [reflexivity|cbn; intuition discriminate]|]. split; [reflexivity|exact F].
Qed.
Lemma ta_malformed : exists J e input wmac wenc now fs k text, accepted J e input wmac wenc now fs k /\ says fs "entitledTaIds" (JArray [JString text]) /\
  (forall id, ~ uuid_text text id) /\ hd 0 (r_tas (k_rights k)) <> 0.
Proof.
  set (fs := toy_fields (JInt 1) "2030-01-01T00:00:00Z" (JArray [JString (txt "00112233-4455-6677-8899-aabbccddeexx")]) key16).
  assert (exists k, toy_import fs toy_head no_junk = Made k /\ (hd 0 (r_tas (k_rights k)) =? 0) = false) as (k & E & F).
  { eexists. split; [vm_compute; reflexivity|reflexivity]. }
  do 7 eexists. exists k. eexists. split; [apply toy_accepted; [|exact E]; short_texts|].
  split; [exists (firstn 6 fs), (skipn 7 fs); split; [reflexivity|cbn; intuition discriminate]|]. split; [|lia].
  intros id X. apply (convert_complete _ _ (repeat 0 16)) in X; [|reflexivity]. revert X. vm_compute. discriminate.
Qed.
Lemma junk_decides : exists J e e' input wmac wenc now fs k, accepted J e input wmac wenc now fs k /\ good_surroundings e' /\ same_but_junk e e' /\
  import_typej J e' input wmac wenc now = Failed (Refused INVALID_KEY_FORMAT).
Proof.
  set (fs := toy_fields (JInt 1) "2030-01-01T00:00:00Z" one_ta "AAAAAAAAAAAAAAAAAAAAAA").
  assert (exists k, toy_import fs toy_head no_junk = Made k) as (k & E) by (eexists; vm_compute; reflexivity).
  eexists. eexists. exists (toy_e [65; 65; 65; 65]). do 5 eexists. exists k. split; [apply toy_accepted; [|exact E]; short_texts|].
  split; [apply toy_egood; cbn; lia|]. split; [repeat split|]. vm_compute. reflexivity.
Qed.
Lemma toy_harm fs i : texts_short fs -> toy_import fs toy_head no_junk = Failed i -> harmful i.
Proof.
  intros H E. destruct (toy_case fs H) as (G1 & G2 & G3). destruct (toy_parts fs) as (p & m & T & G & St).
  exists (toy_jlib fs), (toy_e no_junk). do 4 eexists. exists toy_head, p, m, fs.
  split; [exact G1|]. split; [exact G2|]. split; [exact G3|]. split; [apply toy_ready|]. split; [exact T|]. split; [exact G|]. split; [exact St|exact E].
Qed.
Lemma tas_harm : harmful BadAccess.
Proof. apply (toy_harm (toy_fields (JInt 1) "2030-01-01T00:00:00Z" (JInt 3) key16)); [short_texts|vm_compute; reflexivity]. Qed.
Lemma key_harm : harmful DoubleFree.
Proof. apply (toy_harm (toy_fields (JInt 1) "2030-01-01T00:00:00Z" one_ta "not base64")); [short_texts|vm_compute; reflexivity]. Qed.

Lemma not_in_names (name : list Z) (l : list (list Z)) : existsb (fun x => if list_eq_dec Z.eq_dec x name then true else false) l = false -> ~ In name l.
Proof.
  intros E H. assert (X : existsb (fun x => if list_eq_dec Z.eq_dec x name then true else false) l = true); [|congruence].
  apply existsb_exists. exists name. split; [exact H|]. now destruct (list_eq_dec Z.eq_dec name name).
Qed.
Lemma some_padded bio l d : zlen l mod 4 = 0 -> some_content bio l d -> padded_content bio l d.
Proof.
  intros H (more & L & M & B). rewrite zlen_app in M. assert (Z0 : zlen more = 0) by (unfold zlen in *; lia).
  destruct more; [|unfold zlen in Z0; cbn [List.length] in Z0; lia]. rewrite app_nil_r in B. now split.
Qed.
Lemma rights_content J (C C' : list Z -> list Z -> Prop) fs r : (forall text d, says fs "contentKeyRights" (JString text) -> C text d -> C' text d) ->
  stated_rights J C fs r -> stated_rights J C' fs r.
Proof. intros H (A & (t & b & F & Ct & B) & D). split; [exact A|]. split; [exists t, b; split; [exact F|]; split; [now apply H|exact B]|exact D]. Qed.
Lemma sound_padded r : fields_to_rights (toy_jlib plain_fields) (toy_e no_junk) (entries_of plain_fields) = Go r ->
  stated_rights (toy_jlib plain_fields) (padded_content base64) plain_fields r.
Proof.
  intros R. destruct (toy_case plain_fields ltac:(short_texts)) as (G1 & G2 & _). apply (fields_sound _ _ G1 G2) in R. revert R. apply rights_content.
  intros text d F. apply some_padded. assert (X := proj2 (string_go plain_fields "contentKeyRights" text) F).
  vm_compute in X. injection X as <-. reflexivity.
Qed.
Ltac field_at n := exists (firstn n plain_fields), (skipn (S n) plain_fields); split; [reflexivity|apply not_in_names; vm_compute; reflexivity].
Lemma toy_accept_case : exists hd r alg enc bytes payload mac, let J := toy_jlib plain_fields in let w := toy_wrapping 0 16 in
  good_jlib J /\ good_surroundings (toy_e no_junk) /\ no_failure (toy_e no_junk) /\ honest (j_ulib J) w /\ zlen (toy_container toy_head w) < 2 ^ 30 - 4 /\
  may_sign w 5 /\ three_parts (toy_container toy_head w) toy_head payload mac /\ url_content (j_bio J) toy_head hd /\
  genuine J toy_head payload mac w /\ states J payload plain_fields /\ short_names (JObject plain_fields) = true /\ known_tas plain_fields /\
  stated_rights J (padded_content (j_bio J)) plain_fields r /\ stated_transport (padded_content (j_bio J)) plain_fields alg /\
  stated_key (padded_content (j_bio J)) plain_fields enc /\ unwrappable (j_ulib J) alg r 0 None w 5 enc bytes /\ stated_length plain_fields (zlen bytes).
Proof.
  assert (exists r, fields_to_rights (toy_jlib plain_fields) (toy_e no_junk) (entries_of plain_fields) = Go r) as (r & R) by (eexists; vm_compute; reflexivity).
  destruct (toy_case plain_fields ltac:(short_texts)) as (G1 & G2 & G3).
  assert (V : stated_version plain_fields 1) by (left; split; [apply not_in_names; vm_compute; reflexivity|reflexivity]).
  destruct (toy_parts plain_fields) as (p & m & T & G & St).
  exists (txt "{}"), r, (UEcb false), (repeat 0 16). eexists. exists p, m. cbv zeta.
  split; [exact G1|]. split; [exact G2|]. split; [exact G3|]. split; [apply toy_ready|]. split; [vm_compute; reflexivity|]. split; [apply toy_ready|].
  split; [exact T|]. split; [exists 1%nat; split; [lia|]; split; vm_compute; reflexivity|]. split; [exact G|]. split; [exact St|]. split; [vm_compute; reflexivity|].
  split. { right. exists [txt "00112233-4455-6677-8899-aabbccddeeff"]. split; [field_at 6%nat|]. split; [cbn; lia|]. repeat constructor. }
  split; [apply (sound_padded r R)|]. split; [left; now split|]. split. { exists (txt key16). split; [field_at 7%nat|]. split; vm_compute; reflexivity. }
  split; [|now left]. split; [apply toy_ready|]. split; [vm_compute; reflexivity|]. split; [split; [reflexivity|now left]|]. split; [now left|].
  split. { revert R. vm_compute. intros R. injection R as <-. reflexivity. }
  split; [reflexivity|]. apply sz_symmetric. vm_compute. split; discriminate.
Qed.
Lemma toy_tidy : exists payload mac, three_parts (toy_container toy_head (toy_wrapping 0 16)) toy_head payload mac /\ tidy (toy_jlib plain_fields) toy_head payload mac.
Proof.
  eexists. eexists. split; [apply toy_three; cbn; intuition discriminate|]. split.
  - exists (txt "{}"), 1%nat. split; [lia|]. split; vm_compute; reflexivity.
  - eexists. exists 0%nat. split; [lia|]. split; [reflexivity|]. vm_compute. reflexivity.
  - eexists. exists 1%nat. split; [lia|]. split; [|vm_compute]; reflexivity.
  - intros fs (doc & _ & Y). cbn [toy_jlib j_yajl] in Y. unfold toy_yajl in Y. destruct (_ =? _); [|discriminate].
    assert (fs = plain_fields) as ->.
    { assert (X : JObject fs = JObject plain_fields); [|congruence]. apply events_one; [vm_compute; reflexivity|discriminate|congruence]. }
    split; [|split].
    + intros text F. assert (X := proj2 (string_go plain_fields "contentKey" text) F). vm_compute in X. injection X as <-.
      exists (repeat 0 16). split; [split; vm_compute; reflexivity|discriminate].
    + intros text F. assert (X := proj2 (string_go plain_fields "contentKeyTransportIv" text) F). vm_compute in X. discriminate.
    + intros j F. apply find_iff in F. exists [txt "00112233-4455-6677-8899-aabbccddeeff"]. apply tree_one. vm_compute in F. vm_compute. congruence.
Qed.

Definition iv_fields : list (list Z * json) :=
  plain_fields ++ [(txt "contentKeyContainerVersion", JInt 2); (txt "contentKeyTransportAlgorithm", JString (txt "aesCbcNone"));
                   (txt "contentKeyLength", JInt 16); (txt "contentKeyTransportIv", JString (txt "AAAA"))].
Lemma iv_harm : harmful_iv DoubleFree.
Proof.
  assert (H : texts_short iv_fields) by (unfold iv_fields, plain_fields, toy_fields; short_texts).
  assert (E : toy_import iv_fields toy_head no_junk = Failed DoubleFree) by (vm_compute; reflexivity).
  destruct (toy_case iv_fields H) as (G1 & G2 & G3). destruct (toy_parts iv_fields) as (p & m & T & G & St).
  exists (toy_jlib iv_fields), (toy_e no_junk). do 4 eexists. exists toy_head, p, m, iv_fields, (txt "AAAA"), [0; 0; 0].
  split; [exact G1|]. split; [exact G2|]. split; [exact G3|]. split; [apply toy_ready|]. split; [exact T|]. split; [exact G|]. split; [exact St|].
  split. { intros text F. assert (X := proj2 (string_go iv_fields "contentKey" text) F). vm_compute in X. injection X as <-. exists (repeat 0 16). split; vm_compute; reflexivity. }
  split. { apply (proj1 (string_go iv_fields "contentKeyTransportIv" (txt "AAAA"))). vm_compute. reflexivity. }
  split; [split; vm_compute; reflexivity|]. split; [discriminate|exact E].
Qed.
