(** SoC containers: what cannot happen with tidy containers, what happens with others. *)
From Verif Require Import Base M_ObjectStore M_Memory M_Rights M_Mac M_KeyStore M_Kdf M_Unwrap M_Json M_TypeJ M_Soc
  S_Bytes S_Rights S_Mac S_Unwrap S_Json S_TypeJ S_Soc P_Bytes P_Rights P_Mac P_Unwrap P_Json P_TypeJ P_TypeJ2 P_TypeJ3 P_Soc P_Soc2 P_Soc3.

Definition mild {A} (s : step A) : Prop := match s with Stop BadAccess | Stop DoubleFree => False | _ => True end.
Lemma bind_mild {A B} (s : step A) (f : A -> step B) : mild s -> (forall a, s = Go a -> mild (f a)) -> mild (bind s f).
Proof. destruct s as [a|[]]; cbn; auto. Qed.
Lemma need_mild b s : mild (need b s). Proof. destruct b; exact I. Qed.
Lemma fine_mild {A} (s : step A) : fine s -> mild s. Proof. destruct s as [a|[]]; cbn; auto. Qed.

Section Safe.
Variables (J : jlib) (e : surroundings) (v : soc).
Hypothesis GJ : good_jlib J.
Hypothesis Ge : good_surroundings e.
Hypothesis Gv : good_soc v.
Hypothesis NF : no_failure e.
Hypothesis NH : no_failure (v_header v).
Notation bio := (j_bio J).
Notation U := (j_ulib J).

Lemma once_mild place l : mild (decode_once J e place l).
Proof. unfold decode_once. destruct (negb _); [exact I|]. now destruct (b64_decode _ _ _ _ _). Qed.
Lemma unpack_mild input : mild (unpack_soc J e input).
Proof.
  unfold unpack_soc. rewrite (proj1 NF). cbn [negb]. destruct (split_dot input) as [[h rest]|]; [|exact I]. apply bind_mild; [apply need_mild|]. intros _ _.
  destruct (split_dot rest) as [[p m]|]; [|exact I]. apply bind_mild; [apply need_mild|]. intros _ _.
  repeat (apply bind_mild; [apply once_mild|]; intros ? _). exact I.
Qed.
Lemma fields_mild e' doc : no_failure e' -> mild (fields_of J e' doc).
Proof. intros N. unfold fields_of. destruct (parse _ _ _ _) as [[ | | | | | ]|]; try exact I. now rewrite (proj1 N). Qed.
Lemma same_mild s lit n : comparable v s n -> n <= zlen lit + 1 -> mild (same_as v s lit).
Proof.
  intros [S|L] H; unfold same_as; [rewrite S; exact I|]. replace (zlen lit + 1 <? zlen s) with false by lia. rewrite andb_false_r. exact I.
Qed.
Lemma into_mild (url : bool) place n old x : (forall s : list Z, as_string x = Some s -> exists d : list Z, ((if url then url_content bio s d else padded_content bio s d) : Prop) /\ zlen d <= n) ->
  mild (decode_into J e url place n old x).
Proof.
  intros H. unfold decode_into. destruct (as_string x) as [s|]; [|now destruct (_ =? n)]. destruct (H s eq_refl) as (d & C & L).
  rewrite (proj1 (proj2 NF)).
  assert (E : b64_decode bio url s (e_junk e place) true = Some d).
  { destruct url; [apply url_decode; [apply GJ|exact C]|apply plain_decode; [apply GJ|apply C|exact C]]. }
  rewrite E. replace (n <? zlen d) with false by lia. exact I.
Qed.
Lemma loop_mild texts : forall i, 0 <= i -> i + zlen texts <= 32 -> mild (soc_ta_loop e i (List.map tree (List.map JString texts))).
Proof.
  induction texts as [|s l IH]; intros i Hi Hl; [exact I|]. cbn [List.map tree soc_ta_loop as_string].
  assert (Lc : zlen (s :: l) = 1 + zlen l) by (unfold zlen; cbn [List.length]; lia). apply bind_mild.
  - apply bind_mild; [apply need_mild|]. intros _ _. replace (Z.of_nat MAX_TAS <=? i) with false by (assert (X := zlen_nonneg l); change (Z.of_nat MAX_TAS) with 32; lia). exact I.
  - intros t _. apply bind_mild; [apply IH; lia|]. intros; exact I.
Qed.

Section Payload.
Variable fs : list (list Z * json).
Hypothesis T : soc_tidy J v fs.
Notation entries := (entries_of fs).
Lemma payload_mild : mild (parse_payload J e v entries).
Proof.
  unfold parse_payload. apply bind_mild; [apply fine_mild, field_fine|]. intros x1 _.
  apply bind_mild.
  { unfold root_of. destruct (5 <=? _); [|exact I]. destruct (find_first fs (txt "rootKeyType")) as [(j & F & ->)|[N ->]]; [|exact I].
    destruct (ty_root _ _ _ T j F) as (s & -> & C). cbn [tree as_string]. apply bind_mild; [now apply (same_mild _ _ 7 C)|]. intros [|] _; [exact I|].
    apply bind_mild; [now apply (same_mild _ _ 7 C)|]. intros [|] _; exact I. }
  intros root _. apply bind_mild; [apply fine_mild, string_fine|]. intros type _. apply bind_mild; [apply fine_mild, field_fine|]. intros x2 H2. apply field_go in H2.
  destruct H2 as (j & F & ->). destruct (ty_key _ _ _ T j F) as (s & d & -> & C).
  apply bind_mild. { unfold key_text. rewrite (proj1 NF), (proj1 (proj2 NF)). cbn [negb tree as_string]. now rewrite (proj2 (plain_decode bio s _ d (proj1 GJ) (proj1 C)) C). }
  intros key _. apply bind_mild; [apply fine_mild, field_fine|]. intros x3 H3. apply field_go in H3. destruct H3 as (j3 & F3 & ->).
  apply bind_mild. { apply into_mild. intros t Ht. apply tree_string in Ht. subst j3. exact (ty_iv _ _ _ T t F3). }
  intros iv _. apply bind_mild; [apply fine_mild, field_fine|]. intros x4 _.
  apply bind_mild. { destruct (_ =? 2); [|exact I]. now destruct (find_first fs (txt "decryptedKeyUsage")) as [(j' & F' & ->)|[N ->]]. }
  intros ch _. apply bind_mild.
  { unfold soc_tas. destruct (find_first fs (txt "entitledTaIds")) as [(j' & F' & ->)|[N ->]]; [|exact I].
    destruct j' as [|b|z0|z|l|l|f]; cbn [tree as_array]; try exact I. rewrite (proj1 NF). destruct (ty_tas _ _ _ T l F') as (texts & -> & L).
    apply loop_mild; [lia|unfold zlen; lia]. }
  intros tas _. apply bind_mild; [apply fine_mild, field_fine|]. intros x5 H5. apply field_go in H5. destruct H5 as (j5 & F5 & ->).
  apply bind_mild. { apply into_mild. intros t Ht. apply tree_string in Ht. subst j5. exact (ty_c1 _ _ _ T t F5). }
  intros c1 _. apply bind_mild; [apply fine_mild, field_fine|]. intros x6 H6. apply field_go in H6. destruct H6 as (j6 & F6 & ->).
  apply bind_mild. { apply into_mild. intros t Ht. apply tree_string in Ht. subst j6. exact (ty_c2 _ _ _ T t F6). }
  intros c2 _. apply bind_mild; [apply fine_mild, field_fine|]. intros x7 H7. apply field_go in H7. destruct H7 as (j7 & F7 & ->).
  apply bind_mild. { apply into_mild. intros t Ht. apply tree_string in Ht. subst j7. exact (ty_c3 _ _ _ T t F7). }
  intros c3 _. exact I.
Qed.
End Payload.

Lemma append_mild a b : zlen a + zlen b <= 1300 -> mild (append a b).
Proof. intros H. now rewrite append_ok. Qed.
Lemma type_mild s l : comparable v s 8 -> Forall (fun x => 7 <= zlen (txt (fst x))) l -> mild (find_type v s l).
Proof.
  intros C. induction 1 as [|[name t] l L F IH]; cbn [find_type]; [exact I|]. apply bind_mild; [apply (same_mild _ _ 8 C); cbn [fst] in L; lia|].
  intros [|] _; [exact I|exact IH].
Qed.
Lemma aad_mild alg p : parsed p -> comparable v (y_type p) 8 -> zlen (y_type p) <= 60 -> mild (build_aad v alg p).
Proof.
  intros P C L. unfold build_aad. destruct (list_eq_dec _ _ _) as [->|]; [|exact I]. cbn [need bind]. apply bind_mild; [apply need_mild|]. intros _ _.
  rewrite (root_text_is p P). apply bind_mild; [apply need_mild|]. intros _ _.
  assert (Lr : zlen (root_text p) <= 6) by (unfold root_text; destruct (y_root p) as [|[q|[q|q|]|]|q]; vm_compute; discriminate).
  assert (L0 : zlen (txt "A128GCM" ++ [y_version p] ++ root_text p) <= 14) by (rewrite !zlen_app; change (zlen (txt "A128GCM")) with 7; change (zlen [y_version p]) with 1; lia).
  apply bind_mild; [apply append_mild; lia|]. intros a1 A1. apply append_go in A1. assert (L1 : zlen a1 <= 74) by (subst a1; rewrite zlen_app; lia). clear A1.
  apply bind_mild; [apply need_mild|]. intros _ _.
  apply bind_mild.
  { destruct (y_usage p =? 2); [|exact I]. unfold is_one_of. apply bind_mild; [now apply (same_mild _ _ 8 C)|]. intros [|] _; [exact I|].
    apply bind_mild; [now apply (same_mild _ _ 8 C)|]. intros [|] _; [exact I|]. now apply (same_mild _ _ 8 C). }
  intros hm _. apply bind_mild; [apply need_mild|]. intros _ _. apply bind_mild; [apply append_mild; change (zlen [y_usage p]) with 1; lia|]. intros a2 A2. apply append_go in A2.
  assert (L2 : zlen a2 <= 75) by (subst a2; rewrite zlen_app; change (zlen [y_usage p]) with 1; lia). clear A2.
  apply bind_mild. { destruct (y_usage p =? 2); [|exact I]. apply bind_mild; [apply need_mild|]. intros _ _. apply append_mild. change (zlen [y_child p]) with 1. lia. }
  intros a3 A3. assert (L3 : zlen a3 <= 76).
  { destruct (y_usage p =? 2); [|injection A3 as <-; lia]. apply bind_go in A3. destruct A3 as (_ & _ & A3). apply append_go in A3. subst a3. rewrite zlen_app. change (zlen [y_child p]) with 1. lia. }
  clear A3. destruct (pa_c p P) as (P1 & P2 & P3). assert (Pi := pa_iv p P). destruct (pa_tas p P) as (T1 & T2).
  rewrite append_ok by lia. cbn [bind]. rewrite append_ok by (rewrite !zlen_app; lia). cbn [bind]. rewrite append_ok by (rewrite !zlen_app; lia). cbn [bind].
  rewrite append_ok by (rewrite !zlen_app; lia). cbn [bind]. rewrite append_tas_ok; [exact I|exact T2|rewrite !zlen_app; unfold zlen at 6; lia].
Qed.
Lemma decrypt_mild alg p tag parameters : parsed p -> comparable v (y_type p) 8 -> zlen (y_type p) <= 60 -> zlen (y_key p) < 2 ^ 31 ->
  mild (decrypt_and_verify J e v alg p tag parameters).
Proof.
  intros P C L Lk. unfold decrypt_and_verify. apply bind_mild; [now apply aad_mild|]. intros aad Ha. apply (aad_sound v alg p aad P) in Ha. destruct Ha as (_ & Us & _ & _ & _).
  apply bind_mild. { apply type_mild; [exact C|]. unfold types. repeat (apply Forall_cons; [vm_compute; discriminate|]). apply Forall_nil. }
  intros [[[t size] sub] curve] _. destruct (e_mem e (zlen (y_key p))) as [buf|] eqn:EM; [|exact I].
  assert (Lb : zlen buf = zlen (y_key p)). { assert (X := proj1 (proj2 Ge) (zlen (y_key p))). rewrite EM in X. exact X. }
  apply bind_mild.
  { unfold otp_gcm. destruct (v_root v _) as [root|]; [|exact I]. destruct (v_ladder v); cbn [negb]; [|exact I]. destruct (16 <? zlen tag); [exact I|].
    rewrite evp_ok; [|exact Lk|exact Lb|intros q; apply GJ]. destruct (e_answer e); [|exact I]. now destruct (u_gcm _ _ _ _ _ _). }
  intros bytes _. apply bind_mild.
  { unfold soc_rights. apply bind_mild. { destruct parameters as [q|]; [|exact I]. apply bind_mild; [apply need_mild|]. intros _ _. apply bind_mild; [apply need_mild|]. intros; exact I. }
    intros id _. destruct (key_usage_to_usage_flags _ (y_usage p) t sub) as [u s]. apply bind_mild; [apply need_mild|]. intros _ _.
    apply bind_mild. { destruct (y_usage p =? 2); [|exact I]. destruct (key_usage_to_usage_flags _ (y_child p) t sub) as [u' s']. apply bind_mild; [apply need_mild|]. intros; exact I. }
    intros c _. apply bind_mild; [apply need_mild|]. intros; exact I. }
  intros r _. apply bind_mild.
  { destruct (t =? KT_RSA); [apply need_mild|]. destruct (t =? KT_EC); [|apply need_mild]. cbn zeta. destruct (_ =? 0); [exact I|apply need_mild]. }
  intros _ _. destruct (stored_key_create _ _ _ _ _ _ _) as [s [k|]]; destruct s; exact I.
Qed.

Theorem soc_safe input parameters : zlen input < 2 ^ 30 - 4 ->
  (forall header payload mac fs, three_parts input header payload mac -> states J payload fs -> soc_tidy J v fs) ->
  match import_soc J e v input parameters with Made _ => True | Failed i => harmless i end.
Proof.
  intros Hn H. enough (M : mild (soc_unwrap J e v input parameters)).
  { unfold import_soc. destruct (soc_unwrap _ _ _ _ _) as [k|[s| | |]]; try exact I; destruct M. }
  unfold soc_unwrap. apply bind_mild; [apply unpack_mild|]. intros [[h pd] tag] Hu. apply (unpack_sound J e GJ) in Hu.
  destruct Hu as (header & payload & mac & Tp & Uh & Up & Um). apply bind_mild; [now apply fields_mild|].
  intros es Hf. apply (fields_go J _ _ _ GJ (proj1 Gv)) in Hf. destruct Hf as (hs & -> & Yh). apply bind_mild; [apply fine_mild, string_fine|]. intros alg _.
  apply bind_mild; [now apply fields_mild|]. intros es Hf. apply (fields_go J _ _ _ GJ Ge) in Hf. destruct Hf as (fs & -> & Yp).
  assert (St : states J payload fs) by (exists pd; now split). assert (T := H header payload mac fs Tp St).
  apply bind_mild; [now apply payload_mild|]. intros p Hp. apply (payload_sound J e v GJ Ge Gv) in Hp. destruct Hp as (S & P).
  destruct (ty_type _ _ _ T _ (sm_type _ _ _ _ S)) as (C & L). apply decrypt_mild; try assumption.
  destruct (sm_key _ _ _ _ S) as (text & F & Ct). apply (content_short J GJ text); [|exact Ct].
  exact (short_text J GJ payload fs _ _ (part_short _ _ _ _ Tp Hn) St F).
Qed.
End Safe.
