(** Importing Type-J containers. *)
From Verif Require Import Base M_ObjectStore M_Memory M_Rights M_Mac M_KeyStore M_Unwrap M_Json M_TypeJ
  S_Bytes S_Rights S_Mac S_Unwrap S_Json S_TypeJ P_Bytes P_Rights P_Mac P_Unwrap P_Json P_TypeJ.

Lemma bind_go {A B} (s : step A) (f : A -> step B) b : bind s f = Go b <-> exists a, s = Go a /\ f a = Go b.
Proof. destruct s as [a|i]; cbn [bind]; split; [intros H; now exists a|intros (a' & E & H); congruence|discriminate|intros (a' & E & _); discriminate]. Qed.
Lemma need_go b s x : need b s = Go x <-> b = true.
Proof. unfold need. destruct b, x; split; congruence. Qed.
Lemma status_ok s : status_eqb s OK = true <-> s = OK.
Proof. apply status_eqb_eq. Qed.

Section Import.
Variables (J : jlib) (e : surroundings).
Hypothesis GJ : good_jlib J.
Hypothesis Ge : good_surroundings e.
Notation bio := (j_bio J).
Lemma GB : good_bio bio. Proof. apply GJ. Qed.
Lemma junk_wide i : (4 <= List.length (e_junk e i))%nat. Proof. apply Ge. Qed.

Lemma output_high bytes f : 13 <= f -> output_allowed bytes f = false.
Proof. intros H. unfold output_allowed. destruct f as [|p|p]; try reflexivity. repeat (destruct p as [p|p|]; try reflexivity; try lia). Qed.

Lemma fields_sound fs r : fields_to_rights J e (entries_of fs) = Go r -> stated_rights J (some_content bio) fs r.
Proof.
  intros H. unfold fields_to_rights in H.
  apply bind_go in H. destruct H as (id & Hid & H). apply bind_go in H. destruct H as ([] & L & H).
  apply bind_go in H. destruct H as (l & Hl & H). apply bind_go in H. destruct H as (bytes & Hb & H).
  assert (RF := rights_flags bytes). destruct (content_key_rights_to_usage_flags 0 bytes) as [u1 s1].
  apply bind_go in H. destruct H as ([] & S1 & H). apply need_go, status_ok in S1. destruct RF as (R1 & _ & R2). specialize (R2 S1).
  apply bind_go in H. destruct H as (v & Hv & H). apply field_go in Hv. destruct Hv as (j & Hj & ->).
  assert (N : as_integer (tree j) = number j) by now destruct j. rewrite N in H.
  destruct (key_usage_to_usage_flags u1 (number j) KT_SYMMETRIC 1) as [u2 s2] eqn:K.
  apply bind_go in H. destruct H as ([] & S2 & H). apply need_go, status_ok in S2. subst s2.
  assert (Hn : 0 <= number j <= 3).
  { destruct (Z_le_dec 0 (number j)), (Z_le_dec (number j) 3); try tauto;
      assert (X := usage_flags_other u1 (number j) KT_SYMMETRIC 1 ltac:(lia)); rewrite K in X; discriminate. }
  apply bind_go in H. destruct H as (before & Hbe & H). apply time_go in Hbe. destruct Hbe as (lb & Fb & Tb).
  apply bind_go in H. destruct H as (after & Haf & H). apply time_go in Haf. destruct Haf as (la & Fa & Ta).
  apply bind_go in H. destruct H as (c & Hc & H). apply field_go in Hc. destruct Hc as (jc & Fc & ->).
  apply bind_go in H. destruct H as (tas & Ht & H). injection H as <-.
  assert (U : forall f, 0 <= f -> Z.testbit (if as_bool (tree jc) then BIT_SET u2 F_CACHEABLE else u2) f =
    ((if f <=? 5 then usage_table (number j) 0 1 f else output_allowed bytes f) || (as_bool (tree jc) && (f =? 13)))).
  { intros f Hf. assert (X := usage_flags_table u1 (number j) KT_SYMMETRIC 1 f Hf Hn). rewrite K in X. destruct X as [_ X]. cbn [fst] in X.
    rewrite (R2 f Hf) in X. destruct (as_bool (tree jc)).
    - unfold F_CACHEABLE. rewrite bit_set_spec by lia. rewrite X. reflexivity.
    - rewrite orb_false_r. exact X. }
  unfold stated_rights. cbn [r_id r_usage r_child_usage r_not_before r_not_on_or_after r_tas].
  split. { apply string_go in Hid. apply need_go in L. exists id. split; [exact Hid|]. split; [lia|]. apply id_of_ok. lia. }
  split. { apply string_go in Hl. exists l, bytes. split; [exact Hl|]. split; [|split; [now apply R1|]].
    - destruct (e_alloc e 4); cbn [negb] in Hb; [|discriminate]. destruct (b64_decode _ _ _ _ _) as [d|] eqn:E; [|discriminate].
      injection Hb as <-. exact (any_decode _ _ _ _ _ GB (junk_wide 4) E).
    - intros f Hf. rewrite U by lia. replace (f <=? 5) with false by lia. replace (f =? 13) with false by lia. now rewrite andb_false_r, orb_false_r. }
  split. { exists j. split; [exact Hj|]. split; [exact Hn|]. intros f Hf. rewrite U by lia. replace (f <=? 5) with true by lia.
    replace (f =? 13) with false by lia. now rewrite andb_false_r, orb_false_r. }
  split; [now exists lb|]. split; [now exists la|].
  split. { exists jc. split; [exact Fc|]. rewrite U by lia. cbn [Z.leb Z.compare Pos.compare Pos.compare_cont Z.eqb Pos.eqb output_allowed orb].
    rewrite andb_true_r. destruct jc; cbn; split; intros X; try discriminate; congruence. }
  split. { intros f Hf. rewrite U by lia. rewrite output_high by lia. replace (f <=? 5) with false by lia. replace (f =? 13) with false by lia. now rewrite andb_false_r. }
  split; [reflexivity|]. exact (ta_list_states _ _ _ Ht).
Qed.

Lemma fields_complete fs r : no_failure e -> known_tas fs -> stated_rights J (padded_content bio) fs r ->
  exists r', fields_to_rights J e (entries_of fs) = Go r' /\ r_id r' = r_id r.
Proof.
  intros NF KT ((id & Fid & Lid & Iid) & (text & bytes & Ft & Ct & Kt & _) & (j & Fj & Hn & _) & (lb & Fb & Tb) & (la & Fa & Ta) & (jc & Fc & _) & _ & _ & _).
  unfold fields_to_rights.
  rewrite (proj2 (string_go fs "contentKeyId" id) Fid). cbn [bind]. unfold need at 1. replace (zlen id <=? 63) with true by lia. cbn [bind].
  rewrite (proj2 (string_go fs "contentKeyRights" text) Ft). cbn [bind]. destruct NF as (N1 & N2 & N3). rewrite N1, N2. cbn [negb].
  rewrite (proj2 (plain_decode bio text (e_junk e 4) bytes GB (proj1 Ct)) Ct). cbn [bind].
  assert (RF := rights_flags bytes). destruct (content_key_rights_to_usage_flags 0 bytes) as [u1 s1]. destruct RF as (R1 & _).
  apply R1 in Kt. subst s1. cbn [status_eqb need bind].
  rewrite (proj2 (field_go fs "contentKeyUsage" (tree j)) (ex_intro _ j (conj Fj eq_refl))). cbn [bind].
  assert (N : as_integer (tree j) = number j) by now destruct j. rewrite N.
  destruct (key_usage_to_usage_flags u1 (number j) KT_SYMMETRIC 1) as [u2 s2] eqn:K.
  assert (X := usage_flags_table u1 (number j) KT_SYMMETRIC 1 0 ltac:(lia) Hn). rewrite K in X. destruct X as [X _]. cbn [snd] in X. subst s2.
  cbn [status_eqb need bind].
  rewrite (proj2 (time_go J fs "contentKeyNotBefore" (r_not_before r)) (ex_intro _ lb (conj Fb Tb))). cbn [bind].
  rewrite (proj2 (time_go J fs "contentKeyNotOnOrAfter" (r_not_on_or_after r)) (ex_intro _ la (conj Fa Ta))). cbn [bind].
  rewrite (proj2 (field_go fs "contentKeyCacheable" (tree jc)) (ex_intro _ jc (conj Fc eq_refl))). cbn [bind].
  destruct (ta_list_accepts e fs (conj N1 (conj N2 N3)) KT) as (tas & ->). cbn [bind]. eexists. split; [reflexivity|]. cbn [r_id].
  apply (id_bytes_one id); [apply id_of_ok; lia|exact Iid].
Qed.

(** ** The content key *)
Lemma decode_sound place l d : decode_again J e false place l = Go d -> some_content bio l d.
Proof.
  unfold decode_again. destruct (e_alloc e place); cbn [negb]; [|discriminate].
  destruct (b64_decode _ _ _ _ _) as [x|] eqn:E; [|discriminate]. intros H. injection H as <-.
  exact (any_decode _ _ _ _ _ GB (junk_wide place) E).
Qed.
Lemma decode_complete place l d : no_failure e -> padded_content bio l d -> decode_again J e false place l = Go d.
Proof.
  intros (N1 & N2 & _) C. unfold decode_again. rewrite N1, N2. cbn [negb].
  now rewrite (proj2 (plain_decode bio l (e_junk e place) d GB (proj1 C)) C).
Qed.
Lemma decode_url_sound place l d : decode_again J e true place l = Go d -> url_content bio l d.
Proof.
  unfold decode_again. destruct (e_alloc e place); cbn [negb]; [|discriminate].
  destruct (b64_decode _ _ _ _ _) as [x|] eqn:E; [|discriminate]. intros H. injection H as <-.
  destruct (e_b64 e place); [|discriminate]. now apply (url_decode bio l (e_junk e place) x GB).
Qed.
Lemma decode_url_complete place l d : no_failure e -> url_content bio l d -> decode_again J e true place l = Go d.
Proof.
  intros (N1 & N2 & _) C. unfold decode_again. rewrite N1, N2. cbn [negb].
  now rewrite (proj2 (url_decode bio l (e_junk e place) d GB) C).
Qed.

Notation U := (j_ulib J).
Lemma GU : good_ulib U. Proof. apply GJ. Qed.
Section Key.
Variables (fs : list (list Z * json)) (r : rights) (w : stored_key) (now : Z).
Hypothesis Hw : honest U w.
Hypothesis May : may_unwrap w now.
Hypothesis Aes : k_type w = 0 /\ (k_size w = 16 \/ k_size w = 32).

Definition block_alg (alg : ualg) (pkcs7 : bool) (f : list Z -> list Z) : Prop :=
  match alg with
  | UEcb p => p = pkcs7 /\ f = u_ecb U (k_bytes w)
  | UCbc p (Some (Bytes iv)) => p = pkcs7 /\ f = u_cbc U (k_bytes w) iv /\ zlen iv = 16
  | _ => False
  end.
Lemma blocks_ok alg pkcs7 f input : block_alg alg pkcs7 f -> zlen input < 2 ^ 31 -> (pkcs7 = true -> 0 < zlen input) -> zlen input mod 16 = 0 ->
  outcome U r 0 None w now input (e_mem e (zlen input)) (e_answer e) (e_alloc e 9) alg
    (unwrap_blocks U r KT_SYMMETRIC None w input (e_mem e (zlen input)) (e_answer e) (e_alloc e 9) pkcs7 f).
Proof.
  intros HB Hn Hp Hm.
  assert (HF : forall l : list Z, zlen (f l) = zlen l).
  { destruct alg as [p|p [[|iv]|]|?|?|?|?| |?|?|]; try contradiction; [destruct HB as (_ & ->)|destruct HB as (_ & -> & _)]; apply GU. }
  apply blocks_outcome; auto using GU.
  - destruct Ge as (_ & GM & _). specialize (GM (zlen input)). destruct (e_mem e (zlen input)); [right; eauto|now left].
  - intros bytes. destruct alg as [p|p [[|iv]|]|?|?|?|?| |?|?|]; try contradiction; [destruct HB as (-> & ->)|destruct HB as (-> & -> & _)]; destruct pkcs7; reflexivity.
  - destruct alg as [p|p [[|iv]|]|?|?|?|?| |?|?|]; try contradiction; [exact Hm|]. split; [exists iv; split; [reflexivity|apply HB]|exact Hm].
  - destruct alg as [p|p [[|iv]|]|?|?|?|?| |?|?|]; try contradiction; exact Aes.
  - destruct alg as [p|p [[|iv]|]|?|?|?|?| |?|?|]; try contradiction; reflexivity.
Qed.
Lemma unwrap_sound alg pkcs7 f input k : block_alg alg pkcs7 f -> zlen input < 2 ^ 31 ->
  unwrap_content J e r w input pkcs7 f = Go k ->
  exists bytes, unwrappable U alg r 0 None w now input bytes /\ key_made U r w 0 None bytes k.
Proof.
  intros HB Hn H. unfold unwrap_content in H.
  destruct (Z.eqb_spec (zlen input mod 16) 0) as [Hm|Hm].
  - destruct (Z.ltb_spec 0 (zlen input)) as [P|P].
    + assert (O := blocks_ok alg pkcs7 f input HB Hn (fun _ => P) Hm).
      destruct (unwrap_blocks _ _ _ _ _ _ _ _ _ _ _); cbn [key_of] in H; try discriminate. injection H as <-. exact O.
    + destruct pkcs7.
      * exfalso. assert (input = []) as -> by (destruct input; [reflexivity|unfold zlen in P; cbn [List.length] in P; lia]).
        unfold unwrap_blocks in H. destruct Ge as (_ & GM & _). specialize (GM (zlen (@nil Z))).
        destruct (e_mem e (zlen (@nil Z))) as [m|]; [|discriminate]. destruct m; [|unfold zlen in GM; cbn in GM; lia].
        change (zlen (@nil Z) mod 16 =? 0) with true in H. cbn [negb] in H. destruct (negb _); [discriminate|].
        unfold evp_decrypt in H. change (int_of (zlen (@nil Z))) with 0 in H. change (0 <? 0) with false in H. cbn [orb] in H.
        destruct (e_answer e); cbn [negb] in H; [|discriminate]. cbn [Z.to_nat firstn] in H.
        unfold put in H. assert (F0 : zlen (f []) = 0).
        { destruct alg as [p|p [[|iv]|]|?|?|?|?| |?|?|]; try contradiction; [destruct HB as (_ & ->)|destruct HB as (_ & -> & _)]; destruct GU as (G1 & G2 & _); [now rewrite G1|now rewrite G2]. }
        destruct (f []); [|unfold zlen in F0; cbn in F0; lia]. cbn in H. discriminate.
      * assert (O := blocks_ok alg false f input HB Hn ltac:(discriminate) Hm).
        destruct (unwrap_blocks _ _ _ _ _ _ _ _ _ _ _); cbn [key_of] in H; try discriminate. injection H as <-. exact O.
  - exfalso. unfold unwrap_blocks in H. destruct (e_mem e (zlen input)); [|discriminate].
    replace (zlen input mod 16 =? 0) with false in H by lia. cbn in H. discriminate.
Qed.
Lemma unwrap_complete alg pkcs7 f input bytes : no_failure e -> block_alg alg pkcs7 f -> zlen input < 2 ^ 31 ->
  unwrappable U alg r 0 None w now input bytes ->
  exists k, unwrap_content J e r w input pkcs7 f = Go k /\ key_made U r w 0 None bytes k.
Proof.
  intros NF HB Hn Hu. assert (P : pkcs7 = true -> 0 < zlen input).
  { intros ->. destruct input as [|b input]; [|unfold zlen; cbn [List.length]; lia]. exfalso.
    destruct Hu as (_ & _ & _ & _ & _ & C & _). destruct GU as (G1 & G2 & _).
    assert (Q : forall x : list Z, 0 < zlen (pkcs7_pad x)) by (intros x; unfold pkcs7_pad; rewrite zlen_app; unfold zlen at 2; rewrite repeat_length; assert (X := zlen_nonneg x); lia).
    specialize (Q bytes). destruct alg as [p|p [[|iv]|]|?|?|?|?| |?|?|]; try contradiction; destruct HB as (-> & _); cbn [contains] in C; rewrite <- C in Q;
      [rewrite G1 in Q|rewrite G2 in Q]; unfold zlen in Q; cbn in Q; lia. } assert (Hm : zlen input mod 16 = 0).
  { destruct Hu as (_ & A & _). destruct alg as [p|p [[|iv]|]|?|?|?|?| |?|?|]; try contradiction; cbn in A; tauto. }
  assert (O := blocks_ok alg pkcs7 f input HB Hn P Hm). unfold unwrap_content. destruct NF as (N1 & N2 & N3 & N4 & N5 & N6).
  destruct (unwrap_blocks _ _ _ _ _ _ _ _ _ _ _); cbn [key_of] in *; try contradiction.
  - destruct O as (b & Ub & K). exists k. split; [reflexivity|]. assert (b = bytes); [|now subst].
    destruct Ub as (_ & _ & _ & _ & _ & C & _). destruct Hu as (_ & _ & _ & _ & _ & C' & _). eapply contains_one; eassumption.
  - destruct O as [_ O]. destruct (O N4 (N1 9) (N6 _ (zlen_nonneg _)) bytes Hu).
  - destruct O as [_ L]. destruct alg; contradiction.
Qed.
End Key.

(** ** Versions *)
Lemma alg_name l : match parse_cipher_algorithm l with
  | Some (c, p) => exists n, l = Some n /\
      n = txt (if c then if p then "aesCbcPkcs5" else "aesCbcNone" else if p then "aesEcbPkcs5" else "aesEcbNone")
  | None => forall n, l = Some n -> n <> txt "aesEcbNone" /\ n <> txt "aesEcbPkcs5" /\ n <> txt "aesCbcNone" /\ n <> txt "aesCbcPkcs5"
  end.
Proof.
  unfold parse_cipher_algorithm. destruct l as [l|]; [|discriminate].
  repeat (match goal with |- context [list_eq_dec Z.eq_dec l ?x] => destruct (list_eq_dec Z.eq_dec l x) as [E|?] end; [exists l; now rewrite E|]).
  intros m H. injection H as <-. tauto.
Qed.

Lemma version_is fs : exists n, stated_version fs n /\ (forall m, stated_version fs m -> m = n) /\
  match find_field (txt "contentKeyContainerVersion") (entries_of fs) with
  | FoundWild => False | Found v => as_integer v = n | FoundNone => n = 1 end.
Proof.
  destruct (find_first fs (txt "contentKeyContainerVersion")) as [(j & F & ->)|[F ->]].
  - exists (number j). split; [right; now exists j|]. split.
    + intros m [[X _]|(j' & X & ->)]; [destruct (not_both _ _ _ F X)|]. now rewrite (first_one _ _ _ _ F X).
    + now destruct j.
  - exists 1. split; [now left|]. split; [|reflexivity]. intros m [[_ ->]|(j' & X & _)]; [reflexivity|]. destruct (not_both _ _ _ X F).
Qed.

Lemma content_short text d : zlen text < 2 ^ 30 -> some_content bio text d -> zlen d < 2 ^ 31.
Proof. intros H (more & L & _ & B). apply GB in B. rewrite zlen_app in B. unfold zlen at 3 in B. lia. Qed.
Lemma padded_some l d : padded_content bio l d -> some_content bio l d.
Proof. intros H. exists []. split; [cbn; lia|]. now rewrite app_nil_r. Qed.
Section Both.
Variables (fs : list (list Z * json)) (r : rights) (w : stored_key) (now : Z).
Hypothesis Hw : honest U w.
Hypothesis May : may_unwrap w now.
Hypothesis Aes : k_type w = 0 /\ (k_size w = 16 \/ k_size w = 32).
Hypothesis Short : forall name text, says fs name (JString text) -> zlen text < 2 ^ 30.

Definition result content alg k : Prop := exists encrypted bytes, stated_transport content fs alg /\ stated_key content fs encrypted /\
  unwrappable U alg r 0 None w now encrypted bytes /\ stated_length fs (zlen bytes) /\ key_made U r w 0 None bytes k.

Lemma v1_sound k : stated_version fs 1 -> unwrap_key_v1 J e (entries_of fs) r w = Go k -> exists alg, result (some_content bio) alg k.
Proof.
  intros V H. unfold unwrap_key_v1 in H. apply bind_go in H. destruct H as (l & Hl & H). apply bind_go in H. destruct H as (c & Hc & H).
  apply bind_go in H. destruct H as ([] & _ & H). apply string_go in Hl. apply decode_sound in Hc.
  destruct (unwrap_sound r w now Hw May Aes (UEcb false) false _ c k (conj eq_refl eq_refl) (content_short _ _ (Short _ _ Hl) Hc) H) as (bytes & Hu & K).
  exists (UEcb false), c, bytes. split; [left; now split|]. split; [now exists l|]. split; [exact Hu|]. split; [now left|exact K].
Qed.
Lemma v2_sound k : stated_version fs 2 \/ stated_version fs 3 -> unwrap_key_v2 J e (entries_of fs) r w = Go k -> exists alg, result (some_content bio) alg k.
Proof.
  intros V H. unfold unwrap_key_v2 in H. apply bind_go in H. destruct H as (va & Ha & H). apply bind_go in H. destruct H as (l & Hl & H).
  apply bind_go in H. destruct H as (c & Hc & H). apply bind_go in H. destruct H as (vl & Hvl & H). apply bind_go in H. destruct H as (k' & Hk & H).
  apply bind_go in H. destruct H as ([] & L & H). injection H as ->. apply need_go, Z.eqb_eq in L.
  apply string_go in Hl. apply decode_sound in Hc. apply field_go in Ha. destruct Ha as (ja & Fa & ->). apply field_go in Hvl. destruct Hvl as (jl & Fl & ->).
  assert (Cs := content_short _ _ (Short _ _ Hl) Hc).
  assert (Fin : forall alg, stated_transport (some_content bio) fs alg ->
    (exists bytes, unwrappable U alg r 0 None w now c bytes /\ key_made U r w 0 None bytes k) -> exists alg, result (some_content bio) alg k).
  { intros alg T (bytes & Hu & K). exists alg, c, bytes. split; [exact T|]. split; [now exists l|]. split; [exact Hu|]. split; [|exact K].
    right. exists jl. split; [exact Fl|]. rewrite K in L. cbn [k_bytes] in L. rewrite L. unfold wrap64, W64. now destruct jl. }
  assert (N := alg_name (as_string (tree ja))). destruct (parse_cipher_algorithm (as_string (tree ja))) as [[cbc p]|]; [|discriminate].
  destruct N as (n & En & Nn). apply tree_string in En. subst ja. destruct cbc.
  - apply bind_go in Hk. destruct Hk as (t & Ht & Hk). apply bind_go in Hk. destruct Hk as (iv & Hiv & Hk).
    destruct (Z.eqb_spec (zlen iv) 16) as [Li|]; cbn [negb] in Hk; [|discriminate]. apply string_go in Ht. apply decode_sound in Hiv.
    apply (Fin (UCbc p (Some (Bytes iv)))).
    + right. split; [exact V|]. exists n. split; [exact Fa|]. right. right. exists t, iv, p. split; [exact Ht|]. split; [exact Hiv|]. split; [reflexivity|].
      destruct p; auto.
    + apply (unwrap_sound r w now Hw May Aes (UCbc p (Some (Bytes iv))) p _ c k (conj eq_refl (conj eq_refl Li)) Cs).
      destruct (unwrap_content _ _ _ _ _ _ _) as [x|[]]; try discriminate; exact Hk.
  - apply (Fin (UEcb p)).
    + right. split; [exact V|]. exists n. split; [exact Fa|]. destruct p; auto.
    + exact (unwrap_sound r w now Hw May Aes (UEcb p) p _ c k (conj eq_refl eq_refl) Cs Hk).
Qed.

Lemma v1_complete alg enc bytes : no_failure e -> stated_version fs 1 -> stated_transport (padded_content bio) fs alg -> stated_key (padded_content bio) fs enc ->
  unwrappable U alg r 0 None w now enc bytes -> exists k, unwrap_key_v1 J e (entries_of fs) r w = Go k.
Proof.
  intros NF V T (text & Ft & Ct) Hu. unfold unwrap_key_v1. rewrite (proj2 (string_go fs "contentKey" text) Ft). cbn [bind].
  rewrite (decode_complete 6 text enc NF Ct). cbn [bind].
  destruct (version_is fs) as (v & _ & V1 & _). assert (v = 1) by (symmetry; now apply V1). subst v.
  assert (alg = UEcb false). { destruct T as [[_ ->]|[[X|X] _]]; [reflexivity| |]; apply V1 in X; lia. } subst alg.
  assert (M : zlen enc mod 16 = 0) by (destruct Hu as (_ & A & _); exact A). rewrite M. cbn [Z.eqb need bind].
  destruct (unwrap_complete r w now Hw May Aes (UEcb false) false _ enc bytes NF (conj eq_refl eq_refl) (content_short _ _ (Short _ _ Ft) (padded_some _ _ Ct)) Hu) as (k & -> & _). eauto.
Qed.
Lemma v2_complete alg enc bytes : no_failure e -> stated_version fs 2 \/ stated_version fs 3 -> stated_transport (padded_content bio) fs alg ->
  stated_key (padded_content bio) fs enc -> stated_length fs (zlen bytes) ->
  unwrappable U alg r 0 None w now enc bytes -> exists k, unwrap_key_v2 J e (entries_of fs) r w = Go k.
Proof.
  intros NF V T (text & Ft & Ct) L Hu. destruct (version_is fs) as (v & _ & V1 & _).
  assert (Not1 : ~ stated_version fs 1). { intros X. apply V1 in X. destruct V as [V|V]; apply V1 in V; lia. }
  destruct T as [[X _]|[_ (name & Fn & T)]]; [contradiction|]. destruct L as [X|(jl & Fl & L)]; [contradiction|].
  unfold unwrap_key_v2. rewrite (proj2 (field_go fs "contentKeyTransportAlgorithm" _) (ex_intro _ _ (conj Fn eq_refl))). cbn [bind tree as_string].
  rewrite (proj2 (string_go fs "contentKey" text) Ft). cbn [bind].
  rewrite (decode_complete 6 text enc NF Ct). cbn [bind].
  rewrite (proj2 (field_go fs "contentKeyLength" (tree jl)) (ex_intro _ jl (conj Fl eq_refl))). cbn [bind].
  assert (Cs := content_short _ _ (Short _ _ Ft) (padded_some _ _ Ct)).
  assert (Fin : forall k, key_made U r w 0 None bytes k -> zlen (k_bytes k) =? wrap64 (as_integer (tree jl)) = true).
  { intros k ->. cbn [k_bytes]. apply Z.eqb_eq. rewrite L. unfold wrap64, W64. now destruct jl. }
  destruct T as [[-> ->]|[[-> ->]|(t & iv & p & Ft' & Ci & -> & N)]].
  - change (parse_cipher_algorithm (Some (txt "aesEcbNone"))) with (Some (false, false)). cbn match.
    destruct (unwrap_complete r w now Hw May Aes (UEcb false) false _ enc bytes NF (conj eq_refl eq_refl) Cs Hu) as (k & -> & K). cbn [bind].
    rewrite (Fin k K). cbn [need bind]. eauto.
  - change (parse_cipher_algorithm (Some (txt "aesEcbPkcs5"))) with (Some (false, true)). cbn match.
    destruct (unwrap_complete r w now Hw May Aes (UEcb true) true _ enc bytes NF (conj eq_refl eq_refl) Cs Hu) as (k & -> & K). cbn [bind].
    rewrite (Fin k K). cbn [need bind]. eauto.
  - assert (Li : zlen iv = 16). { destruct Hu as (_ & ((x & X & Y) & _) & _). now injection X as <-. }
    replace (parse_cipher_algorithm (Some name)) with (Some (true, p)) by (destruct N as [[-> ->]|[-> ->]]; reflexivity). cbn match.
    rewrite (proj2 (string_go fs "contentKeyTransportIv" t) Ft'). cbn [bind]. rewrite (decode_complete 7 t iv NF Ci). cbn [bind].
    rewrite Li. cbn [Z.eqb Pos.eqb negb].
    destruct (unwrap_complete r w now Hw May Aes (UCbc p (Some (Bytes iv))) p _ enc bytes NF (conj eq_refl (conj eq_refl Li)) Cs Hu) as (k & -> & K). cbn [bind].
    rewrite (Fin k K). cbn [need bind]. eauto.
Qed.
End Both.

(** ** The MAC *)
Lemma mac_iff header payload m w : e_hmac e = true ->
  verify_mac J e header payload m w = OK <-> m = l_hmac (j_mac J) 1 (k_bytes w) (header ++ [46] ++ payload).
Proof.
  intros Hh. assert (HL := hmac_length (j_mac J) 1 (k_bytes w) (header ++ [46] ++ payload) ltac:(apply GJ) ltac:(lia)). change (digest_length 1) with 32 in HL.
  unfold verify_mac, hmac_internal, D_SHA256. change (digest_length 1) with 32. rewrite Hh. cbn [negb Z.ltb Z.compare Pos.compare Pos.compare_cont].
  set (t := l_hmac _ _ _ _) in *. assert (Lt : List.length t = 32%nat) by lia.
  assert (EP : M_Mac.put (repeat 0 32) t = Some t).
  { unfold M_Mac.put. rewrite repeat_length, Lt, skipn_all2 by (rewrite repeat_length; lia). cbn [Nat.leb]. now rewrite app_nil_r. }
  rewrite EP. rewrite firstn_all2 by lia.
  destruct (Z.eqb_spec (zlen m) 32) as [Lm|Lm]; cbn [negb].
  - destruct (list_eq_dec Z.eq_dec t m) as [E|E]; split; congruence.
  - split; [discriminate|]. intros ->. unfold zlen in Lm. lia.
Qed.
Lemma mac_ok header payload m w : verify_mac J e header payload m w = OK -> e_hmac e = true.
Proof.
  unfold verify_mac, hmac_internal. destruct (negb (zlen m =? 32)); [discriminate|]. destruct (e_hmac e); [reflexivity|]. discriminate.
Qed.

Lemma says_event fs name text : says fs name (JString text) -> In (EString text) (events (JObject fs)).
Proof.
  intros (a & b & -> & _). cbn [events]. right. apply in_or_app. left. apply in_flat_map. exists (txt name, JString text). split; [apply in_or_app; right; now left|].
  cbn. auto.
Qed.
Lemma short_text payload fs name text : zlen payload < 2 ^ 30 - 4 -> states J payload fs -> says fs name (JString text) -> zlen text < 2 ^ 30.
Proof.
  intros H (doc & (k & Hk & _ & B) & Y) F. apply GB in B. rewrite zlen_app in B. unfold zlen in B at 2 3. rewrite map_length, repeat_length in B.
  assert (X : zlen text <= zlen doc). { destruct GJ as (_ & _ & _ & _ & _ & G). eapply G; [exact Y|]. now apply (says_event fs name). }
  unfold zlen in *. lia.
Qed.

Lemma import_go input wmac wenc now k : import_typej J e input wmac wenc now = Made k <->
  may_sign wmac now /\ (k_type wmac = 0 /\ 16 <= k_size wmac <= 512) /\ may_unwrap wenc now /\
  (k_type wenc = 0 /\ (k_size wenc = 16 \/ k_size wenc = 32)) /\ typej_unwrap J e input wmac wenc = Go k.
Proof.
  unfold import_typej, need.
  assert (S := proj2 (proj2 (proj2 (operations_iff (k_rights wmac) now)))). assert (V := unwrap_allowed_iff wenc now). assert (A := aes_iff wenc).
  assert (M : key_type_supports_hmac (k_type wmac) (k_size wmac) = true <-> k_type wmac = 0 /\ 16 <= k_size wmac <= 512)
    by (unfold key_type_supports_hmac, valid_hmac_size; change KT_SYMMETRIC with 0; lia).
  fold (may_sign wmac now) in S. rewrite <- S, <- M, <- V, <- A.
  destruct (rights_allowed_sign _ _); cbn [bind]; [|split; [discriminate|intros (X & _); discriminate]].
  destruct (key_type_supports_hmac _ _); cbn [bind]; [|split; [discriminate|intros (_ & X & _); discriminate]].
  destruct (rights_allowed_unwrap _ _); cbn [bind]; [|split; [discriminate|intros (_ & _ & X & _); discriminate]].
  destruct (key_type_supports_aes _ _); cbn [bind]; [|split; [discriminate|intros (_ & _ & _ & X & _); discriminate]].
  destruct (typej_unwrap _ _ _ _ _); split; try discriminate; [intros X; repeat split; congruence|intros (_ & _ & _ & _ & X); congruence|intros (_ & _ & _ & _ & X); congruence].
Qed.

Lemma unpack_go input h p pd md : unpack_typej J e input = Go (h, p, pd, md) -> exists m hd, three_parts input h p m /\
  url_content bio h hd /\ url_content bio p pd /\ url_content bio m md.
Proof.
  unfold unpack_typej. destruct (e_alloc e 0); cbn [negb]; [|discriminate]. destruct (split_dot input) as [[h' rest]|] eqn:E1; [|discriminate].
  intros H. apply bind_go in H. destruct H as ([] & _ & H). destruct (split_dot rest) as [[p' m]|] eqn:E2; [|discriminate].
  apply bind_go in H. destruct H as ([] & _ & H). apply bind_go in H. destruct H as (hd & Hh & H). apply bind_go in H. destruct H as (pd' & Hp & H).
  apply bind_go in H. destruct H as (md' & Hm & H). injection H as -> -> -> ->. exists m, hd. split; [apply three_split; eauto|].
  split; [|split]; eapply decode_url_sound; eassumption.
Qed.
Theorem import_sound input wmac wenc now k : honest U wenc -> zlen input < 2 ^ 30 - 4 -> import_typej J e input wmac wenc now = Made k ->
  may_sign wmac now /\ (k_type wmac = 0 /\ 16 <= k_size wmac <= 512) /\
  exists header payload mac fs r alg, three_parts input header payload mac /\ genuine J header payload mac wmac /\ states J payload fs /\
    stated_rights J (some_content bio) fs r /\ result fs r wenc now (some_content bio) alg k.
Proof.
  intros Hw Hn H. apply import_go in H. destruct H as (HS & HM & HV & HA & H). split; [exact HS|]. split; [exact HM|].
  unfold typej_unwrap in H. apply bind_go in H. destruct H as ([[[h p] pd] md] & Hup & H). apply unpack_go in Hup. destruct Hup as (m & hd & T & Uh & Up & Um).
  apply bind_go in H. destruct H as ([] & HMac & H). apply need_go, status_ok in HMac. assert (Hh := mac_ok _ _ _ _ HMac). apply mac_iff in HMac; [|exact Hh]. subst md.
  destruct (parse _ _ _ _) as [v|] eqn:EP; [|discriminate]. destruct v as [ | | | | |before entries]; try discriminate.
  destruct (e_alloc e 8); cbn [negb] in H; [|discriminate].
  assert (exists fs, states J p fs /\ entries = entries_of fs) as (fs & St & ->).
  { assert (EPs : e_parser e = true) by (revert EP; unfold parse; destruct (e_parser e); [reflexivity|discriminate]). rewrite EPs in EP.
    destruct (j_yajl J pd) as [es|] eqn:EY; [|unfold parse in EP; rewrite EY in EP; discriminate].
    destruct (proj1 (proj2 GJ) _ _ EY) as (j & ->). rewrite (parse_tree _ _ j _ EY (proj1 Ge)) in EP. destruct (short_names j); [|discriminate].
    destruct j as [ | | | | | |fs]; try discriminate. exists fs. cbn [tree] in EP. split; [now exists pd|]. unfold entries_of. congruence. }
  apply bind_go in H. destruct H as (r & Hr & H). apply fields_sound in Hr.
  assert (Sh : forall name text, says fs name (JString text) -> zlen text < 2 ^ 30).
  { intros name text. apply (short_text p); [|exact St]. destruct T as (-> & _). rewrite !zlen_app in Hn. assert (X1 := zlen_nonneg h). assert (X2 := zlen_nonneg m). change (zlen [46]) with 1 in Hn. lia. }
  assert (exists alg, result fs r wenc now (some_content bio) alg k) as (alg & R).
  { destruct (version_is fs) as (n & V & _ & F). destruct (find_field _ _) as [| |v]; [|contradiction|];
      [subst n; exact (v1_sound fs r wenc now Hw HV HA Sh k V H)|].
    rewrite F in H. destruct (Z.eqb_spec n 1) as [E|N1]; [rewrite E in V; exact (v1_sound fs r wenc now Hw HV HA Sh k V H)|].
    destruct (Z.eqb_spec n 2) as [E|N2]; cbn [orb] in H; [rewrite E in V; exact (v2_sound fs r wenc now Hw HV HA Sh k (or_introl V) H)|].
    destruct (Z.eqb_spec n 3) as [E|N3]; [rewrite E in V; exact (v2_sound fs r wenc now Hw HV HA Sh k (or_intror V) H)|discriminate]. }
  exists h, p, m, fs, r, alg. auto.
Qed.

Lemma unwrappable_rights alg r r' w now enc bytes : r_id r' = r_id r -> unwrappable U alg r 0 None w now enc bytes -> unwrappable U alg r' 0 None w now enc bytes.
Proof. unfold unwrappable, rights_validate_format. now intros ->. Qed.
Lemma hmac_not_nothing k m : ~ url_content bio [] (l_hmac (j_mac J) 1 k m).
Proof.
  intros (n & Hn & M & B). apply GB in B. assert (HL := hmac_length (j_mac J) 1 k m ltac:(apply GJ) ltac:(lia)). change (digest_length 1) with 32 in HL.
  cbn [List.map app] in B. unfold zlen in B. rewrite repeat_length in B. lia.
Qed.
Theorem import_complete input wmac wenc now header payload mac hd fs r alg enc bytes : no_failure e -> honest U wenc -> zlen input < 2 ^ 30 - 4 ->
  may_sign wmac now -> k_type wmac = 0 /\ 16 <= k_size wmac <= 512 ->
  three_parts input header payload mac -> url_content bio header hd -> genuine J header payload mac wmac -> states J payload fs ->
  short_names (JObject fs) = true -> known_tas fs -> stated_rights J (padded_content bio) fs r ->
  stated_transport (padded_content bio) fs alg -> stated_key (padded_content bio) fs enc -> unwrappable U alg r 0 None wenc now enc bytes ->
  stated_length fs (zlen bytes) ->
  exists k, import_typej J e input wmac wenc now = Made k.
Proof.
  intros NF Hw Hn HS HM T Hd G (doc & Cd & Yd) SN KT R Tr K Hu L.
  assert (HV : may_unwrap wenc now) by apply Hu. assert (HA : k_type wenc = 0 /\ (k_size wenc = 16 \/ k_size wenc = 32)).
  { destruct Hu as (_ & _ & W & _). destruct Tr as [[_ ->]|(_ & n & _ & [[_ ->]|[[_ ->]|(t & iv & p & _ & _ & -> & _)]])]; exact W. }
  assert (St : states J payload fs) by (now exists doc).
  assert (Sh : forall name text, says fs name (JString text) -> zlen text < 2 ^ 30).
  { intros name text. apply (short_text payload); [|exact St]. destruct T as (-> & _). rewrite !zlen_app in Hn. assert (X1 := zlen_nonneg header). assert (X2 := zlen_nonneg mac). change (zlen [46]) with 1 in Hn. lia. }
  destruct (fields_complete fs r NF KT R) as (r' & Hr' & Id). assert (Hu' := unwrappable_rights _ _ r' _ _ _ _ Id Hu).
  enough (X : exists k, typej_unwrap J e input wmac wenc = Go k). { destruct X as (k & X). exists k. apply import_go. auto. }
  unfold typej_unwrap. assert (X := proj1 (three_split _ _ _ _) T). destruct X as (rest & E1 & E2).
  assert (N := NF). destruct N as (N1 & N2 & N3 & N4 & N5 & N6).
  assert (Pm : 0 <? zlen mac = true). { destruct mac; [destruct (hmac_not_nothing _ _ G)|]. unfold zlen. cbn [List.length]. lia. }
  assert (Pr : 0 <? zlen rest = true). { destruct rest; [discriminate|]. unfold zlen. cbn [List.length]. lia. }
  unfold unpack_typej. rewrite N1, E1, Pr. cbn [negb need bind]. rewrite E2, Pm. cbn [need bind].
  rewrite (decode_url_complete 1 header hd NF Hd). cbn [bind]. rewrite (decode_url_complete 2 payload doc NF Cd). cbn [bind]. rewrite (decode_url_complete 3 mac _ NF G). cbn [bind].
  rewrite (proj2 (mac_iff header payload _ wmac N5) eq_refl). cbn [status_eqb need bind].
  rewrite N3, (parse_tree _ _ _ _ Yd (proj1 Ge)), SN. cbn [tree]. fold (entries_of fs). rewrite N1. cbn [negb]. rewrite Hr'. cbn [bind].
  destruct (version_is fs) as (n & V & V1 & F).
  assert (C : (stated_version fs 1 /\ n = 1) \/ ((stated_version fs 2 \/ stated_version fs 3) /\ (n = 2 \/ n = 3))).
  { destruct Tr as [[X _]|[X _]]; [left; split; [exact X|symmetry; now apply V1]|right; split; [exact X|]]. destruct X as [X|X]; apply V1 in X; auto. }
  destruct C as [[C ->]|[C Cn]].
  - replace (match find_field _ _ with FoundWild => _ | _ => _ end) with (unwrap_key_v1 J e (entries_of fs) r' wenc)
      by (destruct (find_field _ _) as [| |v]; [reflexivity|contradiction|rewrite F; reflexivity]).
    exact (v1_complete fs r' wenc now Hw HV HA Sh alg enc bytes NF C Tr K Hu').
  - replace (match find_field _ _ with FoundWild => _ | _ => _ end) with (unwrap_key_v2 J e (entries_of fs) r' wenc).
    + exact (v2_complete fs r' wenc now Hw HV HA Sh alg enc bytes NF C Tr K L Hu').
    + destruct (find_field _ _) as [| |v]; [lia|contradiction|]. rewrite F. destruct Cn as [-> | ->]; reflexivity.
Qed.

(** ** Containers that cannot do harm *)
Definition fine {A} (s : step A) : Prop := match s with Go _ => True | Stop i => harmless i end.
Lemma bind_fine {A B} (s : step A) (f : A -> step B) : fine s -> (forall a, s = Go a -> fine (f a)) -> fine (bind s f).
Proof. destruct s; cbn; auto. Qed.
Lemma need_fine b s : fine (need b s). Proof. destruct b; exact I. Qed.
Lemma field_fine fs name : fine (field_of name (entries_of fs)).
Proof. destruct (field_of name (entries_of fs)) eqn:E; [exact I|]. apply field_stop in E. now subst. Qed.
Lemma string_fine fs name : fine (string_of name (entries_of fs)).
Proof. destruct (string_of name (entries_of fs)) eqn:E; [exact I|]. apply string_stop in E. now subst. Qed.
Lemma time_fine fs name : fine (time_of J name (entries_of fs)).
Proof. destruct (time_of J name (entries_of fs)) eqn:E; [exact I|]. apply time_stop in E. now subst. Qed.

Lemma ta_loop_fine texts : forall i, fine (ta_loop e i (List.map tree (List.map JString texts))).
Proof.
  induction texts as [|t texts IH]; intros i; [exact I|]. cbn [List.map tree ta_loop as_string]. apply bind_fine; [apply bind_fine; [apply need_fine|intros; exact I]|].
  intros a _. apply bind_fine; [apply IH|]. intros; exact I.
Qed.
Lemma ta_fine fs : no_failure e -> (forall j, says fs "entitledTaIds" j -> exists texts, j = JArray (List.map JString texts)) -> fine (ta_list e (entries_of fs)).
Proof.
  intros (N1 & _) H. unfold ta_list. destruct (find_first fs (txt "entitledTaIds")) as [(j & F & ->)|[F ->]]; [|exact I].
  destruct (H j F) as (texts & ->). rewrite N1. cbn [tree as_array]. apply bind_fine; [apply need_fine|]. intros _ _. apply bind_fine; [apply ta_loop_fine|]. intros; exact I.
Qed.
End Import.
