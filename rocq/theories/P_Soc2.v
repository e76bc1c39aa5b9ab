(** Importing SoC containers. *)
From Verif Require Import Base M_ObjectStore M_Memory M_Rights M_Mac M_KeyStore M_Kdf M_Unwrap M_Json M_TypeJ M_Soc
  S_Bytes S_Rights S_Mac S_Unwrap S_Json S_TypeJ S_Soc P_Bytes P_Rights P_Mac P_Unwrap P_Json P_TypeJ P_TypeJ2 P_Soc.

Lemma import_made J e v input parameters k : import_soc J e v input parameters = Made k <-> soc_unwrap J e v input parameters = Go k.
Proof. unfold import_soc. destruct (soc_unwrap _ _ _ _ _) as [k'|[]]; split; congruence. Qed.

Section Import.
Variables (J : jlib) (e : surroundings) (v : soc).
Hypothesis GJ : good_jlib J.
Hypothesis Ge : good_surroundings e.
Hypothesis Gv : good_soc v.
Notation bio := (j_bio J).
Notation U := (j_ulib J).

Lemma part_short input header payload mac : three_parts input header payload mac -> zlen input < 2 ^ 30 - 4 -> zlen payload < 2 ^ 30 - 4.
Proof. intros (-> & _) Hn. rewrite !zlen_app in Hn. assert (X1 := zlen_nonneg header). assert (X2 := zlen_nonneg mac). change (zlen [46]) with 1 in Hn. lia. Qed.

Lemma soc_from input parameters k : zlen input < 2 ^ 30 - 4 -> import_soc J e v input parameters = Made k ->
  good_parameters parameters /\
  exists header payload mac hs fs tag p, three_parts input header payload mac /\ url_content bio mac tag /\ zlen tag <= 16 /\
    states J header hs /\ says hs "alg" (JString (txt "A128GCM")) /\ states J payload fs /\ says_somehow J v fs p /\ usable p /\ y_type p <> [] /\
    exists name t bytes, In (name, t) key_types /\ taken_for v (y_type p) name /\ (y_usage p = 2 -> snd (fst t) <> 2) /\
      authentic J v p tag bytes /\ right_size U t bytes /\ made_from parameters p t bytes k.
Proof.
  intros Hn H. apply import_made in H. unfold soc_unwrap in H. apply bind_go in H. destruct H as ([[h pd] tag] & Hu & H).
  apply (unpack_sound J e GJ) in Hu. destruct Hu as (header & payload & mac & T & Uh & Up & Um).
  apply bind_go in H. destruct H as (es & Hf & H). apply (fields_go J _ _ _ GJ (proj1 Gv)) in Hf. destruct Hf as (hs & -> & Yh).
  apply bind_go in H. destruct H as (alg & Ha & H). apply string_go in Ha.
  apply bind_go in H. destruct H as (es & Hf & H). apply (fields_go J _ _ _ GJ Ge) in Hf. destruct Hf as (fs & -> & Yp).
  apply bind_go in H. destruct H as (p & Hp & H). apply (payload_sound J e v GJ Ge Gv) in Hp. destruct Hp as (S & P).
  assert (St : states J payload fs) by (exists pd; now split).
  assert (L : zlen (y_key p) < 2 ^ 31).
  { destruct (sm_key _ _ _ _ S) as (text & F & C). apply (content_short J GJ text); [|exact C].
    exact (short_text J GJ payload fs _ _ (part_short _ _ _ _ T Hn) St F). }
  apply (decrypt_sound J e v GJ Ge) in H; [|exact P|exact L]. destruct H as (-> & Us & Ne & Lt & Gp & R). split; [exact Gp|].
  exists header, payload, mac, hs, fs, tag, p. split; [exact T|]. split; [exact Um|]. split; [exact Lt|]. split; [exists h; now split|].
  split; [exact Ha|]. split; [exact St|]. split; [exact S|]. split; [exact Us|]. split; [exact Ne|]. exact R.
Qed.
Theorem soc_sound input parameters k : zlen input < 2 ^ 30 - 4 -> import_soc J e v input parameters = Made k ->
  good_parameters parameters /\
  exists header payload mac hs fs tag p, three_parts input header payload mac /\ url_content bio mac tag /\ zlen tag <= 16 /\
    states J header hs /\ says hs "alg" (JString (txt "A128GCM")) /\ states J payload fs /\ says_somehow J v fs p /\ usable p /\ y_type p <> [] /\
    exists name t bytes, In (name, t) key_types /\ taken_for v (y_type p) name /\ (y_usage p = 2 -> snd (fst t) <> 2) /\
      authentic J v p tag bytes /\ right_size U t bytes /\ made_of parameters p t bytes k.
Proof.
  intros Hn H. destruct (soc_from input parameters k Hn H) as (G & header & payload & mac & hs & fs & tag & p & A1 & A2 & A3 & A4 & A5 & A6 & A7 & A8 & A9 & name & t & bytes & B1 & B2 & B3 & B4 & B5 & B6).
  split; [exact G|]. exists header, payload, mac, hs, fs, tag, p. do 9 (split; [assumption|]). exists name, t, bytes. do 5 (split; [assumption|]). now apply from_of.
Qed.
End Import.

(** ** Forgery *)
Lemma name_bytes name t : In (name, t) key_types -> Forall (fun b => 3 < b) (txt name) /\ txt name <> [] /\ exists c l, txt name = c :: l /\ c < 99.
Proof. intros I. cbn [key_types In] in I. repeat (destruct I as [X|I]; [injection X as <- <-; split; [vm_compute; repeat constructor|]; split; [discriminate|]; do 2 eexists; split; [vm_compute; reflexivity|reflexivity]|]). destruct I. Qed.
Lemma app_same_length {A} (a b c d : list A) : List.length a = List.length c -> a ++ b = c ++ d -> a = c /\ b = d.
Proof. revert c. induction a as [|x a IH]; intros [|y c] L E; try discriminate; [now split|]. injection E as -> E. destruct (IH c ltac:(cbn in L; lia) E) as [-> ->]. now split. Qed.

(** A text that begins "name NUL ..." and is followed by a byte 1..3 like the full name is the full name. *)
Lemma text_end (n : list Z) : forall (m s l x y z : list Z) u w, Forall (fun b => 3 < b) n -> Forall (fun b => 3 < b) m ->
  n ++ 0 :: l = s ++ x -> 1 <= u <= 3 -> 1 <= w <= 3 -> s ++ u :: y = m ++ w :: z -> s = m /\ u = w /\ y = z.
Proof.
  induction n as [|c n IH]; intros m s l x y z u w Fn Fm E Hu Hw E2.
  - destruct s as [|c s]; cbn [app] in *.
    + destruct m as [|d m]; cbn [app] in E2; [injection E2 as -> ->; auto|]. injection E2 as -> _. inversion Fm; lia.
    + injection E as <- _. destruct m as [|d m]; cbn [app] in E2; [injection E2 as E2 _; lia|]. injection E2 as <- _. inversion Fm; lia.
  - inversion Fn as [|a b C1 C2]; subst. destruct s as [|c' s]; cbn [app] in *.
    + destruct m as [|d m]; cbn [app] in E2; [injection E2 as -> ->; auto|]. injection E2 as -> _. inversion Fm; lia.
    + injection E as <- E. destruct m as [|d m]; cbn [app] in E2; [injection E2 as E2 _; lia|]. injection E2 as <- E2. inversion Fm; subst.
      destruct (IH m s l x y z u w C2 ltac:(assumption) E Hu Hw E2) as (-> & -> & ->). auto.
Qed.
Lemma lower_lengths (l l' : list (list Z)) : Forall (fun s => zlen s = 36) l -> Forall (fun s => zlen s = 36) l' ->
  flat_map to_lower l = flat_map to_lower l' -> List.map to_lower l = List.map to_lower l'.
Proof.
  intros F. revert l'. induction F as [|s l L F IH]; intros l' F' E; destruct F' as [|s' l' L' F']; [reflexivity| | |]; cbn [flat_map List.map] in *.
  - exfalso. assert (X : List.length (to_lower s' ++ flat_map to_lower l') = 0%nat) by now rewrite <- E. rewrite app_length in X. unfold to_lower in X at 1. rewrite map_length in X. unfold zlen in L'. lia.
  - exfalso. assert (X : List.length (to_lower s ++ flat_map to_lower l) = 0%nat) by now rewrite E. rewrite app_length in X. unfold to_lower in X at 1. rewrite map_length in X. unfold zlen in L. lia.
  - apply app_same_length in E; [|unfold to_lower; rewrite !map_length; unfold zlen in *; lia]. destruct E as [-> E]. f_equal. now apply IH.
Qed.
(** The associated data determine the statement. *)
Lemma aad_covers v p q name t : usable p -> y_type p <> [] -> (exists n t', In (n, t') key_types /\ taken_for v (y_type p) n) ->
  usable q -> In (name, t) key_types -> y_type q = txt name -> aad_of p = aad_of q ->
  y_version p = y_version q /\ y_root p = y_root q /\ y_type p = y_type q /\ y_usage p = y_usage q /\ y_child p = y_child q /\
  y_iv p = y_iv q /\ y_c1 p = y_c1 q /\ y_c2 p = y_c2 q /\ y_c3 p = y_c3 q /\ List.map to_lower (y_tas p) = List.map to_lower (y_tas q).
Proof.
  intros P Ne (n & t' & In1 & (more & M)) Q In2 Ty E. unfold aad_of in E. apply app_same_length in E; [|reflexivity]. destruct E as [_ E].
  cbn [app] in E. injection E as Ev E.
  destruct (name_bytes n t' In1) as (Bn & Nn & cn & ln & En & Cn). destruct (name_bytes name t In2) as (Bm & Nm & cm & lm & Em & Cm). rewrite Ty in E.
  assert (Hp : exists c l, y_type p = c :: l /\ c < 99).
  { destruct (y_type p) as [|c l]; [contradiction|]. exists c, l. split; [reflexivity|]. rewrite En in M. cbn [app] in M. injection M as <- _. exact Cn. }
  destruct Hp as (cp & lp & Ep & Cp).
  assert (R : y_root p = y_root q /\ y_type p ++ y_usage p :: (if y_usage p =? 2 then [y_child p] else []) ++ y_iv p ++ y_c1 p ++ y_c2 p ++ y_c3 p ++ flat_map to_lower (y_tas p) =
    txt name ++ y_usage q :: (if y_usage q =? 2 then [y_child q] else []) ++ y_iv q ++ y_c1 q ++ y_c2 q ++ y_c3 q ++ flat_map to_lower (y_tas q)).
  { assert (R1 := us_root p P). assert (R2 := us_root q Q). unfold root_text in E.
    assert (D1 : y_root p = 0 \/ y_root p = 1 \/ y_root p = 2) by lia. assert (D2 : y_root q = 0 \/ y_root q = 1 \/ y_root q = 2) by lia.
    rewrite Ep, Em in *.
    destruct D1 as [D1|[D1|D1]], D2 as [D2|[D2|D2]]; rewrite D1, D2 in E |- *; cbn [app txt] in E;
      try (split; [reflexivity|]; first [exact E|apply app_inv_head in E; exact E]); exfalso; vm_compute in E; try (injection E as X _; lia); discriminate. }
  destruct R as [Er R]. destruct (text_end (txt n) (txt name) (y_type p) _ _ _ _ _ _ Bn Bm M (us_usage p P) (us_usage q Q) R) as (Et & Eu & R2).
  rewrite <- Eu in R2.
  assert (C : y_child p = y_child q /\ y_iv p ++ y_c1 p ++ y_c2 p ++ y_c3 p ++ flat_map to_lower (y_tas p) = y_iv q ++ y_c1 q ++ y_c2 q ++ y_c3 q ++ flat_map to_lower (y_tas q)).
  { assert (C1 := us_child p P). assert (C2 := us_child q Q). destruct (Z.eqb_spec (y_usage p) 2) as [E2|E2]; cbn [app] in R2; [injection R2 as A B; now split|]. split; [lia|exact R2]. }
  destruct C as [Ec R3]. destruct (us_c p P) as (P1 & P2 & P3). destruct (us_c q Q) as (Q1 & Q2 & Q3). assert (Pi := us_iv p P). assert (Qi := us_iv q Q).
  unfold zlen in *. apply app_same_length in R3; [|lia]. destruct R3 as [Ei R3]. apply app_same_length in R3; [|lia]. destruct R3 as [E1 R3].
  apply app_same_length in R3; [|lia]. destruct R3 as [E2 R3]. apply app_same_length in R3; [|lia]. destruct R3 as [E3 R3].
  repeat split; try assumption; try congruence. apply lower_lengths; [apply (us_tas p P)|apply (us_tas q Q)|exact R3].
Qed.

Lemma only_name v n t name u : In (n, t) key_types -> In (name, u) key_types -> taken_for v (txt name) n -> t = u.
Proof.
  intros I1 I2 (more & M). destruct (name_bytes n t I1) as (B1 & _). destruct (name_bytes name u I2) as (B2 & _).
  assert (Pre : exists x, txt n = txt name ++ x).
  { revert M B2. generalize (txt name) as m. generalize (v_behind v (txt n)) as b. revert more. induction (txt n) as [|c l IH]; intros more b m M B2.
    - destruct m as [|d m]; [now exists []|]. injection M as <- _. inversion B2; lia.
    - destruct m as [|d m]; [now exists (c :: l)|]. injection M as <- M. inversion B2; inversion B1; subst. destruct (IH ltac:(assumption) more b m M ltac:(assumption)) as (x & ->). now exists x. }
  destruct Pre as (x & E).
  assert (C : forallb (fun a => forallb (fun b => if list_eq_dec Z.eq_dec (firstn (List.length (txt (fst b))) (txt (fst a))) (txt (fst b)) then String.eqb (fst a) (fst b) else true) key_types) key_types = true) by (vm_compute; reflexivity).
  rewrite forallb_forall in C. specialize (C (n, t) I1). rewrite forallb_forall in C. specialize (C (name, u) I2). cbn [fst] in C.
  rewrite E, firstn_app, firstn_all, Nat.sub_diag, firstn_O, app_nil_r in C. destruct (list_eq_dec _ _ _) as [_|X]; [|now contradiction X].
  apply String.eqb_eq in C. subst n. cbn [key_types In] in I1, I2.
  repeat (destruct I1 as [X|I1]; [injection X as <- <-; repeat (destruct I2 as [Y|I2]; [first [discriminate|injection Y as <-; reflexivity]|]); destruct I2|]). destruct I1.
Qed.
Lemma lower_lower c : lower (if (65 <=? c) && (c <=? 90) then c + 32 else c) = lower c.
Proof. unfold lower. destruct (Z.leb_spec 65 c), (Z.leb_spec c 90); cbn [andb]; try (replace ((65 <=? c) && (c <=? 90)) with false by lia; reflexivity). replace ((65 <=? c + 32) && (c + 32 <=? 90)) with false by lia. reflexivity. Qed.
Lemma lower_nth i l : nth i (to_lower l) 0 = (if (65 <=? nth i l 0) && (nth i l 0 <=? 90) then nth i l 0 + 32 else nth i l 0).
Proof. unfold to_lower. exact (map_nth (fun c => if (65 <=? c) && (c <=? 90) then c + 32 else c) l 0 i). Qed.
Lemma written_lower fuel : forall str len i j id, convert_written fuel (to_lower str) len i j id = convert_written fuel str len i j id.
Proof.
  induction fuel as [|fuel IH]; intros; cbn [convert_written]; [reflexivity|]. destruct (i <? len)%nat; cbn [negb]; [|reflexivity].
  rewrite (lower_nth i str).
  replace ((if (65 <=? nth i str 0) && (nth i str 0 <=? 90) then nth i str 0 + 32 else nth i str 0) =? 45) with (nth i str 0 =? 45)
    by (destruct (Z.leb_spec 65 (nth i str 0)), (Z.leb_spec (nth i str 0) 90); cbn [andb]; lia).
  set (i1 := if nth i str 0 =? 45 then S i else i). rewrite ?lower_nth, ?lower_lower, IH. reflexivity.
Qed.
Lemma entry_lower s : ta_entry (to_lower s) = ta_entry s.
Proof. unfold ta_entry. now rewrite written_lower. Qed.
Lemma entries_lower l l' : List.map to_lower l = List.map to_lower l' -> List.map ta_entry l = List.map ta_entry l'.
Proof.
  intros E. assert (X : forall l, List.map ta_entry l = List.map ta_entry (List.map to_lower l)) by (intros x; rewrite map_map; apply map_ext; intros; symmetry; apply entry_lower).
  rewrite (X l), (X l'). now rewrite E.
Qed.
Lemma rights_same t sub p q parameters : y_usage p = y_usage q -> y_child p = y_child q -> List.map to_lower (y_tas p) = List.map to_lower (y_tas q) ->
  soc_rights t sub p parameters = soc_rights t sub q parameters.
Proof.
  intros E1 E2 E3. unfold soc_rights. rewrite E1, E2. apply entries_lower in E3 as E4.
  assert (L : zlen (y_tas p) = zlen (y_tas q)) by (unfold zlen; rewrite <- (map_length to_lower (y_tas p)), E3, map_length; reflexivity). rewrite L.
  assert (T : (match y_tas p with [] => fill_tas [ALL_MATCH] | _ :: _ => fill_tas (List.map ta_entry (y_tas p)) end) =
              (match y_tas q with [] => fill_tas [ALL_MATCH] | _ :: _ => fill_tas (List.map ta_entry (y_tas q)) end)).
  { rewrite E4. destruct (y_tas p), (y_tas q); try reflexivity; unfold zlen in L; cbn [List.length] in L; lia. }
  destruct (y_tas p) as [|a l], (y_tas q) as [|b l']; try (unfold zlen in L; cbn [List.length] in L; lia); [reflexivity|]. rewrite T. reflexivity.
Qed.

Theorem soc_sealed J e v : good_jlib J -> good_surroundings e -> good_soc v ->
  forall sealed input parameters k, unforgeable J v sealed -> zlen input < 2 ^ 30 - 4 -> import_soc J e v input parameters = Made k ->
  exists q t bytes, sealed q t bytes /\ right_size (j_ulib J) t bytes /\ made_of parameters q t bytes k.
Proof.
  intros GJ Ge Gv sealed input parameters k (S1 & S2) Hn H.
  destruct (soc_from J e v GJ Ge Gv input parameters k Hn H) as (_ & _ & _ & _ & _ & _ & tag & p & _ & _ & _ & _ & _ & _ & _ & Us & Ne & n & t' & bytes & I & T & _ & A & R & M).
  destruct A as (key & D & G). destruct (S2 p key _ _ _ _ _ D G) as (q & t & Sq & Ei & Ea & Ec). destruct (S1 q t bytes Sq) as (Uq & (name & Iq & Ty) & _).
  destruct (aad_covers v p q name t Us Ne (ex_intro _ n (ex_intro _ t' (conj I T))) Uq Iq Ty Ea) as (_ & _ & Et & Eu & Ech & _ & _ & _ & _ & Eta).
  rewrite Et, Ty in T. assert (X := only_name v n t' name t I Iq T). subst t'.
  exists q, t, bytes. split; [exact Sq|]. split; [exact R|]. apply from_of; [exact Uq|].
  destruct t as [[[t size] sub] curve]. destruct M as (r & Hr & ->). exists r. split; [|reflexivity]. rewrite <- Hr. symmetry. now apply rights_same.
Qed.
