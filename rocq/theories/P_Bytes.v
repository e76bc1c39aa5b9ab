(** Proofs about the byte-level helpers. *)
From Verif Require Import Base M_Memory S_Bytes.

Lemma memcmp_zero a : forall b, length a = length b ->
  memcmp_constant a b = 0 <-> a = b.
Proof.
  induction a as [|x a IH]; intros [|y b] H; cbn in *; try lia; try tauto.
  rewrite Z.lor_eq_0_iff, Z.lxor_eq_0_iff, IH by lia.
  split; [intros [-> ->]; reflexivity|intros E; injection E; auto].
Qed.

Lemma number_of_bound l : forall acc, bytes_ok l -> 0 <= acc ->
  acc * 256 ^ zlen l <= number_of acc l < (acc + 1) * 256 ^ zlen l.
Proof.
  unfold zlen. induction l as [|b l IH]; intros acc Hb Ha; cbn [number_of length].
  - change (Z.of_nat 0) with 0. rewrite Z.pow_0_r. lia.
  - inversion Hb as [|b' l' Hb1 Hb2 E]; subst. unfold byte_ok in Hb1.
    specialize (IH (acc * 256 + b) Hb2 ltac:(lia)).
    rewrite Nat2Z.inj_succ, Z.pow_succ_r by lia.
    assert (0 < 256 ^ Z.of_nat (length l)) by (apply Z.pow_pos_nonneg; lia).
    nia.
Qed.

Lemma number_of_inj a : forall b u v, length a = length b -> bytes_ok a -> bytes_ok b ->
  0 <= u -> 0 <= v -> number_of u a = number_of v b -> u = v /\ a = b.
Proof.
  induction a as [|x a IH]; intros [|y b] u v Hl Ha Hb Hu Hv E; cbn in *; try lia; auto.
  inversion Ha; inversion Hb; subst. unfold byte_ok in *.
  destruct (IH b (u * 256 + x) (v * 256 + y)) as [E1 E2]; auto; try lia.
  subst b. split; [lia|f_equal; lia].
Qed.

Lemma memcmp_number a b : length a = length b -> bytes_ok a -> bytes_ok b ->
  memcmp_constant a b = 0 <-> number_of 0 a = number_of 0 b.
Proof.
  intros Hl Ha Hb. rewrite memcmp_zero by auto. split; [intros ->; auto|].
  intros E. apply (number_of_inj a b 0 0); auto; lia.
Qed.

(** ** Padding *)
Lemma forallb_repeat p l : forallb (fun b => b =? p) l = true <-> l = repeat p (length l).
Proof.
  induction l as [|x l IH]; cbn; [tauto|].
  rewrite andb_true_iff, IH, Z.eqb_eq. split; [intros [-> E]; f_equal; auto|].
  intros E; injection E; intros; subst; auto.
Qed.

Lemma nth_repeat_in (p d : Z) n i : (i < n)%nat -> nth i (repeat p n) d = p.
Proof. revert i; induction n; intros [|i] H; cbn; try lia; auto. apply IHn; lia. Qed.

Lemma pad_check_iff block p : length block = 16%nat ->
  pad_check_pkcs7 block = (p, true) <-> pkcs7_block block p.
Proof.
  intros Hl. unfold pad_check_pkcs7, pkcs7_block. split.
  - set (q := nth 15 block 0). destruct ((q <? 1) || (16 <? q)) eqn:Hq; [discriminate|].
    intros E. injection E as <- E. apply forallb_repeat in E.
    split; [lia|]. exists (firstn (Z.to_nat (16 - q)) block).
    split; auto.
    rewrite <- (firstn_skipn (Z.to_nat (16 - q)) block) at 1. f_equal.
    rewrite E. f_equal. rewrite skipn_length. lia.
  - intros (Hp & head & -> & _).
    rewrite app_length, repeat_length in Hl.
    rewrite app_nth2 by lia. rewrite nth_repeat_in by lia.
    replace ((p <? 1) || (16 <? p)) with false by lia.
    f_equal. replace (Z.to_nat (16 - p)) with (length head) by lia.
    rewrite skipn_app, skipn_all, Nat.sub_diag. cbn. apply forallb_repeat.
    now rewrite repeat_length.
Qed.

Definition last16 (l : list Z) : list Z := skipn (length l - 16) l.

Lemma pkcs7_pad_length msg : zlen (pkcs7_pad msg) = PADDED_SIZE (zlen msg).
Proof.
  unfold pkcs7_pad, PADDED_SIZE, zlen. cbn zeta. rewrite app_length, repeat_length. lia.
Qed.

Lemma padded_size_next n : 0 <= n ->
  PADDED_SIZE n mod 16 = 0 /\ n < PADDED_SIZE n <= n + 16.
Proof. unfold PADDED_SIZE. lia. Qed.

Lemma pad_then_strip msg : exists p,
  pad_check_pkcs7 (last16 (pkcs7_pad msg)) = (p, true) /\
  firstn (length (pkcs7_pad msg) - Z.to_nat p) (pkcs7_pad msg) = msg.
Proof.
  exists (16 - zlen msg mod 16). set (p := 16 - zlen msg mod 16).
  assert (Hp : 1 <= p <= 16) by lia.
  assert (Hlen : length (pkcs7_pad msg) = (length msg + Z.to_nat p)%nat).
  { unfold pkcs7_pad. cbn zeta. fold p. now rewrite app_length, repeat_length. }
  assert (H16 : (16 <= length (pkcs7_pad msg))%nat).
  { rewrite Hlen. subst p. unfold zlen in *. lia. }
  split.
  - apply pad_check_iff. { unfold last16. rewrite skipn_length. lia. }
    split; auto. unfold last16.
    exists (skipn (length (pkcs7_pad msg) - 16) msg). split.
    + rewrite Hlen. unfold pkcs7_pad. cbn zeta. fold p. rewrite skipn_app. f_equal.
      replace (length msg + Z.to_nat p - 16 - length msg)%nat with 0%nat by lia. reflexivity.
    + rewrite skipn_length. lia.
  - rewrite Hlen. replace (length msg + Z.to_nat p - Z.to_nat p)%nat with (length msg) by lia.
    unfold pkcs7_pad. cbn zeta. rewrite firstn_app, firstn_all, Nat.sub_diag. cbn.
    apply app_nil_r.
Qed.

Lemma pad_apply_spec msg rest : zlen msg < 16 -> length (msg ++ rest) = 16%nat ->
  pad_apply_pkcs7 (msg ++ rest) (16 - zlen msg) = Some (pkcs7_pad msg).
Proof.
  intros Hm Hl. unfold pad_apply_pkcs7, zlen in *.
  replace ((16 - Z.of_nat (length msg) <? 1) || (16 <? 16 - Z.of_nat (length msg))) with false by lia.
  unfold pkcs7_pad, zlen. cbn zeta. rewrite (Z.mod_small (Z.of_nat (length msg))) by lia.
  do 2 f_equal. replace (Z.to_nat (16 - (16 - Z.of_nat (length msg)))) with (length msg) by lia.
  rewrite firstn_app, firstn_all, Nat.sub_diag. cbn. apply app_nil_r.
Qed.

(** ** UUID text *)
Lemma hex_value_hex c v : hex_value c v ->
  is_hex (lower c) = true /\ hex_digit (lower c) = v /\ c <> 45.
Proof.
  intros H. inversion H; subst; unfold is_hex, lower, hex_digit.
  - replace ((65 <=? 48 + v) && (48 + v <=? 90)) with false by lia.
    replace ((48 <=? 48 + v) && (48 + v <=? 57)) with true by lia. lia.
  - replace ((65 <=? 87 + v) && (87 + v <=? 90)) with false by lia.
    replace ((48 <=? 87 + v) && (87 + v <=? 57)) with false by lia. lia.
  - replace ((65 <=? 55 + v) && (55 + v <=? 90)) with true by lia.
    replace ((48 <=? 55 + v + 32) && (55 + v + 32 <=? 57)) with false by lia. lia.
Qed.

Lemma is_hex_value c : is_hex (lower c) = true -> hex_value c (hex_digit (lower c)).
Proof.
  unfold is_hex, lower, hex_digit. intros H.
  destruct ((65 <=? c) && (c <=? 90)) eqn:U.
  - replace ((48 <=? c + 32) && (c + 32 <=? 57)) with false by lia.
    replace c with (55 + (c + 32 - 97 + 10)) at 1 by lia. apply hv_upper. lia.
  - destruct ((48 <=? c) && (c <=? 57)) eqn:D.
    + replace c with (48 + (c - 48)) at 1 by lia. apply hv_digit. lia.
    + replace c with (87 + (c - 97 + 10)) at 1 by lia. apply hv_lower. lia.
Qed.

Lemma convert_step fuel str len i j id a b :
  nth_error str i = Some a -> nth_error str (S i) = Some b -> (S i < len)%nat ->
  a <> 45 ->
  convert_loop (S fuel) str len i j id =
  if is_hex (lower a) && is_hex (lower b)
  then convert_loop fuel str len (S (S i)) (S j)
         (update j (hex_digit (lower a) * 16 + hex_digit (lower b)) id)
  else ConvFalse.
Proof.
  intros Ha Hb Hl Hn. cbn [convert_loop].
  replace (negb (i <? len)%nat) with false by lia. rewrite Ha.
  replace (a =? 45) with false by lia.
  replace ((len <=? i)%nat) with false by lia. rewrite Ha.
  replace ((len <=? S i)%nat) with false by lia. rewrite Hb. cbn [orb].
  destruct (is_hex (lower a)); cbn [negb andb]; auto.
  destruct (is_hex (lower b)); cbn [negb]; auto.
Qed.

Lemma convert_step_hyphen fuel str len i j id a b :
  nth_error str i = Some 45 -> nth_error str (S i) = Some a ->
  nth_error str (S (S i)) = Some b -> (S (S i) < len)%nat -> a <> 45 ->
  convert_loop (S fuel) str len i j id =
  if is_hex (lower a) && is_hex (lower b)
  then convert_loop fuel str len (S (S (S i))) (S j)
         (update j (hex_digit (lower a) * 16 + hex_digit (lower b)) id)
  else ConvFalse.
Proof.
  intros H0 Ha Hb Hl Hn. cbn [convert_loop].
  replace (negb (i <? len)%nat) with false by lia. rewrite H0.
  change (45 =? 45) with true. cbn [negb].
  replace ((len <=? S i)%nat) with false by lia. rewrite Ha.
  replace ((len <=? S (S i))%nat) with false by lia. rewrite Hb. cbn [orb].
  destruct (is_hex (lower a)); cbn [negb andb]; auto.
  destruct (is_hex (lower b)); cbn [negb]; auto.
Qed.

Lemma hex_text_cons_inv a b cs bs : hex_text (a :: b :: cs) bs ->
  exists x y bs', bs = x * 16 + y :: bs' /\ hex_value a x /\ hex_value b y /\ hex_text cs bs'.
Proof. intros H. inversion H; subst. eauto 8. Qed.

Ltac explode l H :=
  repeat (let x := fresh "c" in destruct l as [|x l]; cbn [length] in H; [lia|]);
  destruct l; cbn [length] in H; [|lia].

Lemma explode8 {A} (l : list A) : length l = 8%nat ->
  exists a b c d e f g h, l = [a; b; c; d; e; f; g; h].
Proof.
  intros H. do 8 (destruct l as [|? l]; [discriminate|]). destruct l; [|discriminate].
  eauto 10.
Qed.
Lemma explode4 {A} (l : list A) : length l = 4%nat -> exists a b c d, l = [a; b; c; d].
Proof.
  intros H. do 4 (destruct l as [|? l]; [discriminate|]). destruct l; [|discriminate].
  eauto 10.
Qed.
Lemma explode12 {A} (l : list A) : length l = 12%nat ->
  exists a b c d e f g h i j k m, l = [a; b; c; d; e; f; g; h; i; j; k; m].
Proof.
  intros H. do 12 (destruct l as [|? l]; [discriminate|]). destruct l; [|discriminate].
  eauto 14.
Qed.

Lemma update_past {A} (done : list A) x y rest :
  update (length done) x (done ++ y :: rest) = (done ++ [x]) ++ rest.
Proof. induction done; cbn; [reflexivity|now rewrite IHdone]. Qed.

Ltac hexes :=
  repeat match goal with
  | H : hex_text (_ :: _ :: _) _ |- _ =>
      apply hex_text_cons_inv in H; destruct H as (? & ? & ? & -> & ? & ? & H)
  end.
Ltac hexrw :=
  repeat match goal with
  | H : hex_value ?c ?v |- _ =>
      let A := fresh in let B := fresh in let C := fresh in
      destruct (hex_value_hex c v H) as (A & B & C); clear H
  end.

Lemma convert_complete str id old :
  uuid_text str id -> length old = 16%nat -> convert_uuid str 36 old = ConvTrue id.
Proof.
  intros (g1 & g2 & g3 & g4 & g5 & -> & H1 & H2 & H3 & H4 & H5 & H) Ho.
  destruct (explode8 g1 H1) as (? & ? & ? & ? & ? & ? & ? & ? & ->).
  destruct (explode4 g2 H2) as (? & ? & ? & ? & ->).
  destruct (explode4 g3 H3) as (? & ? & ? & ? & ->).
  destruct (explode4 g4 H4) as (? & ? & ? & ? & ->).
  destruct (explode12 g5 H5) as (? & ? & ? & ? & ? & ? & ? & ? & ? & ? & ? & ? & ->).
  clear H1 H2 H3 H4 H5. cbn [app] in *.
  hexes. inversion H; subst; clear H.
  do 16 (destruct old as [|? old]; [discriminate|]). destruct old; [|discriminate].
  clear Ho.
  unfold convert_uuid. change (negb (36 =? 36)%nat) with false. cbn iota.
  hexrw.
  repeat first
    [ erewrite convert_step; [|reflexivity|reflexivity|lia|assumption]
    | erewrite convert_step_hyphen; [|reflexivity|reflexivity|reflexivity|lia|assumption] ];
  repeat match goal with
  | A : is_hex (lower ?c) = true |- context [is_hex (lower ?c)] => rewrite A
  | A : hex_digit (lower ?c) = _ |- context [hex_digit (lower ?c)] => rewrite A
  end; cbn [andb].
  reflexivity.
Qed.

Lemma convert_in_bounds_loop fuel : forall str i j id,
  convert_loop fuel str (length str) i j id <> ConvOut.
Proof.
  induction fuel as [|fuel IH]; intros str i j id; cbn [convert_loop]; [discriminate|].
  destruct (negb (i <? length str)%nat) eqn:Hi; [discriminate|].
  destruct (nth_error str i) as [c0|] eqn:E0; [|apply nth_error_None in E0; lia].
  set (i1 := if c0 =? 45 then S i else i).
  destruct (length str <=? i1)%nat eqn:H1; [discriminate|].
  destruct (nth_error str i1) as [c1|] eqn:E1; [|apply nth_error_None in E1; lia].
  destruct ((length str <=? S i1)%nat || negb (is_hex (lower c1))) eqn:H2; [discriminate|].
  destruct (nth_error str (S i1)) as [c2|] eqn:E2; [|apply nth_error_None in E2; lia].
  destruct (negb (is_hex (lower c2))); [discriminate|]. apply IH.
Qed.

Lemma convert_in_bounds str old : convert_uuid str (length str) old <> ConvOut.
Proof.
  unfold convert_uuid. destruct (negb (length str =? 36)%nat); [discriminate|].
  apply convert_in_bounds_loop.
Qed.

Lemma convert_wrong_length str old : length str <> 36%nat ->
  convert_uuid str (length str) old = ConvFalse.
Proof. intros H. unfold convert_uuid. replace (length str =? 36)%nat with false by lia. reflexivity. Qed.

Lemma if_true_inv (b : bool) (x : conv) id : (if b then x else ConvFalse) = ConvTrue id ->
  b = true /\ x = ConvTrue id.
Proof. destruct b; [auto|discriminate]. Qed.

Lemma convert_sound str id old :
  length str = 36%nat -> length old = 16%nat ->
  (forall i, nth_error str i = Some 45 <-> In i [8; 13; 18; 23]%nat) ->
  convert_uuid str 36 old = ConvTrue id -> uuid_text str id.
Proof.
  intros Hs Ho Hh.
  assert (N : forall i c, nth_error str i = Some c -> ~ In i [8; 13; 18; 23]%nat -> c <> 45).
  { intros i c E F ->. apply F. now apply Hh. }
  assert (Y : forall i c, nth_error str i = Some c -> In i [8; 13; 18; 23]%nat -> c = 45).
  { intros i c E F. apply Hh in F. congruence. }
  clear Hh.
  do 36 (destruct str as [|? str]; [discriminate|]). destruct str; [|discriminate].
  do 16 (destruct old as [|? old]; [discriminate|]). destruct old; [|discriminate].
  clear Hs Ho.
  assert (Y8 := Y 8%nat _ eq_refl ltac:(cbn; tauto)).
  assert (Y13 := Y 13%nat _ eq_refl ltac:(cbn; tauto)).
  assert (Y18 := Y 18%nat _ eq_refl ltac:(cbn; tauto)).
  assert (Y23 := Y 23%nat _ eq_refl ltac:(cbn; tauto)).
  cbn in Y8, Y13, Y18, Y23. subst. clear Y.
  unfold convert_uuid. change (negb (36 =? 36)%nat) with false. cbn iota.
  intros H.
  Ltac sound_step N :=
    match goal with
    | H : convert_loop (S _) _ _ ?i _ _ = ConvTrue _ |- _ =>
      first
      [ erewrite convert_step in H; [|reflexivity|reflexivity|lia|
          apply (N i); [reflexivity|cbn; lia]]
      | erewrite convert_step_hyphen in H; [|reflexivity|reflexivity|reflexivity|lia|
          apply (N (S i)); [reflexivity|cbn; lia]] ];
      let A := fresh "X" in
      apply if_true_inv in H; destruct H as [A H]; apply andb_prop in A;
      let B := fresh "X" in destruct A as [A B]; apply is_hex_value in A, B
    end.
  do 16 sound_step N. clear N.
  cbn [convert_loop update] in H. injection H as <-.
  eexists [_; _; _; _; _; _; _; _], [_; _; _; _], [_; _; _; _], [_; _; _; _],
          [_; _; _; _; _; _; _; _; _; _; _; _].
  split; [reflexivity|]. do 5 (split; [reflexivity|]). cbn [app].
  repeat (apply ht_cons; [assumption|assumption|]). constructor.
Qed.

(** Text that is accepted although it is no UUID: 12 groups "-aa". *)
Definition hyphen_pairs : list Z := concat (repeat [45; 97; 97] 12).
Lemma hyphen_pairs_accepted : exists id1 id2,
  length hyphen_pairs = 36%nat /\
  convert_uuid hyphen_pairs 36 (repeat 0 16) = ConvTrue id1 /\
  convert_uuid hyphen_pairs 36 (repeat 255 16) = ConvTrue id2 /\ id1 <> id2.
Proof.
  exists (repeat 170 12 ++ repeat 0 4), (repeat 170 12 ++ repeat 255 4).
  repeat split; try (vm_compute; reflexivity). vm_compute. discriminate.
Qed.

Definition trailing_garbage : list Z := repeat 97 32 ++ [63; 63; 63; 63].
Lemma trailing_garbage_accepted :
  convert_uuid trailing_garbage 36 (repeat 0 16) = ConvTrue (repeat 170 16) /\
  forall id, ~ uuid_text trailing_garbage id.
Proof.
  split; [vm_compute; reflexivity|].
  intros id (g1 & g2 & g3 & g4 & g5 & E & H1 & _).
  destruct (explode8 g1 H1) as (? & ? & ? & ? & ? & ? & ? & ? & ->).
  vm_compute in E. discriminate E.
Qed.

(** "123e4567-e89b-12d3-a456-42661417400A" *)
Definition sample_uuid : list Z :=
  [49;50;51;101;52;53;54;55;45;101;56;57;98;45;49;50;100;51;45;97;52;53;54;45;
   52;50;54;54;49;52;49;55;52;48;48;65].
Lemma sample_uuid_converts :
  convert_uuid sample_uuid 36 (repeat 0 16) =
  ConvTrue [18;62;69;103;232;155;18;211;164;86;66;102;20;23;64;10].
Proof. vm_compute. reflexivity. Qed.

Lemma memcmp_exact a b : length a = length b -> bytes_ok a -> bytes_ok b ->
  (memcmp_constant a b = 0 <-> a = b) /\
  (memcmp_constant a b = 0 <-> number_of 0 a = number_of 0 b).
Proof. intros. split; [now apply memcmp_zero|now apply memcmp_number]. Qed.
