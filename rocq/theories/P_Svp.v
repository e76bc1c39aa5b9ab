(** Proofs about buffers and secure-video-path memory. *)
From Verif Require Import Base M_Memory M_Svp S_Svp.

Lemma add_overflow_cases a b : is_u64 a -> is_u64 b ->
  (a + b < 2 ^ 64 /\ add_overflow a b = (false, a + b)) \/
  (2 ^ 64 <= a + b /\ fst (add_overflow a b) = true).
Proof.
  unfold is_u64, add_overflow, wrap64. intros Ha Hb.
  rewrite W64_val in *. change (2 ^ 64) with 18446744073709551616.
  destruct (Z_lt_ge_dec (a + b) 18446744073709551616).
  - left. split; [lia|]. rewrite Z.mod_small by lia. f_equal. lia.
  - right. split; [lia|]. cbn. lia.
Qed.

Ltac addov a b :=
  let H := fresh "Hov" in
  destruct (add_overflow_cases a b) as [[? H]|[? H]];
  [ | | rewrite H | destruct (add_overflow a b) as [[|] ?]; cbn in H; [|discriminate H] ];
  [assumption|assumption| |].

Lemma memory_is_valid_iff l s : is_u64 l -> is_u64 s ->
  memory_is_valid l s = true <-> l <> 0 /\ l + s < 2 ^ 64.
Proof.
  intros Hl Hs. unfold memory_is_valid.
  destruct (Z.eqb_spec l 0); [split; [discriminate|lia]|].
  destruct (add_overflow_cases l s Hl Hs) as [[H E]|[H E]].
  - rewrite E. cbn. split; auto.
  - rewrite E. cbn. split; [discriminate|lia].
Qed.

Lemma created_iff b : created b <->
  is_u64 (sb_memory b) /\ is_u64 (sb_size b) /\ sb_memory b <> 0 /\
  sb_memory b + sb_size b < 2 ^ 64.
Proof.
  unfold created, svp_create_buffer. destruct b as [m s]; cbn.
  split.
  - intros (Hm & Hs & al & H). split; [|split]; auto.
    destruct (Z.eqb_spec m 0); [discriminate|].
    destruct (memory_is_valid m s) eqn:E; cbn in H; [|discriminate].
    apply memory_is_valid_iff in E; auto.
  - intros (Hm & Hs & Hn & Hb). split; [|split]; auto. exists true.
    destruct (Z.eqb_spec m 0); [contradiction|].
    assert (E : memory_is_valid m s = true) by (apply memory_is_valid_iff; auto).
    rewrite E. reflexivity.
Qed.

Lemma created_valid b : created b -> svp_validate_buffer (Some b) = true.
Proof. intros _. cbn. destruct (memory_is_valid _ _); reflexivity. Qed.

Lemma convert_clear_iff base len off n p :
  is_u64 base -> is_u64 len -> is_u64 off -> is_u64 n ->
  convert_clear base len off n = (OK, p) <-> p = base + off /\ inside base len p n.
Proof.
  intros Hb Hl Ho Hn. unfold convert_clear, inside.
  destruct (Z.eqb_spec base 0); [split; [discriminate|intros; lia]|].
  destruct (add_overflow_cases off n) as [[H1 E1]|[H1 E1]]; auto.
  - rewrite E1. destruct (Z.ltb_spec len (off + n)); [split; [discriminate|intros; lia]|].
    destruct (memory_is_valid base len) eqn:E; cbn [negb].
    + apply memory_is_valid_iff in E; auto.
      destruct (add_overflow_cases base off) as [[H2 E2]|[H2 E2]]; auto.
      * rewrite E2. unfold is_u64 in *. split; [intros [= <-]; lia|intros [-> ?]; reflexivity].
      * unfold is_u64 in *. lia.
    + split; [discriminate|]. intros Hx.
      assert (memory_is_valid base len = true) by (apply memory_is_valid_iff; auto; lia). congruence.
  - destruct (add_overflow off n) as [[|] ?]; cbn in E1; [|discriminate].
    unfold is_u64 in *. rewrite W64_val in *. split; [discriminate|intros; lia].
Qed.

Lemma convert_svp_iff b off n p :
  created b -> is_u64 off -> is_u64 n ->
  convert_svp (Some b) off n = (OK, p) <->
  p = sb_memory b + off /\ inside (sb_memory b) (sb_size b) p n.
Proof.
  intros Hc Ho Hn. pose proof (created_valid b Hc) as Hv.
  apply created_iff in Hc. destruct Hc as (Hm & Hs & Hz & Hw).
  unfold convert_svp, svp_get_svp_memory. rewrite Hv. cbn [negb svp_get_size].
  unfold inside.
  destruct (add_overflow_cases off n) as [[H1 E1]|[H1 E1]]; auto.
  - rewrite E1. destruct (Z.eqb_spec (sb_memory b) 0); [contradiction|].
    destruct (Z.ltb_spec (sb_size b) (off + n)); [split; [discriminate|intros; lia]|].
    destruct (add_overflow_cases (sb_memory b) off) as [[H2 E2]|[H2 E2]]; auto.
    + rewrite E2. unfold is_u64 in *. split; [intros [= <-]; lia|intros [-> ?]; reflexivity].
    + unfold is_u64 in *. lia.
  - destruct (add_overflow off n) as [[|] ?]; cbn in E1; [|discriminate].
    unfold is_u64 in *. split; [discriminate|intros; lia].
Qed.

Lemma convert_svp_none off n s p : convert_svp None off n = (s, p) -> s <> OK.
Proof.
  unfold convert_svp. destruct (add_overflow off n) as [[|] ?]; cbn; intros [= <- _]; discriminate.
Qed.

Lemma segment_ok_iff so si s : segment_u64 s ->
  segment_ok so si s = true <-> segment_inside so si s /\
  sg_out s + sg_len s < 2 ^ 64 /\ sg_in s + sg_len s < 2 ^ 64.
Proof.
  intros (H1 & H2 & H3). unfold segment_ok, segment_inside.
  destruct (add_overflow_cases (sg_out s) (sg_len s)) as [[A E]|[A E]]; auto.
  - rewrite E. destruct (Z.ltb_spec so (sg_out s + sg_len s)); [split; [discriminate|lia]|].
    destruct (add_overflow_cases (sg_in s) (sg_len s)) as [[B E']|[B E']]; auto.
    + rewrite E'. destruct (Z.ltb_spec si (sg_in s + sg_len s)); cbn; split; intros; try discriminate; lia.
    + destruct (add_overflow (sg_in s) (sg_len s)) as [[|] ?]; cbn in E'; [|discriminate].
      split; [discriminate|lia].
  - destruct (add_overflow (sg_out s) (sg_len s)) as [[|] ?]; cbn in E; [|discriminate].
    split; [discriminate|lia].
Qed.

Lemma segments_ok_iff so si segs : is_u64 so -> is_u64 si -> Forall segment_u64 segs ->
  forallb (segment_ok so si) segs = true <-> Forall (segment_inside so si) segs.
Proof.
  intros Hso Hsi H. induction H as [|s segs Hs _ IH]; cbn [forallb].
  - split; auto.
  - rewrite andb_true_iff, IH, segment_ok_iff by auto. split.
    + intros ((? & _) & ?). constructor; auto.
    + intros HF. inversion HF; subst. split; [split|]; auto.
      unfold segment_inside, is_u64 in *. rewrite W64_val in *.
      change (2 ^ 64) with 18446744073709551616. lia.
Qed.

Lemma range_ok_iff m a n : range_ok m a n = true <-> live m a n.
Proof.
  unfold range_ok, live. rewrite forallb_forall. split.
  - intros H x Hx. replace x with (a + Z.of_nat (Z.to_nat (x - a))) by lia.
    apply H. apply in_seq. lia.
  - intros H i Hi. apply in_seq in Hi. apply H. lia.
Qed.

Lemma live_sub m a n b k : live m a n -> a <= b -> b + k <= a + n -> live m b k.
Proof. unfold live. intros H ? ? x Hx. apply H. lia. Qed.

Lemma overlapping_iff a b n : overlapping a b n = true <-> exists x, a <= x < a + n /\ b <= x < b + n.
Proof.
  unfold overlapping. rewrite !andb_true_iff, !Z.ltb_lt. split.
  - intros. exists (Z.max a b). lia.
  - intros (x & ?). lia.
Qed.

Lemma memcpy_live m dst src n :
  live m src n -> live m dst n ->
  memcpy m dst src n =
  if overlapping dst src n then MOverlap
  else MOk (MkMem (fun a => if (dst <=? a) && (a <? dst + n) then m_val m (src + (a - dst)) else m_val m a)
                  (m_ok m)).
Proof.
  intros H1 H2. unfold memcpy. apply range_ok_iff in H1, H2. rewrite H1, H2. reflexivity.
Qed.

(** Writing from a source disjoint from the destination buffer. *)
Lemma write_loop_spec dst dlen src slen segs : forall m,
  live m dst dlen -> live m src slen -> disjoint dst dlen src slen ->
  Forall segment_u64 segs -> Forall (segment_inside dlen slen) segs ->
  exists m', write_loop m dst src segs = MOk m' /\ m_ok m' = m_ok m /\
             transferred m m' dst src segs.
Proof.
  induction segs as [|s segs IH]; intros m Hd Hs Hdis Hu Hi; cbn.
  - exists m. repeat split.
  - inversion Hu as [|? ? (U1 & U2 & U3) Hu']; subst. inversion Hi as [|? ? (I1 & I2) Hi']; subst.
    unfold is_u64 in *.
    rewrite memcpy_live.
    2:{ apply (live_sub _ _ _ _ _ Hs); lia. }
    2:{ apply (live_sub _ _ _ _ _ Hd); lia. }
    destruct (overlapping (dst + sg_out s) (src + sg_in s) (sg_len s)) eqn:E.
    { apply overlapping_iff in E. destruct E as (x & ? & ?). unfold disjoint in Hdis. lia. }
    set (m1 := MkMem _ _).
    destruct (IH m1) as (m' & E' & Hok & Ht); auto.
    exists m'. split; [exact E'|]. split; [rewrite Hok; reflexivity|].
    intros a. rewrite (Ht a). cbn.
    destruct (source_of segs (a - dst)) as [j|] eqn:Ej.
    + (* the source byte is not in the destination *)
      assert (Hj : 0 <= j < slen).
      { clear - Ej Hu' Hi'. revert Ej. induction segs as [|t segs IHs]; cbn; [discriminate|].
        inversion Hu' as [|? ? (?&?&?) ?]; inversion Hi' as [|? ? (?&?) ?]; subst.
        destruct (source_of segs (a - dst)); [intros [= <-]; auto|].
        destruct (covers t (a - dst)) eqn:E; [|discriminate].
        intros [= <-]. unfold covers in E. unfold is_u64 in *. lia. }
      unfold disjoint in Hdis.
      destruct ((dst + sg_out s <=? src + j) && (src + j <? dst + sg_out s + sg_len s)) eqn:E2; [|reflexivity].
      lia.
    + unfold covers.
      destruct ((dst + sg_out s <=? a) && (a <? dst + sg_out s + sg_len s)) eqn:E2.
      * replace ((sg_out s <=? a - dst) && (a - dst <? sg_out s + sg_len s)) with true by lia.
        f_equal. lia.
      * replace ((sg_out s <=? a - dst) && (a - dst <? sg_out s + sg_len s)) with false by lia.
        reflexivity.
Qed.

Lemma copy_loop_write_loop dst dlen src slen segs : forall m,
  is_u64 dst -> is_u64 src -> dst + dlen < 2 ^ 64 -> src + slen < 2 ^ 64 ->
  Forall segment_u64 segs -> Forall (segment_inside dlen slen) segs ->
  copy_loop m dst src segs =
  match write_loop m dst src segs with
  | MOk m' => MOk (m', true) | MFault => MFault | MOverlap => MOverlap
  end.
Proof.
  induction segs as [|s segs IH]; intros m Hd Hs H1 H2 Hu Hi; cbn [copy_loop write_loop]; [reflexivity|].
  inversion Hu as [|? ? (U1 & U2 & U3) Hu']; subst. inversion Hi as [|? ? (I1 & I2) Hi']; subst.
  destruct (add_overflow_cases dst (sg_out s)) as [[A E]|[A E]]; auto.
  2:{ unfold is_u64 in *. lia. }
  rewrite E.
  destruct (add_overflow_cases src (sg_in s)) as [[B E']|[B E']]; auto.
  2:{ unfold is_u64 in *. lia. }
  rewrite E'.
  destruct (memcpy m (dst + sg_out s) (src + sg_in s) (sg_len s)); auto.
Qed.

Lemma write_loop_live dst dlen src slen segs : forall m,
  live m dst dlen -> live m src slen ->
  Forall segment_u64 segs -> Forall (segment_inside dlen slen) segs ->
  (write_loop m dst src segs = MOverlap /\ Exists (self_overlap dst src) segs) \/
  (exists m', write_loop m dst src segs = MOk m' /\ ~ Exists (self_overlap dst src) segs /\
     forall a, ~ (dst <= a < dst + dlen) -> m_val m' a = m_val m a).
Proof.
  induction segs as [|s segs IH]; intros m Hd Hs Hu Hi; cbn.
  - right. exists m. repeat split; auto. intros H; inversion H.
  - inversion Hu as [|? ? (U1 & U2 & U3) Hu']; subst. inversion Hi as [|? ? (I1 & I2) Hi']; subst.
    unfold is_u64 in *.
    rewrite memcpy_live; [|apply (live_sub _ _ _ _ _ Hs); lia|apply (live_sub _ _ _ _ _ Hd); lia].
    destruct (overlapping (dst + sg_out s) (src + sg_in s) (sg_len s)) eqn:E.
    + left. split; auto. constructor. apply overlapping_iff in E. exact E.
    + set (m1 := MkMem _ _).
      assert (Hn : ~ self_overlap dst src s).
      { intros Hx. apply overlapping_iff in Hx. congruence. }
      destruct (IH m1) as [(E1 & Hx)|(m' & E1 & Hx & Hv)]; auto.
      right. exists m'. split; auto. split.
      { intros Hy. inversion Hy; auto. }
      intros a Ha. rewrite Hv by auto. cbn.
      destruct ((dst + sg_out s <=? a) && (a <? dst + sg_out s + sg_len s)) eqn:E2; [lia|reflexivity].
Qed.

(** ** [svp_write] and [svp_copy] *)
Lemma svp_write_spec m b in_ in_len segs :
  created b -> is_u64 in_len -> in_ <> 0 -> Forall segment_u64 segs ->
  live m (sb_memory b) (sb_size b) -> live m in_ in_len ->
  disjoint (sb_memory b) (sb_size b) in_ in_len ->
  exists m' r, svp_write m (Some b) in_ in_len (Some segs) = MOk (m', r) /\
    (r = true <-> Forall (segment_inside (sb_size b) in_len) segs) /\
    (r = true -> transferred m m' (sb_memory b) in_ segs) /\
    (r = false -> m' = m).
Proof.
  intros Hc Hl Hz Hu Hd Hs Hdis. pose proof (created_valid b Hc) as Hv.
  apply created_iff in Hc. destruct Hc as (Hm & Hsz & _ & _).
  unfold svp_write. destruct (Z.eqb_spec in_ 0); [contradiction|]. rewrite Hv. cbn [negb].
  destruct (forallb (segment_ok (sb_size b) in_len) segs) eqn:E; cbn [negb].
  - apply segments_ok_iff in E; auto.
    destruct (write_loop_spec (sb_memory b) (sb_size b) in_ in_len segs m) as (m' & E' & Hok & Ht); auto.
    rewrite E'. exists m', true. repeat split; auto. discriminate.
  - exists m, false. repeat split; auto; try discriminate.
    intros H. apply segments_ok_iff in H; auto. congruence.
Qed.

Lemma svp_copy_spec m bo bi segs :
  created bo -> created bi -> Forall segment_u64 segs ->
  live m (sb_memory bo) (sb_size bo) -> live m (sb_memory bi) (sb_size bi) ->
  disjoint (sb_memory bo) (sb_size bo) (sb_memory bi) (sb_size bi) ->
  exists m' r, svp_copy m (Some bo) (Some bi) (Some segs) = MOk (m', r) /\
    (r = true <-> Forall (segment_inside (sb_size bo) (sb_size bi)) segs) /\
    (r = true -> transferred m m' (sb_memory bo) (sb_memory bi) segs) /\
    (r = false -> m' = m).
Proof.
  intros Hco Hci Hu Hd Hs Hdis.
  pose proof (created_valid bo Hco) as Hvo. pose proof (created_valid bi Hci) as Hvi.
  apply created_iff in Hco, Hci. destruct Hco as (Hm & Hsz & _ & Hw). destruct Hci as (Hm' & Hsz' & _ & Hw').
  unfold svp_copy. rewrite Hvo, Hvi. cbn [negb].
  destruct (forallb (segment_ok (sb_size bo) (sb_size bi)) segs) eqn:E; cbn [negb].
  - apply segments_ok_iff in E; auto.
    rewrite (copy_loop_write_loop _ (sb_size bo) _ (sb_size bi)); auto.
    destruct (write_loop_spec (sb_memory bo) (sb_size bo) (sb_memory bi) (sb_size bi) segs m)
      as (m' & E' & Hok & Ht); auto.
    rewrite E'. exists m', true. repeat split; auto. discriminate.
  - exists m, false. repeat split; auto; try discriminate.
    intros H. apply segments_ok_iff in H; auto. congruence.
Qed.

Lemma svp_copy_any m bo bi segs :
  created bo -> created bi -> Forall segment_u64 segs ->
  live m (sb_memory bo) (sb_size bo) -> live m (sb_memory bi) (sb_size bi) ->
  match svp_copy m (Some bo) (Some bi) (Some segs) with
  | MFault => False
  | MOverlap => Forall (segment_inside (sb_size bo) (sb_size bi)) segs /\
                Exists (self_overlap (sb_memory bo) (sb_memory bi)) segs
  | MOk (m', true) => Forall (segment_inside (sb_size bo) (sb_size bi)) segs /\
                      ~ Exists (self_overlap (sb_memory bo) (sb_memory bi)) segs /\
                      forall a, ~ (sb_memory bo <= a < sb_memory bo + sb_size bo) -> m_val m' a = m_val m a
  | MOk (m', false) => ~ Forall (segment_inside (sb_size bo) (sb_size bi)) segs /\ m' = m
  end.
Proof.
  intros Hco Hci Hu Hd Hs.
  pose proof (created_valid bo Hco) as Hvo. pose proof (created_valid bi Hci) as Hvi.
  apply created_iff in Hco, Hci. destruct Hco as (Hm & Hsz & _ & Hw). destruct Hci as (Hm' & Hsz' & _ & Hw').
  unfold svp_copy. rewrite Hvo, Hvi. cbn [negb].
  destruct (forallb (segment_ok (sb_size bo) (sb_size bi)) segs) eqn:E; cbn [negb].
  - apply segments_ok_iff in E; auto.
    rewrite (copy_loop_write_loop _ (sb_size bo) _ (sb_size bi)); auto.
    destruct (write_loop_live (sb_memory bo) (sb_size bo) (sb_memory bi) (sb_size bi) segs m)
      as [(E' & Hx)|(m' & E' & Hx & Hv)]; auto; rewrite E'; auto.
  - split; auto. intros H. apply segments_ok_iff in H; auto. congruence.
Qed.

(** ** Creation *)
Lemma create_buffer_valid memory size alloc : is_u64 memory -> is_u64 size ->
  memory <> 0 -> memory + size < 2 ^ 64 ->
  svp_create_buffer memory size alloc = if alloc then (true, Some (MkSvp memory size)) else (false, None).
Proof.
  intros H1 H2 H3 H4. unfold svp_create_buffer.
  destruct (Z.eqb_spec memory 0); [contradiction|].
  assert (E : memory_is_valid memory size = true) by (apply memory_is_valid_iff; auto).
  rewrite E. destruct alloc; reflexivity.
Qed.

Lemma create_buffer_some memory size alloc r b : is_u64 memory -> is_u64 size ->
  svp_create_buffer memory size alloc = (r, Some b) ->
  b = MkSvp memory size /\ memory <> 0 /\ memory + size < 2 ^ 64.
Proof.
  intros H1 H2. unfold svp_create_buffer.
  destruct (Z.eqb_spec memory 0); [discriminate|].
  destruct (memory_is_valid memory size) eqn:E; cbn; [|discriminate].
  apply memory_is_valid_iff in E; auto.
  destruct alloc; cbn; [|discriminate]. intros [= _ <-]. tauto.
Qed.

Lemma create_buffer_wraps memory size alloc : is_u64 memory -> is_u64 size ->
  memory <> 0 -> 2 ^ 64 <= memory + size ->
  svp_create_buffer memory size alloc = (true, None).
Proof.
  intros H1 H2 H3 H4. unfold svp_create_buffer.
  destruct (Z.eqb_spec memory 0); [contradiction|].
  destruct (memory_is_valid memory size) eqn:E; cbn.
  - apply memory_is_valid_iff in E; auto. lia.
  - reflexivity.
Qed.

Lemma digest_range_spec b off n p l : created b -> is_u64 off -> is_u64 n ->
  svp_digest_range (Some b) off n = DRange p l <->
  l = n /\ p = sb_memory b + off /\ inside (sb_memory b) (sb_size b) p n.
Proof.
  intros Hc Ho Hn. pose proof (created_valid b Hc) as Hv.
  apply created_iff in Hc. destruct Hc as (Hm & Hs & Hz & Hw).
  unfold svp_digest_range. rewrite Hv. cbn [negb]. unfold inside.
  destruct (add_overflow_cases off n) as [[H1 E1]|[H1 E1]]; auto.
  - rewrite E1.
    destruct (Z.ltb_spec (sb_size b) (off + n)); [split; [discriminate|intros; lia]|].
    destruct (add_overflow_cases (sb_memory b) off) as [[H2 E2]|[H2 E2]]; auto.
    + rewrite E2. unfold is_u64 in *. split; [intros [= <- <-]; lia|intros (-> & -> & ?); reflexivity].
    + unfold is_u64 in *. lia.
  - destruct (add_overflow off n) as [[|] ?]; cbn in E1; [|discriminate].
    unfold is_u64 in *. split; [discriminate|intros; lia].
Qed.

Lemma copy_within_one_buffer :
  exists m b segs,
    created b /\ live m (sb_memory b) (sb_size b) /\ Forall segment_u64 segs /\
    Forall (segment_inside (sb_size b) (sb_size b)) segs /\
    svp_copy m (Some b) (Some b) (Some segs) = MOverlap.
Proof.
  exists (MkMem (fun a => a mod 251) (fun a => (8192 <=? a) && (a <? 8192 + 64))),
         (MkSvp 8192 64), [MkSeg 8 0 16].
  repeat split; try (apply created_iff); unfold is_u64; rewrite ?W64_val; cbn; try lia.
  - intros a Ha. cbn. cbn in Ha. lia.
  - repeat constructor; unfold is_u64; rewrite ?W64_val; cbn; lia.
  - repeat constructor; cbn; lia.
Qed.
