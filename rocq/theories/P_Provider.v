(** Proofs about the provider's ciphers. *)
From Verif Require Import Base S_Bytes M_Mac M_Cipher S_Cipher P_Cipher P_Cipher2 M_Provider S_Provider.

Lemma runs_app L c xs c1 i o : runs L c xs c1 i o -> forall ys c2 i2 o2, runs L c1 ys c2 i2 o2 -> runs L c (xs ++ ys) c2 (i ++ i2) (o ++ o2).
Proof.
  induction 1; intros ys c9 i9 o9 H9; cbn [List.app].
  - exact H9.
  - rewrite <- !app_assoc. eapply runs_ok; eauto.
  - eapply runs_refused; eauto.
  - eapply runs_ask; eauto.
  - eapply runs_asklast; eauto.
Qed.

Lemma splice_length out off (b : list Z) : (off + length b <= length out)%nat -> length (splice out off b) = length out.
Proof. intros H. unfold splice. rewrite !app_length, firstn_length, skipn_length. lia. Qed.
Lemma splice_firstn out off (b : list Z) : (off + length b <= length out)%nat ->
  firstn (off + length b) (splice out off b) = firstn off out ++ b.
Proof.
  intros H. unfold splice. rewrite app_assoc. apply firstn_exact. rewrite app_length, firstn_length. lia.
Qed.
Lemma splice_skipn out off (b : list Z) : (off + length b <= length out)%nat ->
  skipn (off + length b) (splice out off b) = skipn (off + length b) out.
Proof.
  intros H. unfold splice. rewrite app_assoc, skipn_app, skipn_all2 by (rewrite app_length, firstn_length; lia).
  rewrite app_length, firstn_length. replace (_ - _)%nat with 0%nat by lia. reflexivity.
Qed.

Lemma floor_facts (n b : Z) : 0 <= n -> 0 < b -> let m := n / b * b in 0 <= m <= n /\ n - m < b /\ m mod b = 0.
Proof.
  intros Hn Hb m. pose proof (Z.div_mod n b ltac:(lia)) as D. pose proof (Z.mod_pos_bound n b Hb) as M.
  pose proof (Z.div_pos n b Hn Hb). subst m. split; [nia|]. split; [nia|]. apply Z.mod_mul. lia.
Qed.

Section Piece.
Variables (L : clib) (a : calg) (encrypt : bool) (key : list Z) (p1 p2 : input) (c0 : ctx).
Hypotheses (HL : good_clib L) (Ha : k_ahead L = false) (Hc : create a encrypt key p1 p2 = Some c0) (Hs : short_aad a p2).

Definition reached (c : ctx) (ins outs : list Z) : Prop := exists calls, runs L c0 calls c ins outs /\ Forall short calls.

Lemma reached_process c ins outs buf inb n : reached c ins outs -> 0 <= n < 2 ^ 31 -> fits a n buf inb ->
  exists c2 buf2 n2, process L c (Some buf) inb n None = Result OK c2 buf2 n2 n (Null 0) /\ 0 <= n2 <= n /\
    length buf2 = length buf /\ reached c2 (ins ++ firstn (Z.to_nat n) inb) (outs ++ firstn (Z.to_nat n2) buf2).
Proof.
  intros (calls & R & S) Hn Hf.
  destruct (process_history L a encrypt key p1 p2 c0 calls c ins outs buf inb n HL Hc Hs R S Hn Hf (or_introl Ha))
    as (c2 & buf2 & n2 & E & B & Hl & _).
  exists c2, buf2, n2. split; [exact E|]. split; [exact B|]. split; [exact Hl|].
  exists (calls ++ [Process buf inb n]). split.
  - eapply runs_app; [exact R|].
    rewrite <- (app_nil_r (firstn (Z.to_nat n) inb)), <- (app_nil_r (firstn (Z.to_nat n2) buf2)).
    eapply runs_ok; [exact E|constructor].
  - apply Forall_app. split; [exact S|]. constructor; [exact Hn|constructor].
Qed.

(** One update, with an API context. *)
Definition bs_ok (p : pctx) (r : list Z) : Prop := p_alg p = a /\ p_rem p = r /\ (length r < Z.to_nat (block_size a))%nat.

Lemma block_cases : (is_block a = true /\ block_size a = 16) \/ (is_block a = false /\ block_size a = 1).
Proof. unfold block_size. destruct (is_block a); auto. Qed.

Lemma data_step fuel p c ins outs out off inp total pos sum : reached c ins outs -> bs_ok p [] ->
  (0 < fuel)%nat -> (pos <= length inp)%nat -> zlen inp < 2 ^ 31 -> total = zlen inp - Z.of_nat pos ->
  (off <= length out)%nat -> zlen inp - Z.of_nat pos <= zlen out - Z.of_nat off ->
  let n := Z.to_nat ((zlen inp - Z.of_nat pos) / block_size a * block_size a) in
  exists c2 b, update_loop fuel L p c out off inp total pos OK sum [] = Loop OK p c2 (splice out off b) (pos + n) (sum + zlen b) /\
    reached c2 (ins ++ firstn n (skipn pos inp)) (outs ++ b) /\ (length b <= n)%nat /\
    (pos + n <= length inp)%nat /\ (length inp - (pos + n) < Z.to_nat (block_size a))%nat.
Proof.
  intros R (Halg & Hr & _) Hf Hp Hin Ht Ho Hroom n.
  set (m := (zlen inp - Z.of_nat pos) / block_size a * block_size a) in *.
  assert (Hb : 0 < block_size a) by (unfold block_size; destruct (is_block a); lia).
  assert (H0 : 0 <= zlen inp - Z.of_nat pos) by (unfold zlen; lia).
  pose proof (floor_facts _ _ H0 Hb) as (M1 & M2 & M3). fold m in M1, M2, M3.
  assert (Hn : Z.of_nat n = m) by (unfold n; lia).
  destruct fuel as [|fuel]; [lia|]. cbn [update_loop]. rewrite Halg.
  destruct (total <? block_size a) eqn:Et.
  - apply Z.ltb_lt in Et. assert (E0 : m = 0).
    { unfold m. rewrite Z.div_small by lia. reflexivity. }
    exists c, []. replace n with 0%nat by lia. cbn [firstn List.app splice length zlen]. rewrite Nat.add_0_r, !app_nil_r.
    split; [|split; [exact R|unfold zlen in *; lia]].
    f_equal; [|unfold zlen; cbn; lia]. symmetry. unfold splice. cbn [List.app length]. rewrite Nat.add_0_r. apply firstn_skipn.
  - apply Z.ltb_ge in Et. rewrite Hr. fold m. cbn [hd tl].
    assert (Hfit : fits a m (skipn off out) (skipn pos inp)).
    { unfold fits, zlen in *. rewrite !skipn_length. split; [lia|]. split; [lia|].
      intros Hbk. unfold block_size in M3. rewrite Hbk in M3. exact M3. }
    assert (Hm31 : 0 <= m < 2 ^ 31) by lia.
    destruct (reached_process c ins outs _ _ m R Hm31 Hfit) as (c2 & buf2 & n2 & E & B & Hl & R2).
    rewrite E. destruct fuel as [|fuel].
    + cbn [update_loop]. rewrite Halg. assert (Eo : (total - m <? block_size a) = true) by (apply Z.ltb_lt; lia). rewrite Eo.
      exists c2, (firstn (Z.to_nat n2) buf2).
      assert (Hlen : length (firstn (Z.to_nat n2) buf2) = Z.to_nat n2).
      { rewrite firstn_length, Hl, skipn_length. unfold fits, zlen in Hfit. rewrite skipn_length in Hfit. lia. }
      split; [f_equal; unfold zlen; rewrite Hlen; lia|]. split; [exact R2|]. unfold zlen in *. lia.
    + cbn [update_loop]. rewrite Halg. assert (Eo : (total - m <? block_size a) = true) by (apply Z.ltb_lt; lia). rewrite Eo.
      exists c2, (firstn (Z.to_nat n2) buf2).
      assert (Hlen : length (firstn (Z.to_nat n2) buf2) = Z.to_nat n2).
      { rewrite firstn_length, Hl, skipn_length. unfold fits, zlen in Hfit. rewrite skipn_length in Hfit. lia. }
      split; [f_equal; unfold zlen; rewrite Hlen; lia|]. split; [exact R2|]. unfold zlen in *. lia.
Qed.

Lemma update_step ks p c ins outs r out d h : reached c ins outs -> bs_ok p r -> p_key p = Some h -> p_cipher p = Some c ->
  zlen d < 2 ^ 31 -> zlen out = update_room a (zlen d) ->
  exists c2 r2 out2 n, update L ks p out d = Done true (set_rem (set_cipher p (Some c2)) r2) out2 (Some n) /\
    length out2 = length out /\ 0 <= n <= zlen out /\
    let all := joined r d in
    let m := if is_block a then (16 * (length all / 16))%nat else length all in
    reached c2 (ins ++ firstn m all) (outs ++ firstn (Z.to_nat n) out2) /\ r2 = skipn m all /\ (length r2 < Z.to_nat (block_size a))%nat.
Proof.
  intros R (Halg & Hr & Hrl) Hk Hc1 Hd Ho.
  assert (Hb : 0 < block_size a) by (unfold block_size; destruct (is_block a); lia).
  unfold update, cipher_cipher. rewrite Hk, Hc1. cbn [p_rem set_cipher]. rewrite Hr.
  set (q := set_cipher p (Some c)).
  assert (Hq : bs_ok q r) by (unfold bs_ok, q; cbn; auto).
  assert (Hroom : zlen d <= zlen out) by (rewrite Ho; unfold update_room; destruct (block_size a =? 1); lia).
  destruct r as [|r0 r'].
  - (* no rest *)
    destruct (data_step 2 q c ins outs out 0 d (zlen ([] : list Z) + zlen d) 0 0 R Hq) as (c2 & b & E & R2 & Hbl & Hp & Hrest);
      try lia; try (unfold zlen in *; cbn in *; lia).
    rewrite E. cbn [Nat.add] in *. cbn [skipn] in R2.
    set (n := Z.to_nat ((zlen d - Z.of_nat 0) / block_size a * block_size a)) in *.
    assert (Hn : n = if is_block a then (16 * (length d / 16))%nat else length d).
    { unfold n. unfold zlen. rewrite Z.sub_0_r. unfold block_size. destruct (is_block a).
      - rewrite Z2Nat.inj_mul, Z2Nat.inj_div by (try apply Z.div_pos; lia).
        rewrite Nat2Z.id. change (Z.to_nat 16) with 16%nat. lia.
      - rewrite Z.div_1_r. lia. }
    exists c2, (skipn n d), (splice out 0 b), (zlen b).
    assert (Hj : joined [] d = d) by (unfold joined; destruct d; reflexivity).
    cbv zeta. rewrite Hj, <- Hn. assert (Hbo : (0 + length b <= length out)%nat) by (unfold zlen in *; lia).
    split.
    { destruct (n <? length d)%nat eqn:El.
      - reflexivity.
      - apply Nat.ltb_ge in El. rewrite skipn_all2 by lia. unfold q, set_rem, set_cipher. cbn. rewrite Hr. reflexivity. }
    split; [now apply splice_length|]. split; [unfold zlen in *; lia|].
    split; [|split; [reflexivity|rewrite skipn_length; exact Hrest]].
    unfold zlen. rewrite Nat2Z.id. pose proof (splice_firstn out 0 b Hbo) as Ef. cbn [Nat.add firstn List.app] in Ef. rewrite Ef. exact R2.
  - (* a rest: a block cipher *)
    assert (Hbk : is_block a = true /\ block_size a = 16).
    { destruct block_cases as [H|[_ H]]; [exact H|]. rewrite H in Hrl. cbn in Hrl. lia. }
    destruct Hbk as (Hbk & Hbs). rewrite Hbs in Hrl. change (Z.to_nat 16) with 16%nat in Hrl.
    set (r := r0 :: r') in *.
    assert (Hr0 : (0 < length r)%nat) by (unfold r; cbn; lia).
    unfold update_room in Ho. rewrite Hbs in Ho. cbn in Ho.
    destruct (zlen r + zlen d <? 16) eqn:Et.
    + (* not a block *)
      cbn [update_loop]. replace (p_alg q) with a by (symmetry; exact (proj1 Hq)). rewrite Hbs, Et.
      assert (Hj : joined r d = match d with [] => r | _ => d end).
      { unfold joined, r. destruct d; [apply app_nil_r|]. fold r. rewrite Et. reflexivity. }
      apply Z.ltb_lt in Et. unfold zlen in Et.
      exists c, (match d with [] => r | _ => d end), out, 0. cbv zeta. rewrite Hj, Hbk. change (Z.to_nat 16) with 16%nat.
      assert (Hz : (length (match d with [] => r | _ => d end) < 16)%nat) by (destruct d; [exact Hrl|lia]).
      split.
      { destruct d; cbn [length Nat.ltb Nat.leb]; [|reflexivity].
        unfold q, set_rem, set_cipher. cbn. rewrite Hr. reflexivity. }
      split; [reflexivity|]. split; [unfold zlen; lia|].
      rewrite (Nat.div_small _ 16 Hz). cbn [Nat.mul firstn skipn Z.to_nat]. rewrite !app_nil_r.
      split; [exact R|]. split; [reflexivity|exact Hz].
    + (* the block is completed *)
      apply Z.ltb_ge in Et. unfold zlen in Et.
      assert (Hj : joined r d = r ++ d).
      { unfold joined, r. destruct d as [|d0 d']; [reflexivity|]. fold r. rewrite (proj2 (Z.ltb_ge _ _)); [reflexivity|unfold zlen; lia]. }
      assert (Hone : exists one, one = 1%nat) by eauto. destruct Hone as (one & Hone).
      replace (update_loop 2) with (update_loop (S one)) by (now rewrite Hone).
      cbn [update_loop]. replace (p_alg q) with a by (symmetry; exact (proj1 Hq)). rewrite Hbs.
      rewrite (proj2 (Z.ltb_ge _ _)) by (unfold zlen; lia).
      change (p_rem q) with (p_rem p). rewrite Hr. unfold r at 1. fold r. cbn [skipn Nat.add hd tl].
      change (Z.to_nat 16) with 16%nat.
      set (k := (16 - length r)%nat). set (blk := r ++ firstn k d).
      assert (Hblk : length blk = 16%nat) by (unfold blk; rewrite app_length, firstn_length; lia).
      assert (Hfit : fits a 16 out blk).
      { unfold fits, zlen in *. rewrite Hblk. split; [lia|]. split; [lia|]. reflexivity. }
      assert (H16 : 0 <= 16 < 2 ^ 31) by lia.
      destruct (reached_process c ins outs out blk 16 R H16 Hfit) as (c2 & buf2 & n2 & E & B & Hl & R2).
      rewrite E. change (Z.to_nat 16) with 16%nat in R2. rewrite (firstn_all2 blk) in R2 by lia.
      set (b2 := firstn (Z.to_nat n2) buf2) in *.
      assert (Hb2 : length b2 = Z.to_nat n2) by (unfold b2; rewrite firstn_length, Hl; unfold zlen in *; lia).
      assert (Hq2 : bs_ok (set_rem q []) []).
      { unfold bs_ok, q. cbn. rewrite Hbs. change (Z.to_nat 16) with 16%nat. split; [exact Halg|]. split; [reflexivity|lia]. }
      assert (Hs2 : length (splice out 0 b2) = length out) by (apply splice_length; unfold zlen in *; lia).
      destruct (data_step one (set_rem q []) c2 _ _ (splice out 0 b2) (Z.to_nat n2) d (zlen r + zlen d - 16) k (0 + n2) R2 Hq2)
        as (c3 & b3 & E3 & R3 & Hb3 & Hp3 & Hr3);
        try lia; try (unfold zlen in *; rewrite ?Hs2; lia).
      rewrite Hbs in *.
      rewrite E3.
      set (n := Z.to_nat ((zlen d - Z.of_nat k) / 16 * 16)) in *.
      assert (Hn : (16 + n = 16 * (length (r ++ d) / 16))%nat).
      { unfold n, zlen. rewrite app_length. rewrite Z2Nat.inj_mul, Z2Nat.inj_div by (try apply Z.div_pos; lia).
        change (Z.to_nat 16) with 16%nat. replace (Z.to_nat (Z.of_nat (length d) - Z.of_nat k)) with (length d - k)%nat by lia.
        replace (length r + length d)%nat with (1 * 16 + (length d - k))%nat by lia.
        rewrite Nat.div_add_l by lia. lia. }
      exists c3, (skipn (k + n) d), (splice (splice out 0 b2) (Z.to_nat n2) b3), (0 + n2 + zlen b3).
      cbv zeta. rewrite Hj, Hbk, <- Hn.
      assert (Hall : firstn (16 + n) (r ++ d) = blk ++ firstn n (skipn k d)).
      { unfold blk. rewrite <- app_assoc. rewrite firstn_app. rewrite firstn_all2 by lia. f_equal.
        rewrite <- (firstn_skipn k d) at 1. rewrite firstn_app, firstn_length. rewrite firstn_all2 by (rewrite firstn_length; lia).
        f_equal. f_equal. unfold zlen in *. lia. }
      split.
      { destruct (k + n <? length d)%nat eqn:El.
        - reflexivity.
        - apply Nat.ltb_ge in El. rewrite (skipn_all2 (n := k + n) d) by lia. unfold q, set_rem, set_cipher. reflexivity. }
      assert (Hfit3 : (Z.to_nat n2 + length b3 <= length (splice out 0 b2))%nat) by (rewrite Hs2; unfold zlen in *; lia).
      split; [rewrite splice_length by exact Hfit3; exact Hs2|].
      split; [unfold zlen in *; lia|].
      split.
      { rewrite Hall. rewrite app_assoc. replace (Z.to_nat (0 + n2 + zlen b3)) with (Z.to_nat n2 + length b3)%nat by (unfold zlen; lia).
        rewrite splice_firstn by exact Hfit3.
        assert (Hbo : (0 + length b2 <= length out)%nat) by (unfold zlen in *; lia).
        pose proof (splice_firstn out 0 b2 Hbo) as Ef. cbn [Nat.add firstn List.app] in Ef. rewrite Hb2 in Ef. rewrite Ef.
        rewrite app_assoc. exact R3. }
      split.
      { rewrite skipn_app, (skipn_all2 r) by lia. cbn [List.app]. f_equal. lia. }
      rewrite skipn_length. exact Hr3.
Qed.
End Piece.
