(** Proofs about common encryption. *)
From Verif Require Import Base M_Memory M_Svp S_Svp P_Svp M_Cenc S_Cenc.

Lemma range_ok_live m a n : live m a n -> range_ok m a n = true.
Proof.
  intros H. unfold range_ok. apply forallb_forall. intros i Hi. apply in_seq in Hi. apply H. lia.
Qed.
Lemma overlapping_disjoint a b n : disjoint a n b n -> overlapping a b n = false.
Proof. unfold disjoint, overlapping. intros H. lia. Qed.

Lemma if_false (b : bool) (A B : Prop) : b = false -> B -> if b then A else B.
Proof. intros ->. auto. Qed.

(** The arithmetic of the roll-over branch: [e] is 1 if there is a leading part. *)
Lemma roll_bounds c nb nfull e c1 : 0 <= c < W64 -> (c = 0 /\ nb = 0) \/ (0 < c /\ nb = W64 - c) -> 0 <= nfull < 2 ^ 31 ->
  e = 0 \/ e = 1 -> nb <= nfull + e -> e = 0 \/ nb <= 1 \/ nb = nfull + 1 -> c1 = (c + e) mod W64 ->
  0 <= Z.min nb nfull <= nfull /\ (0 < Z.min nb nfull -> c1 + (Z.min nb nfull - 1) < W64) /\
  (Z.min nb nfull < nfull -> (c1 + Z.min nb nfull) mod W64 + (nfull - Z.min nb nfull) < W64).
Proof.
  assert (W : 2 ^ 33 < W64) by reflexivity. assert (P : 2 ^ 31 = 2147483648 /\ 2 ^ 33 = 8589934592) by (split; reflexivity).
  destruct P as [P31 P33]. rewrite P31, P33 in *. clear P31 P33. generalize dependent W64. intros w W Hc Hnb Hf He Hroll Hk Hc1.
  assert (M : forall a, 0 <= a < w -> a mod w = a) by (intros; now apply Z.mod_small).
  assert (M' : forall a, a = w -> a mod w = 0) by (intros a ->; apply Z.mod_same; lia).
  assert (D : (c + e < w /\ c1 = c + e) \/ (c + e = w /\ c1 = 0)).
  { destruct (Z.eq_dec (c + e) w) as [E|E]; [right; split; [exact E|]; rewrite Hc1; now apply M'|].
    left. split; [lia|]. rewrite Hc1. apply M. lia. }
  clear Hc1. split; [lia|]. split; [lia|]. intros Hlt.
  destruct (Z.eq_dec (c1 + Z.min nb nfull) w) as [E|E]; [rewrite (M' _ E); lia|].
  rewrite M by lia. lia.
Qed.

(** ** Positions and ranks *)
Section Ranks.
Variables (f : scheme) (subs : list (Z * Z)).
Notation enc := (encrypted f subs).
Lemma between_nil a : between f subs a a = 0.
Proof. unfold between. now rewrite Z.sub_diag. Qed.
Lemma between_snoc a b : a <= b -> between f subs a (b + 1) = between f subs a b + (if enc b then 1 else 0).
Proof.
  intros H. unfold between.
  replace (Z.to_nat (b + 1 - a)) with (Z.to_nat (b - a) + 1)%nat by lia.
  rewrite seq_app, filter_app, app_length. cbn [seq filter Nat.add].
  replace (a + Z.of_nat (Z.to_nat (b - a))) with b by lia.
  destruct (enc b); cbn [length]; lia.
Qed.
Lemma between_run e a b n : a <= b -> 0 <= n -> (forall t, 0 <= t < n -> enc (b + t) = e) ->
  between f subs a (b + n) = between f subs a b + (if e then n else 0).
Proof.
  intros Hab Hn. revert n Hn.
  refine (natlike_ind _ _ _).
  - intros _. rewrite Z.add_0_r. destruct e; lia.
  - intros n Hn IH H. unfold Z.succ. rewrite Z.add_assoc, between_snoc by lia.
    rewrite IH by (intros t Ht; apply H; lia). rewrite (H n) by lia. destruct e; lia.
Qed.
Lemma between_nonneg a b : 0 <= between f subs a b.
Proof. unfold between. lia. Qed.
End Ranks.

Lemma total_app a b : total (a ++ b) = total a + total b.
Proof. induction a as [|[c p] a IH]; cbn [total fold_right app fst snd]; [reflexivity|]. unfold total in *. rewrite IH. lia. Qed.
Lemma total_nonneg subs : subs_u64 subs -> 0 <= total subs.
Proof.
  unfold subs_u64, is_u64. induction 1 as [|[c p] l [H1 H2] _ IH]; cbn [total fold_right fst snd] in *; [lia|].
  unfold total in *. lia.
Qed.

Lemma encrypted_at f pre c p rest j : subs_u64 pre -> 0 <= c -> 0 <= p -> total pre <= j ->
  encrypted f (pre ++ (c, p) :: rest) j =
  let i := j - total pre in
  if i <? c then false else if i <? c + p then encrypted_in f p (i - c) else encrypted f rest (i - c - p).
Proof.
  intros Hp Hc Hpp. revert j. induction Hp as [|[a b] l [H1 H2] Hl IH]; intros j Hj; cbn [app encrypted total fold_right fst snd] in *.
  - rewrite Z.sub_0_r. reflexivity.
  - unfold is_u64 in *. fold (total l) in *. pose proof (total_nonneg l Hl).
    replace (j <? a) with false by lia. replace (j <? a + b) with false by lia.
    rewrite IH by lia. cbn zeta. replace (j - a - b - total l) with (j - (a + b + total l)) by lia. reflexivity.
Qed.
Lemma sub_start_at pre c p rest j : subs_u64 pre -> 0 <= c -> 0 <= p -> total pre <= j < total pre + c + p ->
  sub_start (pre ++ (c, p) :: rest) j = total pre.
Proof.
  intros Hp Hc Hpp. revert j. induction Hp as [|[a b] l [H1 H2] Hl IH]; intros j Hj; cbn [app sub_start total fold_right fst snd] in *.
  - replace (j <? c + p) with true by lia. reflexivity.
  - unfold is_u64 in *. fold (total l) in *. pose proof (total_nonneg l Hl).
    replace (j <? a + b) with false by lia. rewrite IH by lia. lia.
Qed.

(** ** One sample *)
Section Sample.
Variables (g : engine) (x : sample) (out in_ : Z) (ctr : bool) (m0 : mem).
Notation f := (MkScheme ctr (x_crypt x) (x_skip x)).
Notation subs := (x_subs x).
Notation n := (total (x_subs x)).
Notation enc := (encrypted f subs).
Hypothesis Hsubs : subs_u64 subs.
Hypothesis Hiv : is_u64 (iv_nonce (x_iv x)) /\ is_u64 (iv_counter (x_iv x)).
Hypothesis Hmod : moderate f subs.
Hypothesis Hout : live m0 out n.
Hypothesis Hin : live m0 in_ n.
Hypothesis Hdis : disjoint out n in_ n.
Let src (i : Z) : Z := m_val m0 (in_ + i).

(** What byte [j] of the output may be. *)
Definition good (j v : Z) : Prop :=
  if enc j then
    let k := rank f subs j in
    if ctr then v = Z.lxor (src j) (e_stream g (MkIv (iv_nonce (x_iv x)) ((iv_counter (x_iv x) + k / 16) mod 2 ^ 64)) (k mod 16))
    else exists q, v = Z.lxor (e_dec g (block_at src (j - k mod 16)) (k mod 16)) q /\
        (k < 16 -> q = iv_byte (x_iv x) k) /\
        (16 <= k -> exists j', enc j' = true /\ chain_start f subs j' = chain_start f subs j /\
                    rank f subs j' = k - 16 /\ q = src j')
  else v = src j.

(** Memory when nothing outside the output has changed, and when moreover the first [o] bytes of
    the output are right. *)
Definition kept (m : mem) : Prop := outside_kept m0 m out n.
Definition pre (m : mem) (o : Z) : Prop := kept m /\ forall j, 0 <= j < o -> good j (m_val m (out + j)).

Lemma kept_src m i : kept m -> 0 <= i < n -> m_val m (in_ + i) = src i.
Proof. intros [_ H] Hi. apply H. unfold disjoint in Hdis. lia. Qed.
Lemma kept_ranges m o k : kept m -> 0 <= o -> 0 <= k -> o + k <= n ->
  range_ok m (in_ + o) k = true /\ range_ok m (out + o) k = true /\ overlapping (out + o) (in_ + o) k = false.
Proof.
  intros [H _] Ho Hk Hn. split; [|split].
  - apply range_ok_live. intros a Ha. rewrite H. apply Hin. lia.
  - apply range_ok_live. intros a Ha. rewrite H. apply Hout. lia.
  - apply overlapping_disjoint. unfold disjoint in *. lia.
Qed.
(** Writing [k] bytes at [o]. *)
Lemma kept_write m o k h : kept m -> 0 <= o -> 0 <= k -> o + k <= n ->
  kept (MkMem (fun a => if (out + o <=? a) && (a <? out + o + k) then h a else m_val m a) (m_ok m)).
Proof.
  intros [H1 H2] Ho Hk Hn. split; [exact H1|]. intros a Ha. cbn [m_val].
  replace ((out + o <=? a) && (a <? out + o + k)) with false by lia. now apply H2.
Qed.
Lemma pre_write m o k h : pre m o -> 0 <= o -> 0 <= k -> o + k <= n ->
  (forall t, 0 <= t < k -> good (o + t) (h (out + o + t))) ->
  pre (MkMem (fun a => if (out + o <=? a) && (a <? out + o + k) then h a else m_val m a) (m_ok m)) (o + k).
Proof.
  intros [H1 H2] Ho Hk Hn H. split; [now apply kept_write|]. intros j Hj. cbn [m_val].
  destruct (j <? o) eqn:E.
  - replace ((out + o <=? out + j) && (out + j <? out + o + k)) with false by lia. apply H2. lia.
  - replace ((out + o <=? out + j) && (out + j <? out + o + k)) with true by lia.
    specialize (H (j - o)). replace (o + (j - o)) with j in H by lia.
    replace (out + o + (j - o)) with (out + j) in H by lia. apply H. lia.
Qed.

Lemma copy_kept s o k : kept (c_mem s) -> 0 <= o -> 0 <= k -> o + k <= n ->
  exists m, copy s (out + o) (in_ + o) k = CDone (set_mem s m) /\ kept m /\
  (pre (c_mem s) o -> (forall t, 0 <= t < k -> enc (o + t) = false) -> pre m (o + k)).
Proof.
  intros H Ho Hk Hn. destruct (kept_ranges _ o k H Ho Hk Hn) as (R1&R2&R3).
  unfold copy, memcpy. rewrite R1, R2, R3. cbn [negb andb of_mres bind].
  eexists. split; [reflexivity|]. split; [now apply kept_write|].
  intros P N. apply pre_write; auto. intros t Ht. unfold good. rewrite N by lia.
  replace (in_ + o + (out + o + t - (out + o))) with (in_ + (o + t)) by lia. apply kept_src; [exact H|lia].
Qed.

(** Only calls made, memory and cipher state differ. *)
Definition same_vars (s s' : cst) : Prop :=
  c_iv s' = c_iv s /\ c_enc s' = c_enc s /\ c_ans s' = c_ans s /\ c_calls s' = S (c_calls s).
Lemma to_int_small k : 0 <= k < 2 ^ 31 -> to_int k = k.
Proof. intros H. unfold to_int. rewrite Z.mod_small by lia. replace (k <? 2 ^ 31) with true by lia. reflexivity. Qed.

Lemma ctx_decrypt_cases s o k : kept (c_mem s) -> 0 <= o -> 0 < k < 2 ^ 31 -> o + k <= n ->
  (is_ctr (c_evp s) = false -> k mod 16 = 0) ->
  (answer s = false /\ ctx_decrypt g s (out + o) (in_ + o) k = CDone (called s, (INTERNAL_ERROR, 0))) \/
  (answer s = true /\ exists s', ctx_decrypt g s (out + o) (in_ + o) k = CDone (s', (OK, k)) /\
    same_vars s s' /\ kept (c_mem s') /\
    c_evp s' = evp_after (c_evp s) (fun i => m_val (c_mem s) (in_ + o + i)) k /\
    (pre (c_mem s) o ->
     (forall t, 0 <= t < k -> good (o + t) (evp_byte g (c_evp s) (fun i => m_val (c_mem s) (in_ + o + i)) t)) ->
     pre (c_mem s') (o + k))).
Proof.
  intros H Ho Hk Hn Hal. destruct (kept_ranges _ o k H Ho ltac:(lia) Hn) as (R1&R2&R3).
  unfold ctx_decrypt.
  replace (negb (is_ctr (c_evp s)) && negb (k mod 16 =? 0)) with false
    by (destruct (is_ctr (c_evp s)); [reflexivity|]; specialize (Hal eq_refl); lia).
  rewrite to_int_small by lia. cbn zeta. replace (k <? 0) with false by lia. replace (k =? 0) with false by lia.
  rewrite R1, R2, R3. destruct (answer s); cbn [orb negb andb]; [right|left; auto].
  split; [reflexivity|]. eexists. split; [reflexivity|]. split; [repeat split|].
  cbn [c_mem set_evp set_mem called c_evp]. split; [apply kept_write; auto; lia|]. split; [reflexivity|].
  intros P G. apply pre_write; auto; [lia|]. intros t Ht. replace (out + o + t - (out + o)) with t by lia. now apply G.
Qed.

(** *** Counter mode *)
Notation nonce := (iv_nonce (x_iv x)).
Notation count0 := (iv_counter (x_iv x)).
(** The cipher context stands at byte [r] of the block with counter [c]. *)
Definition at_block (e : evp) (c r : Z) : Prop :=
  exists v used, e = Ctr v used /\ 0 <= used /\ iv_nonce v = nonce /\ 0 <= iv_counter v /\
    iv_counter v + used / 16 = c /\ used mod 16 = r.
Lemma stream_bytes s o k K c : ctr = true -> kept (c_mem s) -> 0 <= o -> o + k <= n -> 0 <= K ->
  at_block (c_evp s) c (K mod 16) -> 0 <= c -> c = (count0 + K / 16) mod W64 -> c + (K mod 16 + k - 1) / 16 < W64 ->
  (forall t, 0 <= t < k -> enc (o + t) = true /\ rank f subs (o + t) = K + t) ->
  forall t, 0 <= t < k -> good (o + t) (evp_byte g (c_evp s) (fun i => m_val (c_mem s) (in_ + o + i)) t).
Proof.
  intros Hc H Ho Hn HK (v&used&E&Hu&Hv&Hv0&Hcu&Hr) Hc0 Hcc Hcar He t Ht.
  destruct (He t Ht) as [E1 E2]. unfold good. rewrite E1, E2, Hc. cbn zeta.
  rewrite E. cbn [evp_byte]. replace (in_ + o + t) with (in_ + (o + t)) by lia. rewrite kept_src by (auto; lia). f_equal.
  assert (A : (used + t) / 16 = used / 16 + (K mod 16 + t) / 16).
  { rewrite (Z.div_mod used 16) at 1 by lia. rewrite Hr. rewrite <- Z.add_assoc, (Z.mul_comm 16), Z.div_add_l by lia. reflexivity. }
  assert (B : (K + t) / 16 = K / 16 + (K mod 16 + t) / 16).
  { rewrite (Z.div_mod K 16) at 1 by lia. rewrite <- Z.add_assoc, (Z.mul_comm 16), Z.div_add_l by lia. reflexivity. }
  assert (D : (K mod 16 + t) / 16 <= (K mod 16 + k - 1) / 16) by (apply Z.div_le_mono; lia).
  assert (D0 : 0 <= (K mod 16 + t) / 16) by (apply Z.div_pos; [|lia]; pose proof (Z.mod_pos_bound K 16); lia).
  assert (F : (used + t) mod 16 = (K + t) mod 16).
  { rewrite (Z.add_mod used), (Z.add_mod K) by lia. now rewrite Hr. }
  rewrite F. f_equal. unfold ctr_add. rewrite A, B, Hv.
  set (d := (K mod 16 + t) / 16) in *. change (2 ^ 64) with W64.
  assert (W : 0 < W64) by reflexivity.
  destruct Hiv as [[N1 N2] [C1 C2]].
  replace (nonce * W64 + iv_counter v + (used / 16 + d)) with (nonce * W64 + (c + d)) by lia.
  f_equal; unfold wrap64.
  - rewrite Z.div_add_l by lia. rewrite (Z.div_small (c + d)) by lia. rewrite Z.add_0_r. apply Z.mod_small. lia.
  - rewrite (Z.add_comm (nonce * W64)), Z.mod_add by lia. rewrite (Z.add_assoc count0), Hcc.
    apply Zplus_mod_idemp_l.
Qed.

(** The state when [K] encrypted bytes have been processed. *)
Definition synced (s : cst) (K : Z) : Prop :=
  iv_nonce (c_iv s) = nonce /\ iv_counter (c_iv s) = (count0 + K / 16) mod W64 /\
  at_block (c_evp s) (iv_counter (c_iv s)) (K mod 16) /\ c_enc s mod 16 = K mod 16 /\ 0 <= K.
Definition failed (s s' : cst) : Prop := exists i, (c_calls s <= i < c_calls s')%nat /\ c_ans s i = false.
Definition answered (s s' : cst) : Prop := forall i, (c_calls s <= i < c_calls s')%nat -> c_ans s i = true.
(** The outcome of a part of the work that takes offset [o] to [o'] and [K] to [K']. *)
Definition outcome (P : cst -> Prop) (s s' : cst) (st : status) (o' : Z) : Prop :=
  c_ans s' = c_ans s /\ (c_calls s <= c_calls s')%nat /\ kept (c_mem s') /\
  (st = OK -> answered s s' /\ P s' /\ pre (c_mem s') o') /\ (st <> OK -> failed s s').
Lemma wrap16 a : wrap64 a mod 16 = a mod 16.
Proof. unfold wrap64. change W64 with (2 ^ 60 * 16). rewrite Z.mul_comm, Z.rem_mul_r by lia.
  rewrite Z.mul_comm, Z.mod_add by lia. apply Z.mod_mod. lia.
Qed.

Lemma rest_ok s o p done K L F : ctr = true -> pre (c_mem s) (o + done) -> 0 <= o -> 0 <= done -> 0 < p - done < 2 ^ 31 ->
  o + p <= n -> synced s K ->
  (forall t, 0 <= t < p - done -> enc (o + done + t) = true /\ rank f subs (o + done + t) = K + t) ->
  F + (if 0 <? L then 1 else 0) = (K mod 16 + (p - done)) / 16 ->
  iv_counter (c_iv s) + (K mod 16 + (p - done)) / 16 < W64 ->
  exists s' st, decrypt_rest g s (out + o) (in_ + o) p done L F = CDone (s', st) /\
    outcome (fun s' => synced s' (K + (p - done))) s s' st (o + p).
Proof.
  intros Hc P Ho Hd Hp Hn (S1&S2&S3&S4&S5) He HF Hcar.
  unfold decrypt_rest. replace (out + o + done) with (out + (o + done)) by lia.
  replace (in_ + o + done) with (in_ + (o + done)) by lia.
  assert (is_ctr (c_evp s) = true) as Hct by (destruct S3 as (v&u&E&_); now rewrite E).
  destruct (ctx_decrypt_cases s (o + done) (p - done)) as [[A ->]|(A&s'&->&(V1&V2&V3&V4)&Hk&Hev&Hpre)];
    [exact (proj1 P)|lia|lia|lia|congruence| |]; cbn [bind status_eqb negb].
  - eexists _, _. split; [reflexivity|]. split; [reflexivity|]. split; [cbn; lia|]. split; [exact (proj1 P)|].
    split; [discriminate|]. intros _. exists (c_calls s). split; [cbn; lia|exact A].
  - eexists _, _. split; [reflexivity|]. split; [exact V3|]. split; [cbn; lia|]. split; [exact Hk|].
    split; [intros _|congruence]. split; [|split].
    + intros i Hi. cbn in Hi. rewrite V4 in Hi. replace i with (c_calls s) by lia. exact A.
    + assert (0 <= (K mod 16 + (p - done)) / 16) by (apply Z.div_pos; [pose proof (Z.mod_pos_bound K 16); lia|lia]).
      assert (Hkp : (K + (p - done)) / 16 = K / 16 + (K mod 16 + (p - done)) / 16).
      { rewrite (Z.div_mod K 16) at 1 by lia. rewrite <- Z.add_assoc, (Z.mul_comm 16), Z.div_add_l by lia. reflexivity. }
      assert (0 <= iv_counter (c_iv s)) by (rewrite S2; apply Z.mod_pos_bound; reflexivity).
      assert (Hw : wrap64 (iv_counter (c_iv s') + F + (if 0 <? L then 1 else 0)) =
                   iv_counter (c_iv s) + (K mod 16 + (p - done)) / 16).
      { rewrite V1, <- Z.add_assoc, HF. unfold wrap64. apply Z.mod_small. lia. }
      split; [cbn; now rewrite V1|]. cbn [set_enc set_counter c_iv iv_counter c_evp c_enc iv_nonce]. rewrite Hw.
      split.
      { rewrite Hkp, Z.add_assoc, S2, <- (Z.mod_small (_ + _) W64) by (rewrite <- S2; lia).
        rewrite Zplus_mod_idemp_l. reflexivity. }
      split.
      { rewrite Hev. destruct S3 as (v&u&E&U1&U2&U3&U4&U5). rewrite E. cbn [evp_after].
        exists v, (u + (p - done)). repeat split; auto; lia. }
      split; [|lia]. rewrite wrap16, V2. rewrite (Z.add_mod (c_enc s)), S4, (Z.add_mod K) by lia. reflexivity.
    + replace (o + p) with (o + done + (p - done)) by lia. apply Hpre; [exact P|].
      cbn [set_enc set_counter c_mem] in *.
      apply (stream_bytes s (o + done) (p - done) K (iv_counter (c_iv s))); auto; try lia;
        try exact (proj1 P); rewrite S2; apply Z.mod_pos_bound; reflexivity.
Qed.

Lemma piece_ok s o done k step K : ctr = true -> pre (c_mem s) (o + done) -> 0 <= o -> 0 <= done -> 0 < k < 2 ^ 31 ->
  o + done + k <= n -> synced s K ->
  (forall t, 0 <= t < k -> enc (o + done + t) = true /\ rank f subs (o + done + t) = K + t) ->
  (K + k) mod 16 = 0 -> step = (K mod 16 + k) / 16 ->
  iv_counter (c_iv s) + (K mod 16 + k - 1) / 16 < W64 ->
  exists s' st d, decrypt_piece g s (out + o) (in_ + o) done k step = CDone (s', (st, d)) /\
    outcome (fun s' => synced s' (K + k)) s s' st (o + done + k) /\ (st = OK -> d = done + k).
Proof.
  intros Hc P Ho Hd Hk Hn (S1&S2&S3&S4&S5) He Hal Hst Hcar.
  unfold decrypt_piece. replace (out + o + done) with (out + (o + done)) by lia.
  replace (in_ + o + done) with (in_ + (o + done)) by lia.
  assert (is_ctr (c_evp s) = true) as Hct by (destruct S3 as (v&u&E&_); now rewrite E).
  assert (C0 : 0 <= iv_counter (c_iv s)) by (rewrite S2; apply Z.mod_pos_bound; reflexivity).
  destruct (ctx_decrypt_cases s (o + done) k) as [[A ->]|(A&s'&->&(V1&V2&V3&V4)&Hkp&Hev&Hpre)];
    [exact (proj1 P)|lia|lia|lia|congruence| |]; cbn [bind status_eqb negb].
  - eexists _, _, _. split; [reflexivity|]. split; [|discriminate]. split; [reflexivity|]. split; [cbn; lia|]. split; [exact (proj1 P)|].
    split; [discriminate|]. intros _. exists (c_calls s). split; [cbn; lia|exact A].
  - unfold ctx_set_iv. cbn [set_counter c_iv c_evp].
    assert (Hpo : pre (c_mem s') (o + done + k)).
    { apply Hpre; [exact P|]. apply (stream_bytes s (o + done) k K (iv_counter (c_iv s))); auto; try lia. exact (proj1 P). }
    unfold answer. cbn [set_counter c_iv c_calls c_ans c_evp]. rewrite V3, V4.
    destruct (c_ans s (S (c_calls s))) eqn:A'; cbn [status_eqb negb].
    + eexists _, _, _. split; [reflexivity|]. split; [|reflexivity]. split; [exact V3|]. split; [cbn; lia|]. split; [exact Hkp|].
      split; [intros _|congruence]. split; [|split].
      * intros i Hi. cbn in Hi. rewrite V4 in Hi. destruct (Nat.eq_dec i (c_calls s)) as [->|]; [exact A|].
        replace i with (S (c_calls s)) by lia. exact A'.
      * assert (Hev' : exists v u, c_evp s' = Ctr v u).
        { rewrite Hev. destruct S3 as (v&u&E&_). rewrite E. cbn. eauto. }
        destruct Hev' as (v'&u'&Hev').
        assert (Hkp16 : (K + k) / 16 = K / 16 + step).
        { rewrite Hst. rewrite (Z.div_mod K 16) at 1 by lia. rewrite <- Z.add_assoc, (Z.mul_comm 16), Z.div_add_l by lia. reflexivity. }
        assert (Hw : wrap64 (iv_counter (c_iv s') + step) = (count0 + (K + k) / 16) mod W64).
        { rewrite V1, S2, Hkp16, Z.add_assoc. apply Zplus_mod_idemp_l. }
        unfold synced. cbn. rewrite Hev'. split; [now rewrite V1|]. split; [exact Hw|]. split; [|split; [|lia]].
        { exists (MkIv nonce (wrap64 (iv_counter (c_iv s') + step))), 0. split; [now rewrite V1, S1|].
          split; [lia|]. split; [reflexivity|]. split; [apply Z.mod_pos_bound; reflexivity|].
          split; [cbn; lia|]. rewrite Hal. reflexivity. }
        rewrite wrap16, V2. rewrite (Z.add_mod (c_enc s)), S4, (Z.add_mod K) by lia. reflexivity.
      * exact Hpo.
    + eexists _, _, _. split; [reflexivity|]. split; [|discriminate]. split; [exact V3|]. split; [cbn; lia|]. split; [exact Hkp|].
      split; [discriminate|]. intros _. exists (S (c_calls s)). split; [cbn; lia|]. exact A'.
Qed.

Lemma outcome_trans (P Q : cst -> Prop) s s1 s2 st o1 o2 : outcome P s s1 OK o1 ->
  outcome Q s1 s2 st o2 -> outcome Q s s2 st o2.
Proof.
  intros (A1&A2&A3&A4&_) (B1&B2&B3&B4&B5). destruct (A4 eq_refl) as (A6&_&_).
  split; [congruence|]. split; [lia|]. split; [exact B3|]. split.
  - intros E. destruct (B4 E) as (D1&D2&D3). split; [|auto]. intros i Hi.
    destruct (lt_dec i (c_calls s1)); [apply A6; lia|]. rewrite <- A1. apply D1. lia.
  - intros E. destruct (B5 E) as (i&D1&D2). exists i. split; [lia|congruence].
Qed.
Lemma outcome_mono (P Q : cst -> Prop) s s1 st o : (P s1 -> Q s1) -> outcome P s s1 st o -> outcome Q s s1 st o.
Proof.
  intros H (A1&A2&A3&A4&A5). repeat (split; [assumption|]). split; [|exact A5]. intros E.
  destruct (A4 E) as (B1&B2&B3). auto.
Qed.
Lemma outcome_fail (P Q : cst -> Prop) s s1 st o1 o2 : st <> OK -> outcome P s s1 st o1 -> outcome Q s s1 st o2.
Proof. intros E (A1&A2&A3&A4&A5). repeat (split; [assumption|]). split; [intros; contradiction|exact A5]. Qed.

Lemma decrypt_ctr s o p K : ctr = true -> pre (c_mem s) o -> 0 <= o -> 0 < p < 2 ^ 31 -> o + p <= n -> synced s K ->
  (forall t, 0 <= t < p -> enc (o + t) = true /\ rank f subs (o + t) = K + t) ->
  range_good count0 K p ->
  exists s' st, decrypt g s (out + o) (in_ + o) p = CDone (s', st) /\
    outcome (fun s' => synced s' (K + p)) s s' st (o + p).
Proof.
  intros Hc P Ho Hp Hn Hs He Hg. pose proof Hs as (S1&S2&S3&S4&S5).
  assert (is_ctr (c_evp s) = true) as Hct by (destruct S3 as (v&u&E&_); now rewrite E).
  unfold decrypt. rewrite S4, Hct, andb_true_r.
  set (L := if K mod 16 =? 0 then 0 else 16 - K mod 16).
  pose proof (Z.mod_pos_bound K 16 ltac:(lia)) as HK16.
  assert (HL : 0 <= L < 16 /\ L <= p /\ (K + L) mod 16 = 0 /\ (0 < L -> K mod 16 + L = 16) /\ (L = 0 -> K mod 16 = 0) /\ (K mod 16 = 0 -> L = 0)).
  { unfold L. destruct (K mod 16 =? 0) eqn:E0; [repeat split; lia|].
    destruct Hg as [Hg|[Hg|[Hg _]]]; [lia|lia|]. repeat split; lia. }
  destruct HL as (HL0&HL1&HL2&HL3&HL4&HL5). clearbody L.
  set (c := iv_counter (c_iv s)) in *.
  assert (Cc : 0 <= c < W64) by (rewrite S2; apply Z.mod_pos_bound; reflexivity).
  assert (W31 : W64 > 2 ^ 33) by reflexivity.
  assert (Hnf : wrap64 (p - L) / 16 = (p - L) / 16).
  { f_equal. apply Z.mod_small. lia. }
  rewrite Hnf. set (nfull := (p - L) / 16).
  assert (Hnfull : 0 <= nfull /\ 16 * nfull <= p - L < 16 * nfull + 16) by (unfold nfull; lia).
  clearbody nfull. set (B := nfull + (if 0 <? L then 1 else 0)).
  assert (HB : (K mod 16 + p) / 16 = B).
  { unfold B. destruct (0 <? L) eqn:E0.
    - symmetry. apply (Z.div_unique _ _ _ (p - L - 16 * nfull)); lia.
    - symmetry. apply (Z.div_unique _ _ _ (p - L - 16 * nfull)); lia. }
  set (nb := wrap64 (W64 - c)).
  assert (Hnb : (c = 0 /\ nb = 0) \/ (0 < c /\ nb = W64 - c)).
  { unfold nb, wrap64. destruct (Z.eq_dec c 0) as [->|]; [left; rewrite Z.sub_0_r, Z.mod_same by lia; auto|].
    right. rewrite Z.mod_small by lia. lia. }
  clearbody nb.
  replace (p <=? 0) with false by lia.
  destruct (nb <=? B) eqn:Hroll.
  2:{ (* the counter does not roll over *)
      destruct (rest_ok s o p 0 K L nfull) as (s'&st&E&O); rewrite ?Z.sub_0_r, ?Z.add_0_r, ?HB; auto; try lia.
      exists s', st. split; [exact E|]. rewrite Z.sub_0_r in O. exact O. }
  (* roll-over: the leading part *)
  assert (H1 : exists s1 st d, (if 0 <? L then decrypt_piece g s (out + o) (in_ + o) 0 L 1 else CDone (s, (OK, 0))) =
     CDone (s1, (st, d)) /\ outcome (fun s1 => synced s1 (K + L)) s s1 st (o + L) /\ (st = OK -> d = L)).
  { destruct (0 <? L) eqn:E0.
    - assert (HL16 : K mod 16 + L = 16) by lia.
      destruct (piece_ok s o 0 L 1 K) as (s1&st&d&E&O&D); rewrite ?Z.add_0_r, ?HL16; auto; try lia.
      + intros t Ht. rewrite ?Z.add_0_r. apply He. lia.
      + exists s1, st, d. rewrite Z.add_0_r in O. split; [exact E|]. split; [exact O|]. intros Q. rewrite (D Q). lia.
    - assert (L = 0) as -> by lia. exists s, OK, 0. split; [reflexivity|]. split; [|auto].
      rewrite !Z.add_0_r. split; [reflexivity|]. split; [lia|]. split; [exact (proj1 P)|]. split; [|congruence].
      intros _. split; [intros i Hi; lia|]. split; [exact Hs|exact P]. }
  destruct H1 as (s1&st1&d1&-> &O1&D1). cbn [bind].
  destruct (status_eqb st1 OK) eqn:Q1.
  2:{ cbn [negb]. exists s1, st1. split; [reflexivity|].
      assert (st1 <> OK) by (intros ->; discriminate). eapply outcome_fail; eauto. }
  apply status_eqb_eq in Q1. subst st1. specialize (D1 eq_refl). subst d1. cbn [negb].
  pose proof O1 as (_&_&_&O1'&_). destruct (O1' eq_refl) as (_&S1'&P1). pose proof S1' as (T1&T2&T3&T4&T5).
  set (c1 := iv_counter (c_iv s1)) in *.
  assert (HKL : (K + L) / 16 = K / 16 + (if 0 <? L then 1 else 0)).
  { destruct (0 <? L) eqn:E0; [|replace L with 0 by lia; rewrite !Z.add_0_r; reflexivity].
    rewrite (Z.div_mod K 16) at 1 by lia. rewrite <- Z.add_assoc, HL3 by lia.
    rewrite (Z.mul_comm 16), Z.div_add_l by lia. reflexivity. }
  assert (Hc1 : c1 = (c + (if 0 <? L then 1 else 0)) mod W64).
  { rewrite T2, HKL, Z.add_assoc, S2. symmetry. apply Zplus_mod_idemp_l. }
  set (full := Z.min nb nfull).
  (* after the leading part, the blocks up to [full] stay below the roll-over *)
  assert (Hkey : L = 0 \/ nb <= 1 \/ nb = nfull + 1).
  { destruct (Z.eq_dec L 0) as [|HL']; [auto|]. right. destruct (Z_le_dec nb 1); [auto|]. right.
    destruct Hg as [Hg|[Hg|[_ Hg]]]; [contradiction (HL' (HL5 Hg))|clear - Hg Hp; lia|].
    destruct (Z.eq_dec nb (nfull + 1)) as [|N]; [assumption|exfalso].
    apply (Hg (K / 16 + nb)).
    - assert ((K + p) / 16 = K / 16 + B) as ->.
      { rewrite (Z.div_mod K 16) at 1 by lia. rewrite <- Z.add_assoc, (Z.mul_comm 16), Z.div_add_l by lia. now rewrite HB. }
      unfold B in *. destruct (0 <? L) eqn:E0; lia.
    - change (2 ^ 64) with W64. rewrite Z.add_assoc, <- Zplus_mod_idemp_l, <- S2.
      destruct Hnb as [[Q1 Q2]|[Q1 ->]]; [lia|]. replace (c + (W64 - c)) with (0 + 1 * W64) by lia.
      apply Z.mod_add. lia. }
  assert (Hfull : 0 <= full <= nfull /\ (0 < full -> c1 + (full - 1) < W64) /\
                  (full < nfull -> (c1 + full) mod W64 + (nfull - full) < W64)).
  { apply (roll_bounds c nb nfull (if 0 <? L then 1 else 0)); auto.
    - clear - Hnfull Hp HL0. lia.
    - destruct (0 <? L); auto.
    - apply Z.leb_le in Hroll. exact Hroll.
    - destruct Hkey as [->|Hkey]; auto. }
  destruct Hfull as (F1&F2&F3). clearbody full.
  assert (F31 : 0 <= 16 * full <= p - L) by (clear - F1 Hnfull; lia).
  assert (HL6 : 0 = (K + L) mod 16 + 0) by (rewrite HL2; reflexivity).
  assert (HA : (K + L + 16 * full) mod 16 = 0) by (rewrite Z.mul_comm, Z.mod_add; [exact HL2|discriminate]).
  assert (HS : full = ((K + L) mod 16 + 16 * full) / 16) by (rewrite HL2, Z.add_0_l, Z.mul_comm, Z.div_mul; [reflexivity|discriminate]).
  assert (HN : 0 < full -> c1 + ((K + L) mod 16 + 16 * full - 1) / 16 < W64).
  { intros Hf. specialize (F2 Hf). rewrite HL2, Z.add_0_l. replace ((16 * full - 1) / 16) with (full - 1); [exact F2|].
    clear. lia. }
  assert (Hd : (p - (L + 16 * full)) / 16 = nfull - full).
  { clear - Hnfull. symmetry. apply (Z.div_unique _ _ _ (p - L - 16 * nfull)); lia. }
  assert (HE : forall d t, 0 <= d -> 0 <= t -> d + t < p -> enc (o + d + t) = true /\ rank f subs (o + d + t) = K + d + t).
  { intros d t H0 H1 H2. rewrite <- !Z.add_assoc. apply He. clear - H0 H1 H2. lia. }
  clear Hg Hkey HKL Hc1 HB HL2 HL3 HL4 HL5 HK16 Hroll B Hnb S4 S2 Cc He Hs HL6 S3 S1 Hnf.
  assert (H2 : exists s2 st d, (if 0 <? full then decrypt_piece g s1 (out + o) (in_ + o) L (wrap64 (full * 16)) full
                                else CDone (s1, (OK, L))) = CDone (s2, (st, d)) /\
     outcome (fun s2 => synced s2 (K + L + 16 * full)) s1 s2 st (o + L + 16 * full) /\ (st = OK -> d = L + 16 * full)).
  { destruct (0 <? full) eqn:E0.
    - assert (wrap64 (full * 16) = 16 * full) as -> by (unfold wrap64; rewrite Z.mod_small; [clear|clear - F31 W31 Hp HL0]; lia).
      destruct (piece_ok s1 o L (16 * full) full (K + L)) as (s2&st&d&E&O&D);
        [exact Hc|exact P1|exact Ho|apply HL0|clear - E0 F31 Hp HL0; lia|clear - F31 Hn; lia|exact S1'| |exact HA|exact HS| |].
      + intros t Ht. rewrite <- (Z.add_assoc o). rewrite Z.add_assoc. apply HE; [apply HL0|apply Ht|clear - Ht F31; lia].
      + apply HN. clear - E0. lia.
      + exists s2, st, d. split; [exact E|]. split; [exact O|exact D].
    - replace full with 0 by lia. exists s1, OK, L. split; [reflexivity|]. split; [|lia]. rewrite Z.mul_0_r, !Z.add_0_r.
      split; [reflexivity|]. split; [lia|]. split; [exact (proj1 P1)|]. split; [|congruence].
      intros _. split; [intros i Hi; lia|]. split; [exact S1'|exact P1]. }
  destruct H2 as (s2&st2&d2&-> &O2&D2). cbn [bind].
  pose proof (outcome_trans _ _ _ _ _ _ _ _ O1 O2) as O12.
  destruct (status_eqb st2 OK) eqn:Q2.
  2:{ cbn [negb]. exists s2, st2. split; [reflexivity|].
      assert (st2 <> OK) by (intros ->; discriminate). eapply outcome_fail; eauto. }
  apply status_eqb_eq in Q2. subst st2. specialize (D2 eq_refl). subst d2. cbn [negb].
  pose proof O2 as (_&_&_&O2'&_). destruct (O2' eq_refl) as (_&S2'&P2). pose proof S2' as (U1&U2&U3&U4&U5).
  destruct (p <=? L + 16 * full) eqn:Efin.
  - assert (L + 16 * full = p) as Hfin by (clear - Efin F31; lia). exists s2, OK. split; [reflexivity|].
    rewrite <- Hfin, !Z.add_assoc. exact O12.
  - assert (Hc2 : iv_counter (c_iv s2) = (c1 + full) mod W64).
    { rewrite U2. rewrite (Z.mul_comm 16), Z.div_add by discriminate. rewrite Z.add_assoc, T2. symmetry. apply Zplus_mod_idemp_l. }
    destruct (rest_ok s2 o p (L + 16 * full) (K + L + 16 * full) 0 (nfull - full)) as (s3&st&E&O);
      [exact Hc|now rewrite Z.add_assoc|exact Ho|clear - HL0 F31; lia|clear - Efin Hp F31 HL0; lia|exact Hn|exact S2'| | | |].
    + intros t Ht. rewrite <- (Z.add_assoc K). apply HE; clear - Ht HL0 F31; lia.
    + rewrite HA, Z.add_0_l, Hd. cbn. apply Z.add_0_r.
    + rewrite HA, Z.add_0_l, Hd, Hc2. destruct (Z.eq_dec full nfull) as [->|Nf].
      * rewrite Z.sub_diag, Z.add_0_r. apply Z.mod_pos_bound. reflexivity.
      * apply F3. clear - Nf F1. lia.
    + exists s3, st. split; [exact E|]. replace (K + L + 16 * full + (p - (L + 16 * full))) with (K + p) in O by (clear; lia).
      exact (outcome_trans _ _ _ _ _ _ _ _ O12 O).
Qed.

(** *** CBC mode *)
(** The cipher context stands after [K] bytes of the chain that starts at [cs]. *)
Definition chained (e : evp) (cs K : Z) : Prop :=
  exists prev, e = Cbc prev /\ 0 <= K /\ K mod 16 = 0 /\
    (K = 0 -> forall i, 0 <= i < 16 -> prev i = iv_byte (x_iv x) i) /\
    (0 < K -> exists loc, forall i, 0 <= i < 16 -> prev i = src (loc + i) /\ enc (loc + i) = true /\
       chain_start f subs (loc + i) = cs /\ rank f subs (loc + i) = K - 16 + i).
Lemma block_at_eq (a b : Z -> Z) p q : (forall i, 0 <= i < 16 -> a (p + i) = b (q + i)) -> block_at a p = block_at b q.
Proof. intros H. unfold block_at. apply map_ext_in. intros i Hi. apply in_seq in Hi. apply H. lia. Qed.
Lemma decrypt_cbc s o p K cs : ctr = false -> pre (c_mem s) o -> 0 <= o -> 0 < p < 2 ^ 31 -> p mod 16 = 0 -> o + p <= n ->
  chained (c_evp s) cs K ->
  (forall t, 0 <= t < p -> enc (o + t) = true /\ chain_start f subs (o + t) = cs /\ rank f subs (o + t) = K + t) ->
  exists s' st, decrypt g s (out + o) (in_ + o) p = CDone (s', st) /\
    outcome (fun s' => chained (c_evp s') cs (K + p)) s s' st (o + p).
Proof.
  intros Hc P Ho Hp Hal Hn (prev&E&K0&K16&KI&KL) He.
  unfold decrypt. rewrite E. cbn [is_ctr]. rewrite andb_false_r. replace (p <=? 0) with false by lia.
  unfold decrypt_rest. rewrite Z.sub_0_r, !Z.add_0_r.
  destruct (ctx_decrypt_cases s o p) as [[A ->]|(A&s'&->&(V1&V2&V3&V4)&Hk&Hev&Hpre)];
    [exact (proj1 P)|lia|lia|lia|auto| |]; cbn [bind status_eqb negb].
  - eexists _, _. split; [reflexivity|]. split; [reflexivity|]. split; [cbn; lia|]. split; [exact (proj1 P)|].
    split; [discriminate|]. intros _. exists (c_calls s). split; [cbn; lia|exact A].
  - eexists _, _. split; [reflexivity|]. split; [exact V3|]. split; [cbn; lia|]. split; [exact Hk|].
    split; [intros _|congruence]. split; [|split].
    + intros i Hi. cbn in Hi. rewrite V4 in Hi. replace i with (c_calls s) by lia. exact A.
    + cbn [set_enc set_counter c_evp]. rewrite Hev, E. cbn [evp_after]. replace (p =? 0) with false by lia.
      eexists. split; [reflexivity|]. split; [lia|]. split; [lia|]. split; [lia|]. intros _.
      exists (o + (p - 16)). intros i Hi. destruct (He (p - 16 + i) ltac:(lia)) as (E1&E2&E3).
      replace (o + (p - 16) + i) with (o + (p - 16 + i)) by lia.
      replace (in_ + o + (p - 16 + i)) with (in_ + (o + (p - 16 + i))) by lia.
      split; [apply kept_src; [exact (proj1 P)|lia]|]. split; [exact E1|]. split; [exact E2|]. lia.
    + apply Hpre; [exact P|]. intros t Ht. destruct (He t Ht) as (E1&E2&E3).
      unfold good. rewrite E1, E3, E. cbn [evp_byte]. apply if_false; [exact Hc|].
      assert (T : (K + t) mod 16 = t mod 16) by (clear - K16; lia).
      rewrite T. exists (if t <? 16 then prev t else m_val (c_mem s) (in_ + o + (t - 16))). split; [|split].
      * f_equal. f_equal. apply block_at_eq. intros i Hi.
        replace (in_ + o + (16 * (t / 16) + i)) with (in_ + (o + t - t mod 16 + i)) by lia.
        apply kept_src; [exact (proj1 P)|]. clear - Ht Hn Hi Hal Ho. lia.
      * intros Hk16. replace (t <? 16) with true by lia. assert (K = 0) as K00 by (clear - Hk16 K0 K16 Ht; lia). rewrite (KI K00) by lia. f_equal. lia.
      * intros Hk16. destruct (t <? 16) eqn:E16.
        -- destruct KL as [loc KL]; [clear - Hk16 K0 K16 Ht E16; lia|]. destruct (KL t ltac:(lia)) as (L1&L2&L3&L4).
           exists (loc + t). rewrite L3, E2. repeat split; auto. lia.
        -- destruct (He (t - 16) ltac:(lia)) as (L1&L2&L3). exists (o + (t - 16)). rewrite L2, E2.
           repeat split; auto; [lia|]. replace (in_ + o + (t - 16)) with (in_ + (o + (t - 16))) by lia.
           apply kept_src; [exact (proj1 P)|lia].
Qed.

(** *** Both modes, whole blocks *)
Definition inv (s : cst) (cs K : Z) : Prop := if ctr then synced s K else chained (c_evp s) cs K.
Lemma inv_ctr : ctr = true -> forall s cs K, inv s cs K = synced s K.
Proof. intros E s cs K. unfold inv. rewrite E. reflexivity. Qed.
Lemma inv_cbc : ctr = false -> forall s cs K, inv s cs K = chained (c_evp s) cs K.
Proof. intros E s cs K. unfold inv. rewrite E. reflexivity. Qed.
Lemma inv_mode s cs K : inv s cs K -> is_ctr (c_evp s) = ctr.
Proof.
  unfold inv. destruct ctr; [intros (_&_&(v&u&E&_)&_)|intros (pr&E&_)]; now rewrite E.
Qed.
Lemma decrypt_blocks s o p K cs : pre (c_mem s) o -> 0 <= o -> 0 < p < 2 ^ 31 -> p mod 16 = 0 -> o + p <= n ->
  inv s cs K -> K mod 16 = 0 ->
  (forall t, 0 <= t < p -> enc (o + t) = true /\ chain_start f subs (o + t) = cs /\ rank f subs (o + t) = K + t) ->
  exists s' st, decrypt g s (out + o) (in_ + o) p = CDone (s', st) /\
    outcome (fun s' => inv s' cs (K + p)) s s' st (o + p).
Proof.
  intros P Ho Hp Hal Hn Hi HK He. destruct (bool_dec ctr true) as [Hc|Hc].
  - rewrite (inv_ctr Hc) in Hi.
    destruct (decrypt_ctr s o p K) as (s'&st&E&H1&H2&H3&H4&H5); auto; [intros t Ht; destruct (He t Ht) as (?&?&?); auto|now left|].
    exists s', st. split; [exact E|]. apply (outcome_mono (fun s' => synced s' (K + p))); [|repeat (split; auto)]. now rewrite (inv_ctr Hc).
  - apply not_true_is_false in Hc. rewrite (inv_cbc Hc) in Hi.
    destruct (decrypt_cbc s o p K cs) as (s'&st&E&H1&H2&H3&H4&H5); auto.
    exists s', st. split; [exact E|]. apply (outcome_mono (fun s' => chained (c_evp s') cs (K + p))); [|repeat (split; auto)]. now rewrite (inv_cbc Hc).
Qed.
(** Without knowing anything of the counter. *)
Definition weak (s : cst) : Prop := kept (c_mem s) /\ is_ctr (c_evp s) = ctr /\ (ctr = true -> c_enc s mod 16 = 0).
Lemma ctx_decrypt_weak s o k : weak s -> 0 <= o -> 0 < k < 2 ^ 31 -> o + k <= n -> k mod 16 = 0 ->
  exists s' st l, ctx_decrypt g s (out + o) (in_ + o) k = CDone (s', (st, l)) /\ weak s' /\ (st = OK -> l = k) /\ c_ans s' = c_ans s.
Proof.
  intros (W1&W2&W3) Ho Hk Hn Hal.
  destruct (ctx_decrypt_cases s o k) as [[A ->]|(A&s'&->&(V1&V2&V3&V4)&Hkp&Hev&Hpre)]; auto.
  - eexists _, _, _. split; [reflexivity|]. split; [split; auto|]. split; [discriminate|reflexivity].
  - eexists _, _, _. split; [reflexivity|]. split; [|split; auto]. split; [exact Hkp|]. split.
    + rewrite Hev. rewrite <- W2. destruct (c_evp s); cbn [evp_after is_ctr]; [reflexivity|]. destruct (k =? 0); reflexivity.
    + rewrite V2. exact W3.
Qed.
Lemma decrypt_weak s o p : weak s -> 0 <= o -> 0 < p < 2 ^ 31 -> p mod 16 = 0 -> o + p <= n ->
  exists s' st, decrypt g s (out + o) (in_ + o) p = CDone (s', st) /\ weak s' /\ c_ans s' = c_ans s.
Proof.
  intros W Ho Hp Hal Hn.
  assert (R : forall s d L F, weak s -> 0 <= d -> 0 < p - d -> d mod 16 = 0 ->
     exists s' st, decrypt_rest g s (out + o) (in_ + o) p d L F = CDone (s', st) /\ weak s' /\ c_ans s' = c_ans s).
  { intros s1 d L F W1 Hd Hd1 Hd2. unfold decrypt_rest.
    replace (out + o + d) with (out + (o + d)) by lia. replace (in_ + o + d) with (in_ + (o + d)) by lia.
    destruct (ctx_decrypt_weak s1 (o + d) (p - d)) as (s2&st&l&->&W2&Hl&Ha); auto; [lia|lia|lia|clear - Hal Hd2; lia|]. cbn [bind].
    destruct (status_eqb st OK) eqn:Es; cbn [negb]; [|eauto]. apply status_eqb_eq in Es. subst st. specialize (Hl eq_refl). subst l.
    eexists _, _. split; [reflexivity|]. split; [|exact Ha]. destruct W2 as (W2a&W2b&W2c).
    split; [exact W2a|]. split; [exact W2b|]. intros Hc. specialize (W2c Hc). cbn [set_enc set_counter c_enc]. rewrite wrap16. clear - W2c Hal Hd2. lia. }
  unfold decrypt. replace (p <=? 0) with false by lia. pose proof W as (W1&W2&W3). rewrite W2.
  destruct (bool_dec ctr true) as [Hc|Hc];
    [|apply not_true_is_false in Hc; rewrite Hc, andb_false_r; apply R; auto; lia].
  rewrite (W3 Hc), Hc. change (0 =? 0) with true. cbv iota. rewrite andb_true_r. change (0 <? 0) with false. cbv iota.
  assert (wrap64 (p - 0) / 16 = p / 16) as -> by (rewrite Z.sub_0_r; unfold wrap64; rewrite Z.mod_small; [reflexivity|]; pose proof W64_val; lia).
  set (nb := wrap64 (W64 - iv_counter (c_iv s))).
  assert (0 <= nb) by (apply Z.mod_pos_bound; reflexivity). clearbody nb.
  destruct (nb <=? p / 16 + 0) eqn:Er; [|apply R; auto; lia]. cbn [bind status_eqb negb].
  set (full := Z.min nb (p / 16)). assert (F : 0 <= full <= p / 16) by lia. clearbody full.
  destruct (0 <? full) eqn:Ef.
  2:{ cbn [bind status_eqb negb]. replace (p <=? 0) with false by lia. apply R; auto; lia. }
  unfold decrypt_piece. rewrite !Z.add_0_r.
  assert (wrap64 (full * 16) = 16 * full) as -> by (unfold wrap64; rewrite Z.mod_small; [lia|]; pose proof W64_val; lia).
  destruct (ctx_decrypt_weak s o (16 * full)) as (s2&st&l&->&W4&Hl&Ha); auto; [lia|lia|lia|]. cbn [bind].
  destruct (status_eqb st OK) eqn:Es; cbn [negb bind]; [|rewrite Es; cbn [negb]; eauto].
  apply status_eqb_eq in Es. subst st. specialize (Hl eq_refl). subst l. unfold ctx_set_iv.
  destruct W4 as (W4&W5&W6). specialize (W6 Hc). rewrite Hc in W5.
  destruct (answer _); cbn [status_eqb negb bind].
  - match goal with |- context [decrypt_rest g ?s3 _ _ _ _ _ _] => assert (W7 : weak s3) end.
    { split; [exact W4|]. split; [|intros _].
      - cbn [set_enc set_evp called set_counter c_evp]. rewrite Hc. destruct (c_evp s2); [reflexivity|discriminate].
      - cbn. rewrite wrap16. clear - W6. lia. }
    destruct (p <=? 0 + 16 * full) eqn:Ep.
    + eexists _, _. split; [reflexivity|]. split; [exact W7|exact Ha].
    + destruct (R _ (0 + 16 * full) 0 (p / 16 - full) W7) as (s5&st&E5&W8&A8); [lia|lia|lia|].
      exists s5, st. split; [exact E5|]. split; [exact W8|]. rewrite A8. exact Ha.
  - eexists _, _. split; [reflexivity|]. split; [|exact Ha]. split; [exact W4|]. split; [now rewrite Hc|intros _; exact W6].
Qed.

(** *** The stripes of a protected range *)
Notation crypt := (x_crypt x).
Notation skip := (x_skip x).
Lemma times16 a : 0 <= a < 2 ^ 60 -> wrap64 (a * 16) = 16 * a.
Proof. intros H. unfold wrap64. rewrite Z.mod_small; [lia|]. pose proof W64_val. lia. Qed.
Lemma stripes_ok o0 p cs : 0 < crypt -> 0 <= cs <= o0 -> 0 <= p < 2 ^ 31 -> o0 + p <= n ->
  (forall i, 0 <= i < p -> enc (o0 + i) = encrypted_in f p i) ->
  (forall i, 0 <= i < p -> chain_start f subs (o0 + i) = cs) ->
  forall fuel s d K, (p - d) / 16 <= Z.of_nat fuel -> 0 <= d <= p -> d mod 16 = 0 ->
  p - d < 16 \/ (exists m, d = 16 * ((crypt + skip) * m)) ->
  (forall i, c_ans s i = true) -> pre (c_mem s) (o0 + d) -> inv s cs K -> K mod 16 = 0 -> K = between f subs cs (o0 + d) ->
  exists s' d' K', stripes fuel g x out in_ s (o0 + d) (p - d) OK = CDone (s', o0 + d', p - d', OK) /\
    0 <= d' <= p /\ p / 16 * 16 <= d' /\ K' mod 16 = 0 /\ K' = between f subs cs (o0 + d') /\
    outcome (fun s' => inv s' cs K') s s' OK (o0 + d').
Proof.
  intros Hcr Hcs Hp Hn Henc Hch. destruct Hmod as ((_&Hc60)&(Hs0&Hs60)&_). cbn [f_crypt f_skip] in Hc60, Hs0, Hs60.
  assert (HT : 0 < crypt + skip) by lia.
  induction fuel as [|fuel IH]; intros s d K Hf Hd Hd16 Hpos Hans P Hi HK HKb; cbn [stripes].
  - assert (p - d < 16) by (clear - Hf Hd; lia). replace (p - d <? 16) with true by lia.
    exists s, d, K. split; [reflexivity|]. split; [lia|]. split; [clear - Hd16 H; lia|]. split; [exact HK|]. split; [exact HKb|].
    split; [reflexivity|]. split; [lia|]. split; [exact (proj1 P)|]. split; [|congruence]. intros _. split; [intros i Hi'; apply Hans|]. auto.
  - destruct (p - d <? 16) eqn:E16.
    { exists s, d, K. split; [reflexivity|]. split; [lia|]. split; [clear - Hd16 E16; lia|]. split; [exact HK|]. split; [exact HKb|].
      split; [reflexivity|]. split; [lia|]. split; [exact (proj1 P)|]. split; [|congruence]. intros _. split; [intros i Hi'; apply Hans|]. auto. }
    destruct Hpos as [Hpos|(m&Hpos)]; [lia|]. cbv zeta. rewrite (times16 crypt) by lia.
    set (b := Z.min (16 * crypt) ((p - d) / 16 * 16)).
    assert (Hb : 0 < b /\ b mod 16 = 0 /\ b <= p - d /\ b <= 16 * crypt /\ (b = 16 * crypt \/ p - d - b < 16) /\ d + b <= p / 16 * 16).
    { assert (0 < (p - d) / 16 * 16 <= p - d) by (clear - E16; lia).
      assert (d + (p - d) / 16 * 16 <= p / 16 * 16) by (clear - Hd16; lia).
      assert (((p - d) / 16 * 16) mod 16 = 0) by (apply Z.mod_mul; lia).
      assert ((16 * crypt) mod 16 = 0) by (rewrite Z.mul_comm; apply Z.mod_mul; lia).
      assert (p - d - (p - d) / 16 * 16 < 16) by (clear; lia).
      unfold b. destruct (Z.min_spec (16 * crypt) ((p - d) / 16 * 16)) as [[M ->]|[M ->]]; repeat split; auto; try lia. }
    clearbody b. destruct Hb as (B0&B16&B1&B2&B3&B4).
    replace (0 <? b) with true by lia. cbn [andb].
    assert (He : forall t, 0 <= t < b -> enc (o0 + d + t) = true).
    { intros t Ht. rewrite <- Z.add_assoc, Henc by lia. unfold encrypted_in. cbn [f_crypt f_skip].
      replace (crypt =? 0) with false by lia. replace (d + t <? p / 16 * 16) with true by lia. cbn [andb].
      assert ((d + t) / 16 = t / 16 + m * (crypt + skip)) as ->.
      { rewrite Hpos. replace (16 * ((crypt + skip) * m) + t) with (t + (m * (crypt + skip)) * 16) by lia. rewrite Z.div_add by lia. lia. }
      rewrite Z.mod_add by lia. assert (0 <= t / 16 < crypt) by (clear - Ht B2; lia). rewrite Z.mod_small by lia. lia. }
    assert (HKt : forall t, 0 <= t <= b -> between f subs cs (o0 + d + t) = K + t).
    { intros t Ht. rewrite (between_run f subs true) by (try lia; intros; apply He; lia). lia. }
    destruct (decrypt_blocks s (o0 + d) b K cs P) as (s1&st&Ed&O1); auto; try lia.
    { intros t Ht. split; [now apply He|]. assert (chain_start f subs (o0 + d + t) = cs) as C1 by (rewrite <- Z.add_assoc; apply Hch; lia).
      split; [exact C1|]. unfold rank. rewrite C1. apply HKt. lia. }
    replace (out + (o0 + d)) with (out + (o0 + d)) by lia. rewrite Ed. cbn [bind].
    assert (st = OK) as ->.
    { destruct (status_eqb st OK) eqn:Es; [now apply status_eqb_eq in Es|]. assert (Ne : st <> OK) by (intros ->; discriminate). destruct O1 as (_&_&_&_&F). destruct (F Ne) as (i&_&F'). rewrite Hans in F'. discriminate. }
    cbn [status_eqb negb]. pose proof O1 as (A1&A2&A3&A4&_). destruct (A4 eq_refl) as (A5&A6&A7).
    assert ((if 0 <? skip then Z.min (wrap64 (skip * 16)) ((p - d - b) / 16 * 16) else 0) = Z.min (16 * skip) ((p - d - b) / 16 * 16)) as ->.
    { rewrite times16 by lia. destruct (0 <? skip) eqn:E0; [reflexivity|]. replace skip with 0 by lia. rewrite Z.min_l; [reflexivity|]. clear - B1. lia. }
    set (k := Z.min (16 * skip) ((p - d - b) / 16 * 16)).
    assert (Hk : 0 <= k <= p - d - b /\ k mod 16 = 0 /\ k <= 16 * skip /\ (p - d - b < 16 -> k = 0) /\ (k = 16 * skip \/ p - d - b - k < 16) /\ d + b + k <= p / 16 * 16).
    { assert (0 <= (p - d - b) / 16 * 16 <= p - d - b) by (clear - B1; lia).
      assert (d + b + (p - d - b) / 16 * 16 <= p / 16 * 16) by (clear - Hd16 B16; lia).
      assert (((p - d - b) / 16 * 16) mod 16 = 0) by (apply Z.mod_mul; lia).
      assert ((16 * skip) mod 16 = 0) by (rewrite Z.mul_comm; apply Z.mod_mul; lia).
      assert (p - d - b - (p - d - b) / 16 * 16 < 16) by (clear; lia).
      assert (p - d - b < 16 -> (p - d - b) / 16 * 16 = 0) by (clear - B1; lia).
      unfold k. destruct (Z.min_spec (16 * skip) ((p - d - b) / 16 * 16)) as [[M ->]|[M ->]]; repeat split; auto; try lia. }
    clearbody k. destruct Hk as (K0&K16&K1&K2&K3&K4).
    assert (Hs : forall t, 0 <= t < k -> enc (o0 + d + b + t) = false).
    { intros t Ht. destruct B3 as [B3|B3]; [|lia]. replace (o0 + d + b + t) with (o0 + (d + b + t)) by lia. rewrite Henc by lia.
      unfold encrypted_in. cbn [f_crypt f_skip]. replace (crypt =? 0) with false by lia. apply andb_false_intro2.
      assert ((d + b + t) / 16 = crypt + t / 16 + m * (crypt + skip)) as ->.
      { rewrite Hpos, B3. replace (16 * ((crypt + skip) * m) + 16 * crypt + t) with (t + (crypt + m * (crypt + skip)) * 16) by lia. rewrite Z.div_add by lia. lia. }
      rewrite Z.mod_add by lia. assert (0 <= t / 16 < skip) by (clear - Ht K1; lia). rewrite Z.mod_small by lia. lia. }
    assert (Hcopy : exists s2, (if 0 <? k then copy s1 (out + (o0 + d + b)) (in_ + (o0 + d + b)) k else CDone s1) = CDone s2 /\
              outcome (fun s' => inv s' cs (K + b)) s s2 OK (o0 + (d + b + k))).
    { destruct (0 <? k) eqn:Ek.
      - destruct (copy_kept s1 (o0 + d + b) k A3) as (m2&E2&M1&M2); [lia|lia|lia|]. rewrite E2. eexists. split; [reflexivity|].
        split; [exact A1|]. split; [exact A2|]. split; [exact M1|]. split; [intros _|congruence]. split; [exact A5|]. split; [exact A6|].
        replace (o0 + (d + b + k)) with (o0 + d + b + k) by lia. apply M2; [|exact Hs]. exact A7.
      - exists s1. split; [reflexivity|]. replace (o0 + (d + b + k)) with (o0 + d + b) by lia. exact O1. }
    destruct Hcopy as (s2&->&O2). cbn [bind]. pose proof O2 as (C1&C2&C3&C4&_). destruct (C4 eq_refl) as (C5&C6&C7).
    replace (o0 + d + b + k) with (o0 + (d + b + k)) by lia. replace (p - d - b - k) with (p - (d + b + k)) by lia.
    destruct (IH s2 (d + b + k) (K + b)) as (s3&d3&K3'&E3&D3&D4&D5&D6&O3).
    + clear - Hf B0 B16 K0 K16 B1. lia.
    + lia.
    + clear - Hd16 B16 K16. lia.
    + destruct B3 as [B3|B3]; [|left; lia]. destruct K3 as [K3|K3]; [|left; lia]. right. exists (m + 1). rewrite Hpos, B3, K3. ring.
    + intros i. rewrite C1. apply Hans.
    + exact C7.
    + exact C6.
    + clear - HK B16. lia.
    + replace (o0 + (d + b + k)) with (o0 + d + b + k) by lia. rewrite (between_run f subs false) by (try lia; intros; now apply Hs).
      rewrite HKt by lia. lia.
    + exists s3, d3, K3'. split; [exact E3|]. split; [exact D3|]. split; [exact D4|]. split; [exact D5|]. split; [exact D6|].
      eapply outcome_trans; eauto.
Qed.

(** *** Subsamples *)
(** Between subsamples, at offset [o]. *)
Definition joined (s : cst) (o : Z) : Prop :=
  is_ctr (c_evp s) = ctr /\
  (ctr = true \/ crypt = 0 -> inv s 0 (between f subs 0 o) /\ (crypt <> 0 -> between f subs 0 o mod 16 = 0)).
Lemma joined_between s o o' : joined s o -> between f subs 0 o' = between f subs 0 o -> joined s o'.
Proof. intros [H1 H2] E. split; [exact H1|]. now rewrite E. Qed.
Lemma outcome_copy (P : cst -> Prop) s s1 o k m : (forall m, P s1 -> P (set_mem s1 m)) ->
  outcome P s s1 OK o -> kept m -> (pre (c_mem s1) o -> pre m (o + k)) ->
  outcome P s (set_mem s1 m) OK (o + k).
Proof.
  intros HP (A1&A2&A3&A4&A5) Hk Hp. destruct (A4 eq_refl) as (A6&A7&A8). split; [exact A1|]. split; [exact A2|]. split; [exact Hk|].
  split; [intros _|congruence]. split; [exact A6|]. split; [now apply HP|]. now apply Hp.
Qed.
Lemma outcome_refl (P : cst -> Prop) s o : kept (c_mem s) -> P s -> pre (c_mem s) o -> outcome P s s OK o.
Proof.
  intros Hk HP Hp. split; [reflexivity|]. split; [lia|]. split; [exact Hk|]. split; [intros _|congruence].
  split; [intros i Hi; lia|]. auto.
Qed.

Section Range.
Variables (pr : list (Z * Z)) (c p : Z) (rest : list (Z * Z)).
Hypothesis Hsplit : subs = pr ++ (c, p) :: rest.
Notation o0 := (total pr + c).
Lemma split_facts : subs_u64 pr /\ subs_u64 rest /\ 0 <= c /\ 0 <= p < 2 ^ 31 /\ 0 <= total pr /\ o0 + p <= n.
Proof.
  unfold subs_u64 in *. pose proof Hsubs as Hs. destruct Hmod as (_&_&Hm). rewrite Hsplit in Hs, Hm.
  apply Forall_app in Hs. destruct Hs as [H1 H2]. inversion H2 as [|? ? [H3 H4] H5]. subst. cbn [fst snd] in *.
  apply Forall_app in Hm. destruct Hm as [_ Hm]. inversion Hm as [|? ? Hm1 _]. cbn [snd] in Hm1.
  pose proof (total_nonneg pr H1). pose proof (total_nonneg rest H5). unfold is_u64 in *.
  rewrite Hsplit, total_app. cbn [total fold_right fst snd]. fold (total rest). repeat split; auto; lia.
Qed.
Lemma range_enc i : 0 <= i < p -> enc (o0 + i) = encrypted_in f p i.
Proof.
  intros Hi. destruct split_facts as (F1&F2&F3&F4&F5&F6). rewrite Hsplit, encrypted_at by (auto; lia). cbn zeta.
  replace (total pr + c + i - total pr) with (c + i) by lia. replace (c + i <? c) with false by lia.
  replace (c + i <? c + p) with true by lia. f_equal. lia.
Qed.
Lemma clear_enc i : 0 <= i < c -> enc (total pr + i) = false.
Proof.
  intros Hi. destruct split_facts as (F1&F2&F3&F4&F5&F6). rewrite Hsplit, encrypted_at by (auto; lia). cbn zeta.
  replace (total pr + i - total pr) with i by lia. now replace (i <? c) with true by lia.
Qed.
Lemma range_chain i : 0 <= i < p ->
  chain_start f subs (o0 + i) = if negb ctr && negb (crypt =? 0) then total pr else 0.
Proof.
  intros Hi. destruct split_facts as (F1&F2&F3&F4&F5&F6). unfold chain_start. cbn [f_ctr f_crypt].
  destruct (negb ctr && negb (crypt =? 0)); [|reflexivity]. rewrite Hsplit. apply sub_start_at; auto; lia.
Qed.
Lemma clear_between a : a <= total pr -> between f subs a o0 = between f subs a (total pr).
Proof.
  intros Ha. destruct split_facts as (F1&F2&F3&F4&F5&F6). rewrite (between_run f subs false) by (try lia; apply clear_enc). lia.
Qed.
Lemma is_pattern : crypt <> 0 -> 0 < crypt.
Proof. destruct Hmod as ((H&_)&_). cbn [f_crypt] in H. lia. Qed.

Lemma protected_ok fuel s : n <= Z.of_nat fuel -> 0 < p -> pre (c_mem s) o0 -> joined s o0 -> crypt = 0 \/ (forall i, c_ans s i = true) ->
  (ctr = true -> crypt = 0 -> range_good count0 (between f subs 0 o0) p) ->
  exists s' o' st stop, protected_part fuel g x out in_ s o0 p OK = CDone (s', o', st, stop) /\
    outcome (fun s' => joined s' (o0 + p)) s s' st (o0 + p) /\
    (st = OK -> o' = o0 + p /\ stop = false) /\ (st <> OK -> stop = true) /\
    (ctr = true -> crypt = 0 -> between f subs 0 (o0 + p) = between f subs 0 o0 + p).
Proof.
  intros Hfuel Hp P (Jm&Jk) Hans Hrg. destruct split_facts as (F1&F2&F3&F4&F5&F6).
  assert (Hfin : forall s1 st1 o1 d, outcome (fun s' => joined s' o1) s s1 st1 o1 -> d = o0 + p - o1 -> 0 <= d -> o0 <= o1 ->
    (forall t, 0 <= t < d -> enc (o1 + t) = false) -> st1 = OK ->
    exists s2, (if 0 <? d then copy s1 (out + o1) (in_ + o1) d else CDone s1) = CDone s2 /\
      outcome (fun s' => joined s' (o0 + p)) s s2 OK (o0 + p)).
  { intros s1 st1 o1 d O1 Hd Hd0 Ho1 He ->.
    assert (O1' : outcome (fun s' => joined s' (o0 + p)) s s1 OK o1).
    { revert O1. apply outcome_mono. intros HJ. apply (joined_between _ o1); [exact HJ|].
      replace (o0 + p) with (o1 + d) by lia. rewrite (between_run f subs false) by (try lia; exact He). lia. }
    set (Q := fun s' => joined s' (o0 + p)) in *.
    destruct (0 <? d) eqn:Ed.
    - destruct (copy_kept s1 o1 d) as (m&E&M1&M2); [exact (proj1 (proj2 (proj2 O1)))|lia|lia|lia|]. exists (set_mem s1 m). split; [exact E|].
      replace (o0 + p) with (o1 + d) by lia. apply outcome_copy; [intros m' HJ; exact HJ|exact O1'|exact M1|intros P1; now apply M2].
    - exists s1. split; [reflexivity|]. replace (o0 + p) with o1 by lia. exact O1'. }
  unfold protected_part. destruct (crypt =? 0) eqn:Ecr.
  - assert (Ecr0 : crypt = 0) by lia. rewrite Jm. destruct Jk as [Ji _]; [now right|].
    assert (Hch : forall i, 0 <= i < p -> chain_start f subs (o0 + i) = 0).
    { intros i Hi. rewrite range_chain by exact Hi. rewrite Ecr. cbn [negb]. now rewrite andb_false_r. }
    destruct (bool_dec ctr true) as [Hc|Hc].
    + assert (He : forall t, 0 <= t < p -> enc (o0 + t) = true).
      { intros t Ht. rewrite range_enc by exact Ht. unfold encrypted_in. cbn [f_crypt f_ctr]. now rewrite Ecr, Hc. }
      assert (HB : forall t, 0 <= t <= p -> between f subs 0 (o0 + t) = between f subs 0 o0 + t).
      { intros t Ht. rewrite (between_run f subs true) by (try lia; intros; apply He; lia). lia. }
      rewrite (inv_ctr Hc) in Ji.
      destruct (decrypt_ctr s o0 p (between f subs 0 o0)) as (s1&st&E1&O1); auto; try lia.
      { intros t Ht. split; [now apply He|]. unfold rank. rewrite Hch by exact Ht. apply HB. lia. }
      assert (Hif : (if ctr then 0 else p mod 16) = 0) by (now rewrite Hc). rewrite Hif, Z.sub_0_r, E1. cbn [bind].
      assert (O2 : outcome (fun s' => joined s' (o0 + p)) s s1 st (o0 + p)).
      { revert O1. apply outcome_mono. intros Hsy. assert (inv s1 0 (between f subs 0 (o0 + p))) as Hi.
        { rewrite (inv_ctr Hc), HB by lia. exact Hsy. }
        split; [eapply inv_mode; exact Hi|]. intros _. split; [exact Hi|]. intros; contradiction. }
      destruct (status_eqb st OK) eqn:Es; cbn [negb].
      * apply status_eqb_eq in Es. subst st. change (0 <? 0) with false. cbv iota. cbn [bind]. rewrite Z.add_0_r.
        eexists _, _, _, _. split; [reflexivity|]. split; [exact O2|]. split; [auto|]. split; [congruence|]. intros _ _. apply HB. lia.
      * assert (st <> OK) by (intros ->; discriminate). eexists _, _, _, _. split; [reflexivity|]. split; [exact O2|].
        split; [intros; contradiction|]. split; [auto|]. intros _ _. apply HB. lia.
    + assert (Hc' := not_true_is_false _ Hc).
      assert (He : forall t, 0 <= t < p -> enc (o0 + t) = (t <? p / 16 * 16)).
      { intros t Ht. rewrite range_enc by exact Ht. unfold encrypted_in. cbn [f_crypt f_ctr]. now rewrite Ecr, Hc'. }
      set (r := p mod 16). set (b := p - r).
      assert (Hr : 0 <= r < 16 /\ b = p / 16 * 16 /\ b mod 16 = 0 /\ 0 <= b <= p) by (unfold b, r; clear - Hp; lia).
      assert (Hbr : p = b + r) by (unfold b; lia). assert (Hrm : p mod 16 = r) by reflexivity. clearbody b. clearbody r. destruct Hr as (R1&R2&R3&R4).
      set (K := between f subs 0 o0) in *.
      assert (HB : forall t, 0 <= t <= b -> between f subs 0 (o0 + t) = K + t).
      { intros t Ht. rewrite (between_run f subs true) by (try lia; intros; rewrite He; lia). unfold K. lia. }
      rewrite (inv_cbc Hc') in Ji.
      assert (Hd : exists s1 st, decrypt g s (out + o0) (in_ + o0) b = CDone (s1, st) /\
                outcome (fun s' => joined s' (o0 + b)) s s1 st (o0 + b)).
      { assert (HJ : forall s1, chained (c_evp s1) 0 (K + b) -> joined s1 (o0 + b)).
        { intros s1 H. assert (inv s1 0 (between f subs 0 (o0 + b))) as Hi by (rewrite (inv_cbc Hc'), HB by lia; exact H).
          split; [eapply inv_mode; exact Hi|]. intros _. split; [exact Hi|]. intros; contradiction. }
        destruct (Z.eq_dec b 0) as [B0|B0].
        - exists s, OK. rewrite B0. split; [unfold decrypt; change (0 <=? 0) with true; reflexivity|].
          rewrite Z.add_0_r. apply outcome_refl; [exact (proj1 P)| |exact P]. rewrite B0 in HJ. rewrite !Z.add_0_r in HJ. now apply HJ.
        - destruct (decrypt_cbc s o0 b K 0) as (s1&st&E1&O1); auto; try lia.
          { intros t Ht. split; [rewrite He; lia|]. split; [apply Hch; lia|]. unfold rank. rewrite Hch by lia. apply HB. lia. }
          exists s1, st. split; [exact E1|]. revert O1. apply outcome_mono. apply HJ. }
      destruct Hd as (s1&st&E1&O1). assert (Hif : (if ctr then 0 else r) = r) by (now rewrite Hc'). rewrite Hif. replace (p - r) with b by lia. rewrite E1. cbn [bind].
      destruct (status_eqb st OK) eqn:Es; cbn [negb].
      * apply status_eqb_eq in Es. subst st.
        destruct (Hfin s1 OK (o0 + b) r) as (s2&E2&O2); auto; try lia.
        { intros t Ht. rewrite <- Z.add_assoc, He by lia. lia. }
        rewrite E2. cbn [bind]. eexists _, _, _, _. split; [reflexivity|]. split; [exact O2|]. split; [split; [lia|reflexivity]|].
        split; [congruence|]. congruence.
      * assert (st <> OK) by (intros ->; discriminate). eexists _, _, _, _. split; [reflexivity|].
        split; [eapply outcome_fail; eauto|]. split; [intros; contradiction|]. split; [auto|congruence].
  - assert (Hcr : crypt <> 0) by lia. pose proof (is_pattern Hcr) as Hcr0. destruct Hans as [Hans|Hans]; [contradiction|].
    set (cs := if negb ctr && negb (crypt =? 0) then total pr else 0).
    assert (Hs1 : exists s1, (let '(s1, st) := if is_ctr (c_evp s) then (s, OK) else ctx_set_iv (set_iv_var s (x_iv x)) (x_iv x) in (s1, st)) = (s1, OK) /\
        outcome (fun s' => inv s' cs (between f subs cs o0)) s s1 OK o0 /\ between f subs cs o0 mod 16 = 0 /\ 0 <= cs <= o0).
    { rewrite Jm. destruct (bool_dec ctr true) as [Hc|Hc].
      - destruct Jk as [Ji Jk]; [now left|]. rewrite Hc. exists s. split; [reflexivity|]. unfold cs. rewrite Hc. cbn [negb andb].
        rewrite <- Hc. split; [apply outcome_refl; auto; exact (proj1 P)|]. split; [now apply Jk|lia].
      - assert (Hc' := not_true_is_false _ Hc). rewrite Hc'. unfold ctx_set_iv, answer. cbn [set_iv_var c_ans c_calls]. rewrite Hans.
        eexists. split; [reflexivity|]. unfold cs. rewrite Hc', Ecr. cbn [negb andb]. rewrite <- Hc'.
        rewrite (clear_between (total pr)) by lia. rewrite between_nil. split; [|split; [reflexivity|lia]].
        split; [reflexivity|]. split; [cbn; lia|]. split; [exact (proj1 P)|]. split; [intros _|congruence].
        split; [intros i _; apply Hans|]. split; [|exact P].
        rewrite (inv_cbc Hc'). cbn [set_evp called set_iv_var c_evp]. rewrite Hc' in Jm. destruct (c_evp s); [discriminate|].
        eexists. split; [reflexivity|]. split; [lia|]. split; [reflexivity|]. split; [auto|lia]. }
    destruct Hs1 as (s1&E1&O1&HK16&Hcs).
    destruct (if is_ctr (c_evp s) then (s, OK) else ctx_set_iv (set_iv_var s (x_iv x)) (x_iv x)) as [s1' st1]. inversion E1; subst s1' st1. clear E1.
    pose proof O1 as (A1&A2&A3&A4&_). destruct (A4 eq_refl) as (A5&A6&A7).
    cbn [status_eqb negb]. rewrite andb_false_r.
    destruct (stripes_ok o0 p cs Hcr0 Hcs ltac:(lia) F6 range_enc) with (fuel := fuel) (s := s1) (d := 0) (K := between f subs cs o0)
      as (s2&d&K&E2&D1&D2&D3&D4&O2); rewrite ?Z.add_0_r, ?Z.sub_0_r; auto; try lia.
    { intros i Hi. rewrite range_chain by exact Hi. reflexivity. }
    { right. exists 0. lia. }
    { intros i. rewrite A1. apply Hans. }
    rewrite Z.add_0_r, Z.sub_0_r in E2. rewrite E2. cbn [bind].
    assert (O3 : outcome (fun s' => joined s' (o0 + d)) s s2 OK (o0 + d)).
    { eapply outcome_trans; [exact O1|]. revert O2. apply outcome_mono. intros Hi. split; [eapply inv_mode; exact Hi|].
      intros [Hc|Hc]; [|contradiction]. unfold cs in *. rewrite Hc in D4, Hi. cbn [negb andb] in D4, Hi. rewrite <- Hc in D4. rewrite <- D4. auto. }
    destruct (Hfin s2 OK (o0 + d) (p - d)) as (s3&E3&O4); auto; try lia.
    { intros t Ht. rewrite <- Z.add_assoc, range_enc by lia. unfold encrypted_in. cbn [f_crypt]. rewrite Ecr.
      replace (d + t <? p / 16 * 16) with false by lia. reflexivity. }
    rewrite E3. cbn [bind]. eexists _, _, _, _. split; [reflexivity|]. split; [exact O4|]. split; [split; [lia|reflexivity]|].
    split; [congruence|]. intros; contradiction.
Qed.
End Range.

Lemma subsamples_ok fuel : n <= Z.of_nat fuel -> forall rest pr s, subs = pr ++ rest ->
  pre (c_mem s) (total pr) -> joined s (total pr) -> crypt = 0 \/ (forall i, c_ans s i = true) ->
  (ctr = true -> crypt = 0 -> ranges_good count0 (between f subs 0 (total pr)) rest) ->
  exists s' o' st, subsamples fuel g x out in_ s (total pr) OK rest = CDone (s', o', st) /\
    outcome (fun _ => True) s s' st n /\ (st = OK -> o' = n).
Proof.
  intros Hfuel. induction rest as [|[c p] rest IH]; intros pr s Hsp P J Hans Hrg; cbn [subsamples].
  - rewrite app_nil_r in Hsp. exists s, (total pr), OK. split; [reflexivity|]. rewrite <- Hsp in *.
    split; [apply outcome_refl; auto; exact (proj1 P)|auto].
  - destruct (split_facts pr c p rest Hsp) as (F1&F2&F3&F4&F5&F6).
    assert (Hcl : exists m, (if 0 <? c then copy s (out + total pr) (in_ + total pr) c else CDone s) = CDone (set_mem s m) /\
              pre m (total pr + c)).
    { destruct (0 <? c) eqn:Ec.
      - destruct (copy_kept s (total pr) c (proj1 P)) as (m&E&M1&M2); [lia|lia|lia|]. exists m. split; [exact E|]. apply M2; [exact P|].
        intros t Ht. apply (clear_enc pr c p rest Hsp). lia.
      - exists (c_mem s). split; [destruct s; reflexivity|]. replace (total pr + c) with (total pr) by lia. exact P. }
    destruct Hcl as (m&Hcl&Pm). rewrite Hcl. cbn [bind].
    assert (Hcb : between f subs 0 (total pr + c) = between f subs 0 (total pr)) by (apply (clear_between pr c p rest Hsp); lia).
    assert (Jm : joined (set_mem s m) (total pr + c)).
    { apply (joined_between _ (total pr)); [exact J|exact Hcb]. }
    assert (Hsp' : subs = (pr ++ [(c, p)]) ++ rest) by (rewrite <- app_assoc; exact Hsp).
    assert (Ht' : total (pr ++ [(c, p)]) = total pr + c + p) by (rewrite total_app; cbn; lia).
    destruct (0 <? p) eqn:Ep.
    + destruct (protected_ok pr c p rest Hsp fuel (set_mem s m) Hfuel) as (s1&o1&st&stop&E1&O1&D1&D2&D3); auto; [lia| |].
      { intros Hc Hcr. rewrite Hcb. now apply Hrg. }
      rewrite E1. cbn [bind]. destruct (status_eqb st OK) eqn:Es.
      * apply status_eqb_eq in Es. subst st. destruct (D1 eq_refl) as (->&->).
        pose proof O1 as (A1&A2&A3&A4&_). destruct (A4 eq_refl) as (A5&A6&A7). rewrite <- Ht' in A6, A7.
        destruct (IH (pr ++ [(c, p)]) s1 Hsp' A7 A6) as (s2&o2&st&E2&O2&D4).
        { destruct Hans as [Hans|Hans]; [now left|right]. intros i. rewrite A1. apply Hans. }
        { intros Hc Hcr. rewrite Ht', D3, Hcb by assumption. now apply Hrg. }
        rewrite Ht' in E2. exists s2, o2, st. split; [exact E2|]. split; [|exact D4].
        exact (outcome_trans _ _ _ _ _ _ _ _ O1 O2).
      * assert (Ne : st <> OK) by (intros ->; discriminate). rewrite (D2 Ne). exists s1, o1, st. split; [reflexivity|].
        split; [|intros; contradiction]. exact (outcome_fail _ _ _ _ _ _ _ Ne O1).
    + assert (p = 0) by lia. assert (Ht2 : total (pr ++ [(c, p)]) = total pr + c) by lia.
      destruct (IH (pr ++ [(c, p)]) (set_mem s m) Hsp') as (s2&o2&st&E2&O2&D4); rewrite ?Ht2; auto.
      { intros Hc Hcr. rewrite Hcb. destruct (Hrg Hc Hcr) as [_ H2]. replace (between f subs 0 (total pr)) with (between f subs 0 (total pr) + p) by lia. exact H2. }
      rewrite Ht2 in E2. exists s2, o2, st. split; [exact E2|]. auto.
Qed.

Lemma process_bytes_ok fuel s : n <= Z.of_nat fuel -> c_mem s = m0 -> is_ctr (c_evp s) = ctr ->
  crypt = 0 \/ (forall i, c_ans s i = true) -> well_placed f (x_iv x) subs ->
  exists s' o' st, process_bytes fuel g x out in_ s = CDone (s', o', st) /\
    outcome (fun _ => True) s s' st n /\ (st = OK -> o' = n).
Proof.
  intros Hfuel Hm Hct Hans Hwp. unfold process_bytes, ctx_set_iv, answer. cbn [set_enc set_iv_var c_calls c_ans c_evp].
  assert (Hk0 : kept (c_mem s)) by (rewrite Hm; split; auto).
  assert (P0 : pre (c_mem s) 0) by (split; [exact Hk0|intros j Hj; lia]).
  destruct (c_ans s (c_calls s)) eqn:A; cbn [status_eqb negb].
  - set (s1 := set_evp _ _).
    assert (J : joined s1 0).
    { split; [cbn; rewrite <- Hct; destruct (c_evp s); reflexivity|]. intros _. rewrite between_nil. split; [|reflexivity].
      destruct (bool_dec ctr true) as [Hc|Hc].
      - rewrite (inv_ctr Hc). rewrite Hc in Hct. destruct (c_evp s) as [v u|] eqn:Ev; [|discriminate].
        destruct Hiv as [_ [I1 I2]]. assert (count0 = (count0 + 0 / 16) mod W64) as I3.
        { change (0 / 16) with 0. rewrite Z.add_0_r, Z.mod_small; [reflexivity|]. unfold W64 in *. lia. }
        unfold s1. cbn. split; [reflexivity|]. split; [exact I3|]. split; [|split; [reflexivity|lia]].
        exists (x_iv x), 0. split; [reflexivity|]. split; [lia|]. split; [reflexivity|]. split; [exact I1|]. split; [|reflexivity]. cbn. apply Z.add_0_r.
      - assert (Hc' := not_true_is_false _ Hc). rewrite (inv_cbc Hc'). rewrite Hc' in Hct. destruct (c_evp s) as [|] eqn:Ev; [discriminate|].
        unfold s1. cbn. eexists. split; [reflexivity|]. split; [lia|]. split; [reflexivity|]. split; [auto|lia]. }
    destruct (subsamples_ok fuel Hfuel subs [] s1 eq_refl) as (s2&o2&st&E2&O2&D2); [exact P0|exact J|exact Hans| |].
    { change (total []) with 0. rewrite between_nil. exact Hwp. }
    exists s2, o2, st. split; [exact E2|]. split; [|exact D2].
    assert (O1 : outcome (fun _ => True) s s1 OK 0).
    { split; [reflexivity|]. split; [cbn; lia|]. split; [exact Hk0|]. split; [intros _|congruence]. split; [|auto].
      intros i Hi. cbn in Hi. replace i with (c_calls s) by lia. exact A. }
    exact (outcome_trans _ _ _ _ _ _ _ _ O1 O2).
  - eexists _, _, _. split; [reflexivity|]. split; [|discriminate]. split; [reflexivity|]. split; [cbn; lia|].
    split; [exact Hk0|]. split; [discriminate|]. intros _. exists (c_calls s). split; [cbn; lia|exact A].
Qed.

(** *** Bounds only: pattern modes, any answers *)
Lemma stripes_weak o0 p : 0 < crypt -> 0 <= o0 -> 0 <= p < 2 ^ 31 -> o0 + p <= n ->
  forall fuel s d st, (p - d) / 16 <= Z.of_nat fuel -> 0 <= d <= p -> weak s ->
  exists s' d' st', stripes fuel g x out in_ s (o0 + d) (p - d) st = CDone (s', o0 + d', p - d', st') /\
    0 <= d' <= p /\ weak s'.
Proof.
  intros Hcr Ho Hp Hn. destruct Hmod as ((_&Hc60)&(Hs0&Hs60)&_). cbn [f_crypt f_skip] in Hc60, Hs0, Hs60.
  induction fuel as [|fuel IH]; intros s d st Hf Hd W; cbn [stripes].
  - replace (p - d <? 16) with true by (clear - Hf Hd; lia). exists s, d, st. auto.
  - destruct (p - d <? 16) eqn:E16; [exists s, d, st; auto|]. cbv zeta. rewrite (times16 crypt) by lia.
    set (b := Z.min (16 * crypt) ((p - d) / 16 * 16)).
    assert (Hb : 16 <= b /\ b mod 16 = 0 /\ b <= p - d).
    { assert (16 <= (p - d) / 16 * 16 <= p - d) by (clear - E16; lia).
      assert (((p - d) / 16 * 16) mod 16 = 0) by (apply Z.mod_mul; lia).
      assert ((16 * crypt) mod 16 = 0) by (rewrite Z.mul_comm; apply Z.mod_mul; lia).
      unfold b. destruct (Z.min_spec (16 * crypt) ((p - d) / 16 * 16)) as [[M ->]|[M ->]]; repeat split; auto; try lia. }
    clearbody b. destruct Hb as (B0&B16&B1). replace (0 <? b) with true by lia. cbn [andb].
    destruct (decrypt_weak s (o0 + d) b) as (s1&st1&E1&W1&_); auto; try lia. rewrite E1. cbn [bind].
    destruct (status_eqb st1 OK) eqn:Es; cbn [negb]; [|exists s1, d, st1; auto].
    set (k := if 0 <? skip then _ else 0).
    assert (Hk : 0 <= k <= p - d - b).
    { unfold k. rewrite times16 by lia. assert (0 <= (p - d - b) / 16 * 16 <= p - d - b) by (clear - B1; lia). destruct (0 <? skip); lia. }
    clearbody k.
    assert (Hc : exists s2, (if 0 <? k then copy s1 (out + (o0 + d + b)) (in_ + (o0 + d + b)) k else CDone s1) = CDone s2 /\ weak s2).
    { destruct (0 <? k) eqn:Ek; [|eauto]. destruct W1 as (W1&W2&W3). destruct (copy_kept s1 (o0 + d + b) k W1) as (m&E&M1&_); [lia|lia|lia|].
      rewrite E. eexists. split; [reflexivity|]. split; [exact M1|]. auto. }
    destruct Hc as (s2&->&W2). cbn [bind]. replace (o0 + d + b + k) with (o0 + (d + b + k)) by lia. replace (p - d - b - k) with (p - (d + b + k)) by lia.
    apply IH; [clear - Hf B0 Hk Hd; lia|lia|exact W2].
Qed.
Lemma subsamples_weak fuel : crypt <> 0 -> n <= Z.of_nat fuel -> forall rest pr s st, subs = pr ++ rest -> weak s ->
  exists s' o' st', subsamples fuel g x out in_ s (total pr) st rest = CDone (s', o', st') /\ weak s' /\ 0 <= o' <= n.
Proof.
  intros Hcr Hfuel. induction rest as [|[c p] rest IH]; intros pr s st Hsp W; cbn [subsamples].
  - rewrite app_nil_r in Hsp. exists s, (total pr), st. split; [reflexivity|]. split; [exact W|]. rewrite <- Hsp.
    pose proof (total_nonneg subs Hsubs). lia.
  - destruct (split_facts pr c p rest Hsp) as (F1&F2&F3&F4&F5&F6).
    assert (Hcl : exists s1, (if 0 <? c then copy s (out + total pr) (in_ + total pr) c else CDone s) = CDone s1 /\ weak s1).
    { destruct (0 <? c) eqn:Ec; [|eauto]. destruct W as (W1&W2&W3). destruct (copy_kept s (total pr) c W1) as (m&E&M1&_); [lia|lia|lia|].
      rewrite E. eexists. split; [reflexivity|]. split; [exact M1|]. auto. }
    destruct Hcl as (s1&->&W1). cbn [bind].
    assert (Hsp' : subs = (pr ++ [(c, p)]) ++ rest) by (rewrite <- app_assoc; exact Hsp).
    assert (Ht' : total (pr ++ [(c, p)]) = total pr + c + p) by (rewrite total_app; cbn; lia).
    destruct (0 <? p) eqn:Ep.
    + unfold protected_part. replace (crypt =? 0) with false by lia.
      assert (Hs : exists s2 st2, (if is_ctr (c_evp s1) then (s1, st) else ctx_set_iv (set_iv_var s1 (x_iv x)) (x_iv x)) = (s2, st2) /\ weak s2).
      { destruct (is_ctr (c_evp s1)) eqn:Ei; [eauto|]. destruct W1 as (W1&W2&W3). rewrite W2 in Ei.
        unfold ctx_set_iv. destruct (answer _); eexists _, _; (split; [reflexivity|]);
          (split; [exact W1|]; split; [|intros H; congruence]); [|exact W2].
        cbn [set_evp called set_iv_var c_evp]. rewrite <- W2. destruct (c_evp s1); reflexivity. }
      destruct Hs as (s2&st2&->&W2). destruct (negb (is_ctr (c_evp s2)) && negb (status_eqb st2 OK)); cbn [bind].
      { eexists _, _, _. split; [reflexivity|]. split; [exact W2|lia]. }
      destruct (stripes_weak (total pr + c) p) with (fuel := fuel) (s := s2) (d := 0) (st := st2) as (s3&d&st3&E3&D3&W3); auto; try lia.
      { destruct Hmod as ((H&_)&_). cbn [f_crypt] in H. clear - H Hcr. lia. }
      rewrite Z.add_0_r, Z.sub_0_r in E3. rewrite E3. cbn [bind].
      assert (Hc : exists s4, (if 0 <? p - d then copy s3 (out + (total pr + c + d)) (in_ + (total pr + c + d)) (p - d) else CDone s3) = CDone s4 /\ weak s4).
      { destruct (0 <? p - d) eqn:Ek; [|eauto]. destruct W3 as (W3&W4&W5). destruct (copy_kept s3 (total pr + c + d) (p - d) W3) as (m&E&M1&_); [lia|lia|lia|].
        rewrite E. eexists. split; [reflexivity|]. split; [exact M1|]. auto. }
      destruct Hc as (s4&->&W4). cbn [bind]. replace (total pr + c + d + (p - d)) with (total pr + c + p) by lia.
      rewrite <- Ht'. apply IH; auto.
    + replace (total pr + c) with (total (pr ++ [(c, p)])) by lia. apply IH; auto.
Qed.
Lemma process_bytes_weak fuel s : crypt <> 0 -> n <= Z.of_nat fuel -> c_mem s = m0 -> is_ctr (c_evp s) = ctr ->
  exists s' o' st, process_bytes fuel g x out in_ s = CDone (s', o', st) /\ kept (c_mem s') /\ 0 <= o' <= n.
Proof.
  intros Hcr Hfuel Hm Hct. unfold process_bytes, ctx_set_iv.
  assert (Hk0 : kept (c_mem s)) by (rewrite Hm; split; auto).
  destruct (answer _); cbn [status_eqb negb].
  - destruct (subsamples_weak fuel Hcr Hfuel subs [] (set_evp (called (set_enc (set_iv_var s (x_iv x)) 0))
       match c_evp (set_enc (set_iv_var s (x_iv x)) 0) with Ctr _ _ => Ctr (x_iv x) 0 | Cbc _ => Cbc (iv_byte (x_iv x)) end) OK eq_refl) as (s2&o2&st&E2&W2&D2).
    { split; [exact Hk0|]. split; [|reflexivity]. cbn. rewrite <- Hct. destruct (c_evp s); reflexivity. }
    exists s2, o2, st. split; [exact E2|]. split; [exact (proj1 W2)|exact D2].
  - eexists _, _, _. split; [reflexivity|]. split; [exact Hk0|]. pose proof (total_nonneg subs Hsubs). lia.
Qed.
End Sample.
