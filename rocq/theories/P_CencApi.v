(** Common encryption: from the processing of bytes to calls on buffers. *)
From Verif Require Import Base M_Memory M_Svp S_Svp P_Svp M_Cenc S_Cenc P_Cenc.

(** ** Lengths *)
Lemma required_from_exact subs : subs_u64 subs -> forall acc, is_u64 acc ->
  required_from acc subs = if acc + total subs <? W64 then acc + total subs else 0.
Proof.
  induction 1 as [|[c p] rest [Hc Hp] Hr IH]; intros acc Ha; cbn [required_from total fold_right fst snd] in *.
  - unfold is_u64 in Ha. rewrite Z.add_0_r. now replace (acc <? W64) with true by lia.
  - fold (total rest). pose proof (total_nonneg rest Hr) as Ht.
    change (2 ^ 64) with W64 in *.
    destruct (add_overflow_cases c p Hc Hp) as [[H1 E1]|[H1 E1]]; change (2 ^ 64) with W64 in *; unfold is_u64 in *.
    + rewrite E1. destruct (add_overflow_cases acc (c + p)) as [[H2 E2]|[H2 E2]]; unfold is_u64 in *; try lia; change (2 ^ 64) with W64 in *.
      * rewrite E2. rewrite IH by lia. rewrite !Z.add_assoc. reflexivity.
      * destruct (add_overflow acc (c + p)) as [[|] ?]; [|discriminate].
        replace (acc + (c + p + total rest) <? W64) with false by lia. reflexivity.
    + destruct (add_overflow c p) as [[|] ?]; [|discriminate].
      replace (acc + (c + p + total rest) <? W64) with false by lia. reflexivity.
Qed.
Lemma required_exact subs : subs_u64 subs ->
  required_length subs = if total subs <? 2 ^ 64 then total subs else 0.
Proof. intros H. unfold required_length. rewrite required_from_exact; [reflexivity|exact H|]. unfold is_u64. pose proof W64_pos. lia. Qed.

(** ** Buffers *)
Lemma convert_holds b n p : u64_buffer b -> is_u64 n -> convert b n = (OK, p) <-> holds b n p.
Proof.
  destruct b as [base len off|[sb|] off]; cbn [u64_buffer convert holds].
  - intros (?&?&?) Hn. now apply convert_clear_iff.
  - intros (?&?) Hn. now apply convert_svp_iff.
  - intros Ho Hn. split; [|tauto]. intros E. now apply convert_svp_none in E.
Qed.
Lemma holds_unique b n p q : holds b n p -> holds b n q -> p = q.
Proof. destruct b as [base len off|[sb|] off]; cbn [holds]; [intros [-> _] [-> _]..|tauto]; reflexivity. Qed.
Lemma holds_live m b n p : usable m b -> holds b n p -> 0 <= n -> live m p n.
Proof.
  intros [_ H]. destruct b as [base len off|[sb|] off]; cbn [holds buffer_live] in *; [| |tauto];
    intros (_&I1&I2&I3&I4) Hn a Ha; apply H; lia.
Qed.
Lemma advance_moved b n p : u64_buffer b -> holds b n p -> 0 <= n -> advance b n = moved b n.
Proof.
  destruct b as [base len off|[sb|] off]; cbn [u64_buffer holds advance moved]; [| |tauto].
  - intros (H1&H2&H3) (->&I1&I2&I3&I4) Hn. unfold wrap64, is_u64 in *. rewrite Z.mod_small; [reflexivity|]. change (2 ^ 64) with W64 in I4. lia.
  - intros ((H1&H2&_)&H3) (->&I1&I2&I3&I4) Hn. unfold wrap64, is_u64 in *. rewrite Z.mod_small; [reflexivity|]. change (2 ^ 64) with W64 in I4. lia.
Qed.
Lemma overlap_test_iff out in_ n : 0 <= n -> overlap_test out in_ n = false <-> out + n < in_ \/ in_ + n < out.
Proof. intros Hn. unfold overlap_test. cbv zeta. split; intros H; lia. Qed.

Lemma verify_iff bs x : sample_u64 x -> u64_buffer (buffer_at bs (x_out x)) -> u64_buffer (buffer_at bs (x_in x)) ->
  verify_sample bs x = OK <-> exists out in_, accepted bs x out in_.
Proof.
  intros (Hs&_&_&Hc&Hk) Ho Hi. unfold verify_sample, accepted. rewrite (required_exact _ Hs). cbv zeta.
  pose proof (total_nonneg _ Hs) as Ht.
  destruct (length (x_subs x) =? 0)%nat eqn:E0.
  { split; [discriminate|]. intros (out&in_&_&H&_). apply Nat.eqb_eq in E0. apply length_zero_iff_nil in E0. rewrite E0 in H. cbn in H. lia. }
  destruct ((x_crypt x =? 0) && negb (x_skip x =? 0)) eqn:E1.
  { split; [discriminate|]. intros (out&in_&H&_). lia. }
  assert (Hcs : x_crypt x = 0 -> x_skip x = 0) by lia. set (n := total (x_subs x)) in *. change W64 with (2 ^ 64) in *.
  destruct (n <? 2 ^ 64) eqn:E2; [|change (0 =? 0) with true; cbv iota; split; [discriminate|intros (out&in_&_&H&_); lia]].
  destruct (n =? 0) eqn:E3; [split; [discriminate|intros (out&in_&_&H&_); lia]|].
  assert (Hn : is_u64 n) by (unfold is_u64; change W64 with (2 ^ 64); lia).
  pose proof (convert_holds (buffer_at bs (x_out x)) n) as Co. pose proof (convert_holds (buffer_at bs (x_in x)) n) as Ci.
  destruct (convert (buffer_at bs (x_out x)) n) as [st1 out] eqn:Eo.
  destruct (status_eqb st1 OK) eqn:Es1; cbn [negb].
  2:{ split; [intros ->; discriminate|]. intros (o&i&_&_&H&_). apply (Co o Ho Hn) in H. inversion H; subst. discriminate. }
  apply status_eqb_eq in Es1. subst st1.
  destruct (convert (buffer_at bs (x_in x)) n) as [st2 in_] eqn:Ei.
  destruct (status_eqb st2 OK) eqn:Es2; cbn [negb].
  2:{ split; [intros ->; discriminate|]. intros (o&i&_&_&_&H&_). apply (Ci i Hi Hn) in H. inversion H; subst. discriminate. }
  apply status_eqb_eq in Es2. subst st2.
  assert (H1 := proj1 (Co out Ho Hn) eq_refl). assert (H2 := proj1 (Ci in_ Hi Hn) eq_refl).
  pose proof (overlap_test_iff out in_ n Ht) as Hov.
  destruct (overlap_test out in_ n).
  - split; [discriminate|]. intros (o&i&_&_&H3&H4&H5). rewrite (holds_unique _ _ _ _ H3 H1), (holds_unique _ _ _ _ H4 H2) in H5.
    apply Hov in H5. discriminate.
  - split; [intros _|reflexivity]. exists out, in_. repeat split; auto; try lia.
Qed.

Lemma accepted_verify bs x out in_ : sample_u64 x -> u64_buffer (buffer_at bs (x_out x)) -> u64_buffer (buffer_at bs (x_in x)) ->
  accepted bs x out in_ -> verify_sample bs x = OK.
Proof. intros H1 H2 H3 H4. apply verify_iff; eauto. Qed.

Lemma refused_untouched fuel g bs xs s : verify_all bs xs <> OK ->
  common_encryption fuel g bs xs s = CDone (s, bs, verify_all bs xs).
Proof. intros H. unfold common_encryption. destruct (verify_all bs xs); congruence. Qed.

Lemma verify_all_iff bs xs : verify_all bs xs = OK <-> Forall (fun x => verify_sample bs x = OK) xs.
Proof.
  induction xs as [|x xs IH]; cbn [verify_all]; [split; auto|].
  destruct (verify_sample bs x) eqn:E; (split; [intros H; try discriminate|intros H; inversion H; congruence || auto]).
  - constructor; [exact E|]. now apply IH.
  - now apply IH.
Qed.

(** ** One accepted sample *)
Lemma buffer_at_moved bs bs' x m out in_ : usable m (buffer_at bs (x_out x)) -> usable m (buffer_at bs (x_in x)) ->
  accepted bs x out in_ ->
  (let bs1 := update (x_in x) (advance (buffer_at bs (x_in x)) (total (x_subs x))) bs in
   bs' = update (x_out x) (advance (buffer_at bs1 (x_out x)) (total (x_subs x))) bs1) ->
  offsets_moved bs bs' x.
Proof.
  intros [Uo _] [Ui _] (_&Hn&Ho&Hi&Hd) E. cbv zeta in E. set (n := total (x_subs x)) in *.
  assert (Hne : x_in x <> x_out x).
  { intros Heq. rewrite Heq in Hi. rewrite (holds_unique _ _ _ _ Ho Hi) in Hd. lia. }
  assert (Hr : forall i p, holds (buffer_at bs i) n p -> (i < length bs)%nat).
  { intros i p H. destruct (lt_dec i (length bs)); [assumption|]. unfold buffer_at in H. rewrite nth_overflow in H by lia.
    cbn [holds] in H. unfold inside in H. lia. }
  assert (Ao := advance_moved _ _ _ Uo Ho ltac:(lia)). assert (Ai := advance_moved _ _ _ Ui Hi ltac:(lia)).
  unfold buffer_at in E at 1. rewrite nth_update_neq in E by auto. fold (buffer_at bs (x_out x)) in E. rewrite Ao, Ai in E.
  split; [rewrite E, !update_length; reflexivity|]. intros i. rewrite E. unfold buffer_at at 1.
  destruct (Nat.eqb_spec i (x_out x)) as [->|N1].
  - rewrite orb_true_r. rewrite nth_update_eq; [reflexivity|]. rewrite update_length. eauto.
  - rewrite nth_update_neq by auto. rewrite orb_false_r. destruct (Nat.eqb_spec i (x_in x)) as [->|N2].
    + rewrite nth_update_eq by eauto. reflexivity.
    + rewrite nth_update_neq by auto. reflexivity.
Qed.

Section One.
Variables (g : engine) (bs : list buffer) (x : sample) (s : cst) (out in_ : Z).
Hypothesis Hx : sample_u64 x.
Hypothesis Uo : usable (c_mem s) (buffer_at bs (x_out x)).
Hypothesis Ui : usable (c_mem s) (buffer_at bs (x_in x)).
Hypothesis Hacc : accepted bs x out in_.
Notation n := (total (x_subs x)).

Lemma sample_unfold fuel : process_sample fuel g bs x s =
  do '(s, offset, st) <- process_bytes fuel g x out in_ s;
  if status_eqb st OK then
    let bs := update (x_in x) (advance (buffer_at bs (x_in x)) offset) bs in
    CDone (s, update (x_out x) (advance (buffer_at bs (x_out x)) offset) bs, OK)
  else CDone (s, bs, st).
Proof.
  destruct Hacc as (_&Hn&Ho&Hi&_). destruct Uo as [Uo' _], Ui as [Ui' _]. unfold process_sample.
  rewrite required_exact by exact (proj1 Hx). replace (n <? 2 ^ 64) with true by lia. cbv zeta.
  assert (Hn' : is_u64 n) by (unfold is_u64; change W64 with (2 ^ 64); lia).
  replace (n =? 0) with false by lia.
  apply (convert_holds _ _ _ Uo' Hn') in Ho. apply (convert_holds _ _ _ Ui' Hn') in Hi. rewrite Ho, Hi. reflexivity.
Qed.
Lemma ranges_facts : live (c_mem s) out n /\ live (c_mem s) in_ n /\ disjoint out n in_ n.
Proof.
  destruct Hacc as (_&Hn&Ho&Hi&Hd). split; [|split].
  - apply (holds_live _ (buffer_at bs (x_out x))); [exact Uo|exact Ho|lia].
  - apply (holds_live _ (buffer_at bs (x_in x))); [exact Ui|exact Hi|lia].
  - unfold disjoint. lia.
Qed.
Notation f := (MkScheme (is_ctr (c_evp s)) (x_crypt x) (x_skip x)).
Lemma one_sample fuel : moderate f (x_subs x) -> well_placed f (x_iv x) (x_subs x) -> n <= Z.of_nat fuel ->
  x_crypt x = 0 \/ (forall i, c_ans s i = true) ->
  exists s' bs' st, process_sample fuel g bs x s = CDone (s', bs', st) /\
    outside_kept (c_mem s) (c_mem s') out n /\ c_ans s' = c_ans s /\ (c_calls s <= c_calls s')%nat /\
    (st = OK -> decrypted g f (x_iv x) (x_subs x) (bytes_at (c_mem s) in_) (bytes_at (c_mem s') out) /\
       offsets_moved bs bs' x /\ (forall i, (c_calls s <= i < c_calls s')%nat -> c_ans s i = true)) /\
    (st <> OK -> bs' = bs /\ exists i, (c_calls s <= i < c_calls s')%nat /\ c_ans s i = false).
Proof.
  intros Hm Hw Hf Ha. destruct ranges_facts as (L1&L2&Hd). destruct Hx as (X1&X2&X3&X4&X5).
  destruct (process_bytes_ok g x out in_ (is_ctr (c_evp s)) (c_mem s) X1 (conj X2 X3) Hm L1 L2 Hd fuel s Hf eq_refl eq_refl Ha Hw)
    as (s'&o'&st&E&(A1&A2&A3&A4&A5)&Ho).
  rewrite sample_unfold, E. cbn [bind]. destruct (status_eqb st OK) eqn:Es.
  - apply status_eqb_eq in Es. subst st. specialize (Ho eq_refl). subst o'. destruct (A4 eq_refl) as (B1&_&B2&B3). cbv zeta.
    eexists _, _, _. split; [reflexivity|]. split; [exact A3|]. split; [exact A1|]. split; [exact A2|]. split; [intros _|congruence].
    split; [|split; [|exact B1]].
    + intros j Hj. specialize (B3 j Hj). exact B3.
    + eapply buffer_at_moved; eauto.
  - assert (Ne : st <> OK) by (intros ->; discriminate). eexists _, _, _. split; [reflexivity|]. split; [exact A3|]. split; [exact A1|].
    split; [exact A2|]. split; [intros; contradiction|]. intros _. split; [reflexivity|]. exact (A5 Ne).
Qed.
End One.

(** ** Calls with one sample *)
Lemma call_one fuel g bs x s : verify_sample bs x = OK ->
  common_encryption fuel g bs [x] s = process_sample fuel g bs x s.
Proof.
  intros H. unfold common_encryption. cbn [verify_all process_all]. rewrite H.
  destruct (process_sample fuel g bs x s) as [[[s' bs'] st]| | |]; cbn [bind]; auto. now destruct st.
Qed.
Lemma call_decrypts fuel g bs x s out in_ : sample_u64 x -> usable (c_mem s) (buffer_at bs (x_out x)) ->
  usable (c_mem s) (buffer_at bs (x_in x)) -> accepted bs x out in_ ->
  let f := MkScheme (is_ctr (c_evp s)) (x_crypt x) (x_skip x) in
  moderate f (x_subs x) -> well_placed f (x_iv x) (x_subs x) -> (forall i, c_ans s i = true) ->
  total (x_subs x) <= Z.of_nat fuel ->
  exists s' bs', common_encryption fuel g bs [x] s = CDone (s', bs', OK) /\
    decrypted g f (x_iv x) (x_subs x) (bytes_at (c_mem s) in_) (bytes_at (c_mem s') out) /\
    outside_kept (c_mem s) (c_mem s') out (total (x_subs x)) /\ offsets_moved bs bs' x.
Proof.
  intros Hx Uo Ui Hacc f Hm Hw Ha Hf. rewrite call_one by (eapply accepted_verify; eauto; [apply Uo|apply Ui]).
  destruct (one_sample g bs x s out in_ Hx Uo Ui Hacc fuel Hm Hw Hf (or_intror Ha)) as (s'&bs'&st&E&H1&_&_&H2&H3).
  assert (st = OK) as ->.
  { destruct (status_eqb st OK) eqn:Es; [now apply status_eqb_eq in Es|]. assert (Ne : st <> OK) by (intros ->; discriminate).
    destruct (H3 Ne) as (_&i&_&H4). rewrite Ha in H4. discriminate. }
  destruct (H2 eq_refl) as (D1&D2&_). exists s', bs'. auto.
Qed.
Lemma call_reports fuel g bs x s out in_ : sample_u64 x -> usable (c_mem s) (buffer_at bs (x_out x)) ->
  usable (c_mem s) (buffer_at bs (x_in x)) -> accepted bs x out in_ -> x_crypt x = 0 ->
  let f := MkScheme (is_ctr (c_evp s)) (x_crypt x) (x_skip x) in
  moderate f (x_subs x) -> well_placed f (x_iv x) (x_subs x) -> total (x_subs x) <= Z.of_nat fuel ->
  exists s' bs' st, common_encryption fuel g bs [x] s = CDone (s', bs', st) /\
    (st = OK <-> forall i, (c_calls s <= i < c_calls s')%nat -> c_ans s i = true) /\
    (st = OK -> decrypted g f (x_iv x) (x_subs x) (bytes_at (c_mem s) in_) (bytes_at (c_mem s') out)).
Proof.
  intros Hx Uo Ui Hacc Hc f Hm Hw Hf. rewrite call_one by (eapply accepted_verify; eauto; [apply Uo|apply Ui]).
  destruct (one_sample g bs x s out in_ Hx Uo Ui Hacc fuel Hm Hw Hf (or_introl Hc)) as (s'&bs'&st&E&H1&_&_&H2&H3).
  exists s', bs', st. split; [exact E|]. split; [split|].
  - intros Es. apply (H2 Es).
  - intros Hall. destruct (status_eqb st OK) eqn:Es; [now apply status_eqb_eq in Es|]. assert (Ne : st <> OK) by (intros ->; discriminate).
    destruct (H3 Ne) as (_&i&Hi&H4). rewrite (Hall i Hi) in H4. discriminate.
  - intros Es. apply (H2 Es).
Qed.
Lemma bytes_bounds fuel g x s out in_ : sample_u64 x ->
  live (c_mem s) out (total (x_subs x)) -> live (c_mem s) in_ (total (x_subs x)) -> disjoint out (total (x_subs x)) in_ (total (x_subs x)) ->
  let f := MkScheme (is_ctr (c_evp s)) (x_crypt x) (x_skip x) in
  moderate f (x_subs x) -> well_placed f (x_iv x) (x_subs x) -> total (x_subs x) <= Z.of_nat fuel ->
  exists s' n st, process_bytes fuel g x out in_ s = CDone (s', n, st) /\ outside_kept (c_mem s) (c_mem s') out (total (x_subs x)).
Proof.
  intros (X1&X2&X3&X4&X5) L1 L2 Hd f Hm Hw Hf.
  destruct (Z.eq_dec (x_crypt x) 0) as [Hc|Hc].
  - destruct (process_bytes_ok g x out in_ (is_ctr (c_evp s)) (c_mem s) X1 (conj X2 X3) Hm L1 L2 Hd fuel s Hf eq_refl eq_refl (or_introl Hc) Hw)
      as (s'&o'&st&E&(A1&A2&A3&_)&Ho). exists s', o', st. split; [exact E|exact A3].
  - destruct (process_bytes_weak g x out in_ (is_ctr (c_evp s)) (c_mem s) X1 Hm L1 L2 Hd fuel s Hc Hf eq_refl eq_refl)
      as (s'&o'&st&E&A&_). exists s', o', st. split; [exact E|exact A].
Qed.

(** ** Counter mode without a pattern *)
Lemma encrypted_protected subs : forall j, encrypted (MkScheme true 0 0) subs j = is_protected subs j.
Proof.
  induction subs as [|[c p] rest IH]; intros j; cbn [encrypted is_protected]; [reflexivity|].
  destruct (j <? c); [reflexivity|]. destruct (j <? c + p); [reflexivity|apply IH].
Qed.
Lemma protected_before_0 subs : subs_u64 subs -> protected_before subs 0 = 0.
Proof.
  unfold subs_u64, is_u64. induction 1 as [|[c p] rest [Hc Hp] _ IH]; cbn [protected_before fst snd] in *; [reflexivity|].
  destruct (0 <? c) eqn:E; [reflexivity|]. assert (c = 0) by lia. subst c. destruct (0 <? 0 + p) eqn:E2; [reflexivity|].
  replace (0 - 0 - p) with 0 by lia. rewrite IH. lia.
Qed.
Lemma protected_before_succ subs : subs_u64 subs -> forall j, 0 <= j < total subs ->
  protected_before subs (j + 1) = protected_before subs j + (if is_protected subs j then 1 else 0).
Proof.
  unfold subs_u64. induction 1 as [|[c p] rest [Hc Hp] Hr IH]; intros j Hj; cbn [protected_before is_protected total fold_right fst snd] in *; [lia|].
  unfold is_u64 in *. fold (total rest) in Hj.
  destruct (j <? c) eqn:E1.
  - destruct (j + 1 <? c) eqn:E2; [reflexivity|]. destruct (j + 1 <? c + p) eqn:E3; [lia|].
    assert (p = 0) by lia. replace (j + 1 - c - p) with 0 by lia. rewrite protected_before_0 by exact Hr. lia.
  - replace (j + 1 <? c) with false by lia. destruct (j <? c + p) eqn:E2.
    + destruct (j + 1 <? c + p) eqn:E3; [lia|]. replace (j + 1 - c - p) with 0 by lia. rewrite protected_before_0 by exact Hr. lia.
    + replace (j + 1 <? c + p) with false by lia. replace (j + 1 - c - p) with (j - c - p + 1) by lia. rewrite IH by lia. lia.
Qed.
Lemma between_protected subs : subs_u64 subs -> forall j, 0 <= j <= total subs ->
  between (MkScheme true 0 0) subs 0 j = protected_before subs j.
Proof.
  intros Hs j Hj. destruct Hj as [Hj Hjt]. revert j Hj Hjt. refine (natlike_ind _ _ _).
  - intros _. now rewrite between_nil, protected_before_0.
  - intros j Hj IH Hjt. unfold Z.succ in *. rewrite between_snoc by lia. rewrite IH by lia.
    rewrite protected_before_succ by (auto; lia). now rewrite encrypted_protected.
Qed.
Lemma call_counter fuel g bs x s out in_ : sample_u64 x -> usable (c_mem s) (buffer_at bs (x_out x)) ->
  usable (c_mem s) (buffer_at bs (x_in x)) -> accepted bs x out in_ -> is_ctr (c_evp s) = true -> x_crypt x = 0 ->
  Forall (fun cp => snd cp < 2 ^ 31) (x_subs x) -> ranges_good (iv_counter (x_iv x)) 0 (x_subs x) ->
  (forall i, c_ans s i = true) ->
  exists s' bs', common_encryption fuel g bs [x] s = CDone (s', bs', OK) /\
    forall j, 0 <= j < total (x_subs x) ->
      m_val (c_mem s') (out + j) =
      if is_protected (x_subs x) j
      then let k := protected_before (x_subs x) j in
           Z.lxor (m_val (c_mem s) (in_ + j))
             (e_stream g (MkIv (iv_nonce (x_iv x)) ((iv_counter (x_iv x) + k / 16) mod 2 ^ 64)) (k mod 16))
      else m_val (c_mem s) (in_ + j).
Proof.
  intros Hx Uo Ui Hacc Hctr Hcr Hm Hg Ha.
  assert (Hsk : x_skip x = 0) by (now apply Hacc).
  assert (M : moderate (MkScheme (is_ctr (c_evp s)) (x_crypt x) (x_skip x)) (x_subs x)).
  { split; [cbn; rewrite Hcr; lia|]. split; [cbn; rewrite Hsk; lia|exact Hm]. }
  assert (W : well_placed (MkScheme (is_ctr (c_evp s)) (x_crypt x) (x_skip x)) (x_iv x) (x_subs x)) by (intros _ _; exact Hg).
  (* without a pattern the fuel of the model is not used *)
  assert (Hfuel : forall f1 f2, process_sample f1 g bs x s = process_sample f2 g bs x s).
  { assert (Hp : forall f1 f2 out in_ s o p st, protected_part f1 g x out in_ s o p st = protected_part f2 g x out in_ s o p st).
    { intros. unfold protected_part. now rewrite Hcr. }
    assert (Hss : forall f1 f2 out in_ l s o st, subsamples f1 g x out in_ s o st l = subsamples f2 g x out in_ s o st l).
    { intros f1 f2 o1 i1. induction l as [|[c p] l IH]; intros s1 o st; cbn [subsamples]; [reflexivity|].
      destruct (if 0 <? c then copy s1 (o1 + o) (i1 + o) c else CDone s1) as [s2| | |]; cbn [bind]; auto.
      destruct (0 <? p); auto. rewrite (Hp f1 f2). destruct (protected_part f2 g x o1 i1 s2 (o + c) p st) as [[[[s3 o3] st3] stop]| | |]; cbn [bind]; auto.
      destruct stop; auto. }
    intros f1 f2. unfold process_sample, process_bytes. cbv zeta. destruct (ctx_set_iv _ _) as [s1 st].
    destruct (required_length (x_subs x) =? 0); auto. destruct (convert (buffer_at bs (x_out x)) _) as [st1 o1].
    destruct (negb (status_eqb st1 OK)); auto. destruct (convert (buffer_at bs (x_in x)) _) as [st2 i1].
    destruct (negb (status_eqb st2 OK)); auto. destruct (negb (status_eqb st OK)); auto. now rewrite (Hss f1 f2). }
  destruct (call_decrypts (Z.to_nat (total (x_subs x))) g bs x s out in_ Hx Uo Ui Hacc M W Ha ltac:(lia)) as (s'&bs'&E&D&_&_).
  rewrite call_one in * by (eapply accepted_verify; eauto; [apply Uo|apply Ui]).
  exists s', bs'. split; [rewrite (Hfuel fuel (Z.to_nat (total (x_subs x)))); exact E|].
  intros j Hj. specialize (D j Hj). rewrite Hctr, Hcr, Hsk in D. rewrite encrypted_protected in D. unfold bytes_at in D.
  unfold rank, chain_start in D. cbn [f_ctr negb andb] in D. rewrite between_protected in D by (try apply Hx; lia).
  destruct (is_protected (x_subs x) j); exact D.
Qed.
(** Ranges of whole blocks are always well placed. *)
Lemma whole_blocks_good counter subs : subs_u64 subs -> Forall (fun cp => snd cp mod 16 = 0) subs -> forall k, k mod 16 = 0 -> ranges_good counter k subs.
Proof.
  intros Hs. induction 1 as [|[c p] rest Hp Hr IH]; intros k Hk; cbn [ranges_good]; [exact I|]. cbn [snd] in Hp.
  inversion Hs; subst. split; [now left|]. apply IH; [assumption|]. clear - Hk Hp. lia.
Qed.
