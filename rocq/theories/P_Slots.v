(** Proofs about the slot allocator: it refines a finite set of slot numbers. *)
From Verif Require Import Base M_Slots.

(** The set represented by the bit field. *)
Definition allocatedb (s : slots) (k : Z) : bool :=
  N.testbit (nth (block_idx k) (bitfield s) 0%N) (block_bit k).

(** Representation invariant. *)
Definition slots_wf (s : slots) : Prop :=
  slot_count s = 32 * Z.of_nat (length (bitfield s)) /\ slot_count s < INVALID_HANDLE.

Definition in_range (s : slots) (k : Z) : Prop := 0 <= k < slot_count s.

Lemma slots_init_wf c s : 0 <= c < INVALID_HANDLE -> slots_init c = Some s ->
  slots_wf s /\ slot_count s = c /\ forall k, allocatedb s k = false.
Proof.
  unfold slots_init. intros Hc H. destruct (c mod 32 =? 0) eqn:E; [|discriminate].
  injection H as <-. unfold slots_wf, allocatedb; cbn [bitfield slot_count].
  rewrite repeat_length. split; [|split]; [split; lia|lia|].
  intros k. rewrite nth_repeat. apply N.bits_0.
Qed.

(** [ffs] facts. *)
Lemma ffs_from_none n i x :
  ffs_from n i x = 0%N -> forall j, (i <= j < i + N.of_nat n)%N -> N.testbit x j = false.
Proof.
  revert i; induction n as [|n IH]; intros i H j Hj; [lia|].
  cbn in H. destruct (N.testbit x i) eqn:E; [lia|].
  destruct (N.eq_dec i j) as [->|Hne]; [exact E|].
  apply (IH (i + 1)%N H). lia.
Qed.

Lemma ffs_from_some n i x r :
  ffs_from n i x = r -> r <> 0%N ->
  (i < r <= i + N.of_nat n)%N /\ N.testbit x (r - 1) = true.
Proof.
  revert i; induction n as [|n IH]; intros i H Hr; cbn in H; [congruence|].
  destruct (N.testbit x i) eqn:E.
  - subst r. split; [lia|]. replace (i + 1 - 1)%N with i by lia. exact E.
  - destruct (IH _ H Hr) as [H1 H2]. split; [lia|exact H2].
Qed.

Lemma bnot32_testbit x j : (j < 32)%N -> N.testbit (bnot32 x) j = negb (N.testbit x j).
Proof.
  intros H. unfold bnot32. rewrite N.lxor_spec, N.ones_spec_low by exact H.
  apply xorb_true_r.
Qed.

Lemma shiftl1_testbit k j : N.testbit (N.shiftl 1 k) j = (j =? k)%N.
Proof.
  rewrite N.shiftl_1_l. rewrite N.pow2_bits_eqb. apply N.eqb_sym.
Qed.

Lemma block_bit_lt k : (block_bit k < 32)%N.
Proof. unfold block_bit. lia. Qed.

(** The allocation loop. *)
Lemma allocate_from_none i bs :
  allocate_from i bs = None ->
  forall n j, (n < length bs)%nat -> (j < 32)%N -> N.testbit (nth n bs 0%N) j = true.
Proof.
  revert i; induction bs as [|b bs IH]; intros i H n j Hn Hj; cbn in Hn; [lia|].
  cbn [allocate_from] in H.
  destruct (ffs (bnot32 b) =? 0)%N eqn:E; cbn [negb] in H; [|discriminate].
  destruct (allocate_from (i + 1) bs) as [[r s]|] eqn:E2; [discriminate|].
  destruct n as [|n]; cbn [nth].
  - apply N.eqb_eq in E.
    assert (Hb := ffs_from_none _ _ _ E j). unfold BLOCK_BITS in Hb.
    rewrite bnot32_testbit in Hb by exact Hj.
    destruct (N.testbit b j); [reflexivity|]. cbn in Hb. symmetry. apply Hb. lia.
  - eapply IH; eauto. lia.
Qed.

Lemma allocate_from_some i bs bs' slot :
  allocate_from i bs = Some (bs', slot) ->
  exists n r, (n < length bs)%nat /\ (1 <= r <= 32)%N /\
    slot = (i + Z.of_nat n + 1) * 32 - Z.of_N r /\
    N.testbit (nth n bs 0%N) (r - 1) = false /\
    bs' = update n (N.lor (nth n bs 0%N) (N.shiftl 1 (r - 1))) bs.
Proof.
  revert i bs' slot; induction bs as [|b bs IH]; intros i bs' slot H; cbn [allocate_from] in H;
    [discriminate|].
  destruct (ffs (bnot32 b) =? 0)%N eqn:E; cbn [negb] in H.
  - destruct (allocate_from (i + 1) bs) as [[r s]|] eqn:E2; [|discriminate].
    injection H as <- <-.
    destruct (IH _ _ _ E2) as (n & q & Hn & Hq & Hs & Hb & Hu).
    exists (S n), q. cbn [length nth update]. subst r.
    split; [lia|]. split; [exact Hq|]. split; [lia|]. split; [exact Hb|reflexivity].
  - injection H as <- <-. apply N.eqb_neq in E.
    destruct (ffs_from_some _ _ _ _ eq_refl E) as [H1 H2].
    fold (ffs (bnot32 b)) in *.
    set (r := ffs (bnot32 b)) in *. unfold BLOCK_BITS in H1.
    exists O, r. cbn [length nth update].
    split; [lia|]. split; [lia|]. split; [lia|].
    rewrite bnot32_testbit in H2 by lia.
    split; [|reflexivity]. destruct (N.testbit b (r - 1)); [discriminate|reflexivity].
Qed.

Lemma block_pos n r : (1 <= r <= 32)%N ->
  let slot := (0 + Z.of_nat n + 1) * 32 - Z.of_N r in
  block_idx slot = n /\ block_bit slot = (r - 1)%N.
Proof. intros Hr slot. unfold block_idx, block_bit, slot. split; lia. Qed.

Lemma block_inj j k : 0 <= j -> 0 <= k ->
  block_idx j = block_idx k -> block_bit j = block_bit k -> j = k.
Proof. unfold block_idx, block_bit. intros. lia. Qed.

Lemma block_idx_lt s k : slots_wf s -> in_range s k -> (block_idx k < length (bitfield s))%nat.
Proof. unfold slots_wf, in_range, block_idx. lia. Qed.

(** Characterisation of [slots_allocate]. *)
Lemma slots_allocate_full s s' r : slots_wf s -> slots_allocate s = (s', r) ->
  (forall k, in_range s k -> allocatedb s k = true) ->
  s' = s /\ r = INVALID_HANDLE.
Proof.
  intros Hwf H Hall. unfold slots_allocate in H.
  destruct (allocate_from 0 (bitfield s)) as [[bf sl]|] eqn:E.
  - exfalso. destruct (allocate_from_some _ _ _ _ E) as (n & q & Hn & Hq & Hs & Hb & _).
    destruct (block_pos n q Hq) as [Hi Hbit]. rewrite <- Hs in *.
    assert (in_range s sl) as Hr. { destruct Hwf. unfold in_range. lia. }
    specialize (Hall sl Hr). unfold allocatedb in Hall. rewrite Hi, Hbit in Hall. congruence.
  - injection H as <- <-. auto.
Qed.

Lemma slots_allocate_ok s s' r : slots_wf s -> slots_allocate s = (s', r) ->
  (exists k, in_range s k /\ allocatedb s k = false) ->
  in_range s r /\ allocatedb s r = false /\ slots_wf s' /\ slot_count s' = slot_count s /\
  forall k, 0 <= k -> allocatedb s' k = (k =? r) || allocatedb s k.
Proof.
  intros Hwf H (k0 & Hk0 & Hfree). unfold slots_allocate in H.
  destruct (allocate_from 0 (bitfield s)) as [[bf sl]|] eqn:E.
  - injection H as <- <-.
    destruct (allocate_from_some _ _ _ _ E) as (n & q & Hn & Hq & Hs & Hb & Hu).
    destruct (block_pos n q Hq) as [Hi Hbit]. rewrite <- Hs in *.
    assert (in_range s sl) as Hr. { destruct Hwf. unfold in_range. lia. }
    split; [exact Hr|]. split. { unfold allocatedb. rewrite Hi, Hbit. exact Hb. }
    split. { destruct Hwf. subst bf. split; cbn; rewrite ?update_length; lia. }
    split; [reflexivity|].
    intros k Hk. unfold allocatedb; cbn [bitfield]. subst bf.
    destruct (Nat.eq_dec n (block_idx k)) as [Hnk|Hnk].
    + rewrite <- Hnk, nth_update_eq by exact Hn.
      rewrite N.lor_spec, shiftl1_testbit.
      destruct (k =? sl) eqn:Ek.
      * assert (k = sl) by lia. subst k. rewrite Hbit, N.eqb_refl.
        rewrite orb_true_r. reflexivity.
      * replace (block_bit k =? q - 1)%N with false.
        { rewrite orb_false_r. reflexivity. }
        symmetry. apply N.eqb_neq. intros Heq.
        assert (k = sl); [|lia]. unfold in_range in Hr. apply block_inj; solve [congruence | lia].
    + rewrite nth_update_neq by exact Hnk.
      replace (k =? sl) with false; [reflexivity|]. symmetry. apply Z.eqb_neq. congruence.
  - exfalso. unfold allocatedb in Hfree.
    rewrite (allocate_from_none _ _ E) in Hfree; [discriminate| |].
    + apply block_idx_lt; assumption.
    + apply block_bit_lt.
Qed.

Lemma exists_range_dec (f : Z -> bool) n :
  (exists k, 0 <= k < Z.of_nat n /\ f k = false) \/ (forall k, 0 <= k < Z.of_nat n -> f k = true).
Proof.
  induction n as [|n IH]; [right; lia|].
  destruct IH as [(k & Hk & Hf)|Hall]; [left; exists k; split; [lia|exact Hf]|].
  destruct (f (Z.of_nat n)) eqn:E; [|left; exists (Z.of_nat n); split; [lia|exact E]].
  right. intros k Hk. destruct (Z.eq_dec k (Z.of_nat n)) as [->|]; [exact E|]. apply Hall; lia.
Qed.

Lemma slots_dec s : slots_wf s ->
  (exists k, in_range s k /\ allocatedb s k = false) \/ (forall k, in_range s k -> allocatedb s k = true).
Proof.
  intros [H _]. unfold in_range. destruct (exists_range_dec (allocatedb s) (Z.to_nat (slot_count s))) as [E|E].
  - left. destruct E as (k & Hk & Hf). exists k. split; [lia|exact Hf].
  - right. intros k Hk. apply E. lia.
Qed.

(** Characterisation of [slots_free]. *)
Lemma slots_free_spec s slot : slots_wf s -> 0 <= slot ->
  slots_wf (slots_free s slot) /\ slot_count (slots_free s slot) = slot_count s /\
  forall k, in_range s k -> allocatedb (slots_free s slot) k = negb (k =? slot) && allocatedb s k.
Proof.
  intros Hwf Hslot. unfold slots_free.
  destruct (slot =? INVALID_HANDLE) eqn:E1.
  { split; [exact Hwf|]. split; [reflexivity|]. intros k Hk. destruct Hwf. unfold in_range in Hk.
    replace (k =? slot) with false by lia. reflexivity. }
  destruct (slot_count s <=? slot) eqn:E2.
  { split; [exact Hwf|]. split; [reflexivity|]. intros k Hk. unfold in_range in Hk.
    replace (k =? slot) with false by lia. reflexivity. }
  set (b := nth (block_idx slot) (bitfield s) 0%N).
  assert (N.land b (block_bitmask slot) =? 0 = negb (N.testbit b (block_bit slot)))%N as Hl.
  { unfold block_bitmask. destruct (N.testbit b (block_bit slot)) eqn:Et; cbn [negb].
    - apply N.eqb_neq. intros Hz.
      assert (N.testbit (N.land b (N.shiftl 1 (block_bit slot))) (block_bit slot) = true) as Hx.
      { rewrite N.land_spec, shiftl1_testbit, N.eqb_refl, Et. reflexivity. }
      rewrite Hz, N.bits_0 in Hx. discriminate.
    - apply N.eqb_eq. apply N.bits_inj. intros j. rewrite N.land_spec, shiftl1_testbit, N.bits_0.
      destruct (N.eqb_spec j (block_bit slot)) as [->|]; [rewrite Et; reflexivity|apply andb_false_r]. }
  rewrite Hl. clear Hl.
  destruct (N.testbit b (block_bit slot)) eqn:Et; cbn [negb].
  - split. { destruct Hwf. split; cbn; rewrite ?update_length; lia. }
    split; [reflexivity|]. intros k Hk. unfold allocatedb; cbn [bitfield].
    assert (in_range s slot) as Hsl by (unfold in_range in *; lia).
    destruct (Nat.eq_dec (block_idx slot) (block_idx k)) as [Hi|Hi].
    + rewrite <- Hi, nth_update_eq by (apply block_idx_lt; assumption). fold b.
      rewrite N.land_spec, bnot32_testbit by apply block_bit_lt.
      unfold block_bitmask. rewrite shiftl1_testbit.
      destruct (k =? slot) eqn:Ek.
      * assert (k = slot) by lia. subst k. rewrite N.eqb_refl. apply andb_false_r.
      * replace (block_bit k =? block_bit slot)%N with false.
        { rewrite andb_true_r. reflexivity. }
        symmetry. apply N.eqb_neq. intros Heq. assert (k = slot); [|lia].
        unfold in_range in *. apply block_inj; solve [congruence | lia].
    + rewrite nth_update_neq by exact Hi. replace (k =? slot) with false; [reflexivity|].
      symmetry. apply Z.eqb_neq. congruence.
  - split; [exact Hwf|]. split; [reflexivity|]. intros k Hk. destruct (k =? slot) eqn:Ek; cbn; [|reflexivity].
    assert (k = slot) by lia. subst k. exact Et.
Qed.
