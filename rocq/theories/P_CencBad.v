(** Samples for which the processing of common encryption goes wrong. *)
From Verif Require Import Base M_Memory M_Svp S_Svp P_Svp M_Cenc S_Cenc P_Cenc.

Definition an_engine : engine :=
  MkEngine (fun v i => (iv_nonce v * 7 + iv_counter v * 16 + i + 1) mod 256) (fun b i => nth (Z.to_nat i) b 0 + 1).
(** [n] bytes at 1000 and [n] bytes at 2000 and nothing else. *)
Definition two_ranges (n : Z) : mem :=
  MkMem (fun a => a mod 256) (fun a => ((1000 <=? a) && (a <? 1000 + n)) || ((2000 <=? a) && (a <? 2000 + n))).
Definition two_buffers (n : Z) : list buffer := [BClear 1000 n 0; BClear 2000 n 0].
Definition a_state (n : Z) (ctr : bool) (ans : nat -> bool) : cst :=
  MkCst (two_ranges n) (if ctr then Ctr (MkIv 0 0) 0 else Cbc (fun _ => 0)) (MkIv 0 0) 0 0 ans.

Lemma two_usable n ctr ans i : 0 <= n < 1000 -> (i < 2)%nat -> usable (c_mem (a_state n ctr ans)) (buffer_at (two_buffers n) i).
Proof.
  intros Hn Hi. pose proof W64_val. destruct i as [|[|i]]; [| |lia]; cbn; unfold usable, u64_buffer, buffer_live, live, is_u64; cbn [m_ok two_ranges].
  - split; [lia|]. intros a Ha. lia.
  - split; [lia|]. intros a Ha. lia.
Qed.
Lemma two_accepted n x : 0 < n < 1000 -> total (x_subs x) <= n -> 0 < total (x_subs x) -> (x_crypt x = 0 -> x_skip x = 0) -> x_out x = 0%nat -> x_in x = 1%nat ->
  accepted (two_buffers n) x 1000 2000.
Proof.
  intros Hn Ht Ht0 Hc Ho Hi. unfold accepted. rewrite Ho, Hi. cbn [buffer_at two_buffers nth holds]. unfold inside. split; [exact Hc|]. lia.
Qed.
Ltac u64s := unfold is_u64; rewrite ?W64_val; cbn; lia.
Ltac sample_bounds := repeat split; try (repeat constructor); u64s.

(** To compute only as much of a result as is asked for. *)
Definition done_with (test : cst -> bool) (r : cres (cst * list buffer * status)) : bool :=
  match r with CDone (s', _, st) => status_eqb st OK && test s' | _ => false end.
Lemma done_with_true test r : done_with test r = true -> exists s' bs', r = CDone (s', bs', OK) /\ test s' = true.
Proof.
  destruct r as [[[s' bs'] st]| | |]; cbn; try discriminate. intros H. apply andb_prop in H. destruct H as [H1 H2].
  apply status_eqb_eq in H1. subst. eauto.
Qed.
(** Byte [j] at [a] has the value [v]. *)
Definition byte_is (a v : Z) (s : cst) : bool := m_val (c_mem s) a =? v.

(** A range that ends inside the cipher block it begins in, with block counter 0. *)
Definition short_range : sample := MkSample (MkIv 5 0) 0 0 [(0, 8); (0, 4)] 0 1.
Lemma short_range_faults : exists g bs x s out in_,
  sample_u64 x /\ usable (c_mem s) (buffer_at bs (x_out x)) /\ usable (c_mem s) (buffer_at bs (x_in x)) /\
  accepted bs x out in_ /\ moderate (MkScheme (is_ctr (c_evp s)) (x_crypt x) (x_skip x)) (x_subs x) /\
  (forall i, c_ans s i = true) /\ forall fuel, common_encryption fuel g bs [x] s = CFault.
Proof.
  exists an_engine, (two_buffers 12), short_range, (a_state 12 true (fun _ => true)), 1000, 2000.
  split; [sample_bounds|]. split; [apply two_usable; cbn; lia|]. split; [apply two_usable; cbn; lia|].
  split; [apply two_accepted; cbn; lia|]. split; [repeat split; try (repeat constructor); cbn; lia|].
  split; [reflexivity|]. intros fuel. vm_compute. reflexivity.
Qed.
(** The same one block before the counter rolls over. *)
Definition last_block : sample := MkSample (MkIv 5 (2 ^ 64 - 1)) 0 0 [(0, 1); (0, 1)] 0 1.
Lemma last_block_faults : exists g bs x s out in_,
  sample_u64 x /\ usable (c_mem s) (buffer_at bs (x_out x)) /\ usable (c_mem s) (buffer_at bs (x_in x)) /\
  accepted bs x out in_ /\ moderate (MkScheme (is_ctr (c_evp s)) (x_crypt x) (x_skip x)) (x_subs x) /\
  0 < iv_counter (x_iv x) /\
  (forall i, c_ans s i = true) /\ forall fuel, common_encryption fuel g bs [x] s = CFault.
Proof.
  exists an_engine, (two_buffers 2), last_block, (a_state 2 true (fun _ => true)), 1000, 2000.
  split; [sample_bounds|]. split; [apply two_usable; cbn; lia|]. split; [apply two_usable; cbn; lia|].
  split; [apply two_accepted; cbn; lia|]. split; [repeat split; try (repeat constructor); cbn; lia|].
  split; [reflexivity|]. split; [reflexivity|]. intros fuel. vm_compute. reflexivity.
Qed.
(** In larger buffers: the range after a short one is combined with the wrong key stream. *)
Definition three_ranges : sample := MkSample (MkIv 5 0) 0 0 [(0, 8); (0, 4); (0, 4)] 0 1.
Lemma three_ranges_wrong : exists g bs x s out in_,
  sample_u64 x /\ usable (c_mem s) (buffer_at bs (x_out x)) /\ usable (c_mem s) (buffer_at bs (x_in x)) /\
  accepted bs x out in_ /\ let f := MkScheme true 0 0 in is_ctr (c_evp s) = true /\ x_crypt x = 0 /\ x_skip x = 0 /\
  moderate f (x_subs x) /\ (forall i, c_ans s i = true) /\
  exists fuel s' bs', common_encryption fuel g bs [x] s = CDone (s', bs', OK) /\
    ~ decrypted g f (x_iv x) (x_subs x) (bytes_at (c_mem s) in_) (bytes_at (c_mem s') out).
Proof.
  exists an_engine, (two_buffers 64), three_ranges, (a_state 64 true (fun _ => true)), 1000, 2000.
  split; [sample_bounds|]. split; [apply two_usable; cbn; lia|]. split; [apply two_usable; cbn; lia|].
  split; [apply two_accepted; cbn; lia|]. split; [reflexivity|]. split; [reflexivity|]. split; [reflexivity|].
  split; [repeat split; try (repeat constructor); cbn; lia|]. split; [reflexivity|].
  exists 0%nat. match goal with |- exists s' bs', ?r = CDone _ /\ _ => destruct (done_with_true (byte_is (1000 + 12) 232) r) as (s'&bs'&E&V); [vm_compute; reflexivity|] end.
  exists s', bs'. split; [exact E|]. apply Z.eqb_eq in V.
  intros D. specialize (D 12 ltac:(cbn; lia)). unfold bytes_at in D. cbv beta in D. rewrite V in D. vm_compute in D. discriminate D.
Qed.
(** The counter rolls over after a split block. *)
Definition rolling : sample := MkSample (MkIv 5 (2 ^ 64 - 2)) 0 0 [(0, 8); (0, 56)] 0 1.
Lemma rolling_wrong : exists g bs x s out in_,
  sample_u64 x /\ usable (c_mem s) (buffer_at bs (x_out x)) /\ usable (c_mem s) (buffer_at bs (x_in x)) /\
  accepted bs x out in_ /\ let f := MkScheme true 0 0 in is_ctr (c_evp s) = true /\ x_crypt x = 0 /\ x_skip x = 0 /\
  moderate f (x_subs x) /\ (forall i, c_ans s i = true) /\ 0 < iv_counter (x_iv x) /\ total (x_subs x) mod 16 = 0 /\
  exists fuel s' bs', common_encryption fuel g bs [x] s = CDone (s', bs', OK) /\
    ~ decrypted g f (x_iv x) (x_subs x) (bytes_at (c_mem s) in_) (bytes_at (c_mem s') out).
Proof.
  exists an_engine, (two_buffers 64), rolling, (a_state 64 true (fun _ => true)), 1000, 2000.
  split; [sample_bounds|]. split; [apply two_usable; cbn; lia|]. split; [apply two_usable; cbn; lia|].
  split; [apply two_accepted; cbn; lia|]. split; [reflexivity|]. split; [reflexivity|]. split; [reflexivity|].
  split; [repeat split; try (repeat constructor); cbn; lia|]. split; [reflexivity|]. split; [reflexivity|]. split; [reflexivity|].
  exists 0%nat. match goal with |- exists s' bs', ?r = CDone _ /\ _ => destruct (done_with_true (byte_is (1000 + 32) 219) r) as (s'&bs'&E&V); [vm_compute; reflexivity|] end.
  exists s', bs'. split; [exact E|]. apply Z.eqb_eq in V.
  intros D. specialize (D 32 ltac:(cbn; lia)). unfold bytes_at in D. cbv beta in D. rewrite V in D. vm_compute in D. discriminate D.
Qed.
(** Patterns whose number of encrypted blocks, times 16, wraps to zero. *)
Definition wrapping (skip : Z) : sample := MkSample (MkIv 5 0) (2 ^ 60) skip [(0, 16)] 0 1.
Lemma stripes_spin g out in_ offset : forall fuel s st, stripes fuel g (wrapping 0) out in_ s offset 16 st = CSpin.
Proof.
  induction fuel as [|fuel IH]; intros s st; [reflexivity|]. cbn [stripes]. change (16 <? 16) with false. cbv iota zeta.
  change (Z.min (wrap64 (x_crypt (wrapping 0) * 16)) (16 / 16 * 16)) with 0. change (0 <? 0) with false. cbn [bind andb].
  change (0 <? x_skip (wrapping 0)) with false. cbv iota. change (0 <? 0) with false. cbn [bind]. rewrite !Z.add_0_r, !Z.sub_0_r. apply IH.
Qed.
Lemma wrapping_spins : exists g bs x s out in_,
  sample_u64 x /\ usable (c_mem s) (buffer_at bs (x_out x)) /\ usable (c_mem s) (buffer_at bs (x_in x)) /\
  accepted bs x out in_ /\ (forall i, c_ans s i = true) /\ forall fuel, common_encryption fuel g bs [x] s = CSpin.
Proof.
  exists an_engine, (two_buffers 16), (wrapping 0), (a_state 16 true (fun _ => true)), 1000, 2000.
  split; [sample_bounds|]. split; [apply two_usable; cbn; lia|]. split; [apply two_usable; cbn; lia|].
  split; [apply two_accepted; cbn; lia|]. split; [reflexivity|]. intros fuel.
  unfold common_encryption. change (verify_all _ _) with OK. cbn [process_all].
  unfold process_sample. change (required_length (x_subs (wrapping 0))) with 16. cbv zeta. change (16 =? 0) with false. cbv iota.
  change (convert _ 16) with (OK, 1000) at 1. change (convert (buffer_at (two_buffers 16) (x_in (wrapping 0))) 16) with (OK, 2000).
  cbn [status_eqb negb]. unfold process_bytes, ctx_set_iv. cbn [answer c_ans a_state set_enc set_iv_var c_calls negb status_eqb x_subs wrapping subsamples].
  change (0 <? 0) with false. change (0 <? 16) with true. cbn [bind]. unfold protected_part. cbn [x_crypt wrapping].
  change (2 ^ 60 =? 0) with false. cbn [is_ctr c_evp set_evp called a_state set_enc set_iv_var negb andb].
  change (MkSample (MkIv 5 0) (2 ^ 60) 0 [(0, 16)] 0 1) with (wrapping 0). rewrite stripes_spin. reflexivity.
Qed.
Lemma wrapping_copies : exists g bs x s out in_,
  sample_u64 x /\ usable (c_mem s) (buffer_at bs (x_out x)) /\ usable (c_mem s) (buffer_at bs (x_in x)) /\
  accepted bs x out in_ /\ let f := MkScheme (is_ctr (c_evp s)) (x_crypt x) (x_skip x) in
  (forall i, c_ans s i = true) /\
  exists fuel s' bs', common_encryption fuel g bs [x] s = CDone (s', bs', OK) /\
    ~ decrypted g f (x_iv x) (x_subs x) (bytes_at (c_mem s) in_) (bytes_at (c_mem s') out).
Proof.
  exists an_engine, (two_buffers 16), (wrapping 1), (a_state 16 true (fun _ => true)), 1000, 2000.
  split; [sample_bounds|]. split; [apply two_usable; cbn; lia|]. split; [apply two_usable; cbn; lia|].
  split; [apply two_accepted; cbn; lia|]. split; [reflexivity|].
  exists 1%nat. match goal with |- exists s' bs', ?r = CDone _ /\ _ => destruct (done_with_true (byte_is (1000 + 0) 208) r) as (s'&bs'&E&V); [vm_compute; reflexivity|] end.
  exists s', bs'. split; [exact E|]. apply Z.eqb_eq in V.
  intros D. specialize (D 0 ltac:(cbn; lia)). unfold bytes_at in D. cbv beta in D. rewrite V in D. vm_compute in D. discriminate D.
Qed.
(** A protected range of 2^32 bytes. *)
Definition everywhere : mem := MkMem (fun a => a mod 256) (fun _ => true).
Definition huge : sample := MkSample (MkIv 5 1) 0 0 [(0, 2 ^ 32)] 0 1.
Definition huge_buffers : list buffer := [BClear (2 ^ 40) (2 ^ 32) 0; BClear (2 ^ 41) (2 ^ 32) 0].
Lemma huge_untouched : exists g bs x s out in_,
  sample_u64 x /\ usable (c_mem s) (buffer_at bs (x_out x)) /\ usable (c_mem s) (buffer_at bs (x_in x)) /\
  accepted bs x out in_ /\ let f := MkScheme (is_ctr (c_evp s)) (x_crypt x) (x_skip x) in
  (forall i, c_ans s i = true) /\ well_placed f (x_iv x) (x_subs x) /\ x_crypt x = 0 /\
  exists fuel s' bs', common_encryption fuel g bs [x] s = CDone (s', bs', OK) /\ c_mem s' = c_mem s /\
    ~ decrypted g f (x_iv x) (x_subs x) (bytes_at (c_mem s) in_) (bytes_at (c_mem s') out).
Proof.
  exists an_engine, huge_buffers, huge, (MkCst everywhere (Ctr (MkIv 0 0) 0) (MkIv 0 0) 0 0 (fun _ => true)), (2 ^ 40), (2 ^ 41).
  split; [sample_bounds|].
  split; [split; [cbn; repeat split; u64s|intros a _; reflexivity]|]. split; [split; [cbn; repeat split; u64s|intros a _; reflexivity]|].
  split.
  { split; [reflexivity|]. split; [cbn; lia|]. split; [split; [reflexivity|unfold inside; cbn; lia]|]. split; [split; [reflexivity|unfold inside; cbn; lia]|]. cbn. lia. }
  split; [reflexivity|]. split; [intros _ _; cbn; split; [left; reflexivity|exact I]|]. split; [reflexivity|].
  exists 0%nat. eexists _, _. split; [vm_compute; reflexivity|]. split; [reflexivity|].
  intros D. specialize (D 0 ltac:(cbn; lia)). vm_compute in D. discriminate D.
Qed.
(** The decryption of the first of two ranges fails. *)
Definition patterned : sample := MkSample (MkIv 5 1) 1 1 [(0, 16); (0, 16)] 0 1.
Lemma failure_lost : exists g bs x s out in_,
  sample_u64 x /\ usable (c_mem s) (buffer_at bs (x_out x)) /\ usable (c_mem s) (buffer_at bs (x_in x)) /\
  accepted bs x out in_ /\ let f := MkScheme (is_ctr (c_evp s)) (x_crypt x) (x_skip x) in
  moderate f (x_subs x) /\
  exists fuel s' bs', common_encryption fuel g bs [x] s = CDone (s', bs', OK) /\
    (exists i, (c_calls s <= i < c_calls s')%nat /\ c_ans s i = false) /\
    ~ decrypted g f (x_iv x) (x_subs x) (bytes_at (c_mem s) in_) (bytes_at (c_mem s') out).
Proof.
  exists an_engine, (two_buffers 32), patterned, (a_state 32 true (fun i => negb (i =? 1)%nat)), 1000, 2000.
  split; [sample_bounds|]. split; [apply two_usable; cbn; lia|]. split; [apply two_usable; cbn; lia|].
  split; [apply two_accepted; cbn; lia|]. split; [repeat split; try (repeat constructor); cbn; lia|].
  exists 2%nat. match goal with |- exists s' bs', ?r = CDone _ /\ _ =>
    destruct (done_with_true (fun s' => byte_is 1000 208 s' && (c_calls s' =? 3)%nat) r) as (s'&bs'&E&V); [vm_compute; reflexivity|] end.
  exists s', bs'. split; [exact E|]. apply andb_prop in V. destruct V as [V C]. apply Z.eqb_eq in V. apply Nat.eqb_eq in C. split.
  - exists 1%nat. rewrite C. split; [cbn; lia|reflexivity].
  - intros D. specialize (D 0 ltac:(cbn; lia)). unfold bytes_at in D. cbv beta in D. change (1000 + 0) with 1000 in D. rewrite V in D. vm_compute in D. discriminate D.
Qed.
(** Two samples that share the output buffer. *)
Definition shared_buffers : list buffer := [BClear 1000 64 0; BClear 2000 8 0; BClear 1010 8 0].
Definition clear_mem : mem := MkMem (fun a => a mod 256) (fun a => ((1000 <=? a) && (a <? 1064)) || ((2000 <=? a) && (a <? 2008))).
Lemma shared_overlaps : exists g bs xs s,
  Forall (fun x => sample_u64 x /\ usable (c_mem s) (buffer_at bs (x_out x)) /\ usable (c_mem s) (buffer_at bs (x_in x)) /\
                   exists out in_, accepted bs x out in_) xs /\
  (forall i, c_ans s i = true) /\ forall fuel, common_encryption fuel g bs xs s = COverlap.
Proof.
  exists an_engine, shared_buffers, [MkSample (MkIv 5 1) 0 0 [(0, 8)] 0 1; MkSample (MkIv 5 1) 0 0 [(0, 8)] 0 2],
    (MkCst clear_mem (Ctr (MkIv 0 0) 0) (MkIv 0 0) 0 0 (fun _ => true)).
  split; [|split; [reflexivity|intros fuel; vm_compute; reflexivity]].
  repeat constructor; unfold usable, u64_buffer, buffer_live, live, accepted, holds, inside; cbn; try u64s; try (intros a Ha; lia).
  - exists 1000, 2000. lia.
  - exists 1000, 1010. lia.
Qed.
