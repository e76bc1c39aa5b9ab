(** C20 to C25: common encryption. *)
From Verif Require Import Base M_Svp S_Svp M_Cenc S_Cenc P_CencApi P_CencBad.

(** C20.  If OpenSSL does not fail, a call with one accepted sample succeeds, its output is
    the decryption of its input as the scheme prescribes (cenc, cens, cbc1, cbcs), nothing
    else in memory has changed, and both buffer offsets have moved by the length of the
    sample.  (The transport hands over one sample per call: ta.c:1807-1904.)
    Partial: the ranges and patterns must be [moderate] and, in counter mode without
    a pattern, [well_placed]; the refuted theorems below show that neither can be dropped. *)
Theorem C20_sample_decrypted_partial : forall fuel g bs x s out in_,
  sample_u64 x -> usable (c_mem s) (buffer_at bs (x_out x)) -> usable (c_mem s) (buffer_at bs (x_in x)) ->
  accepted bs x out in_ ->
  let f := MkScheme (is_ctr (c_evp s)) (x_crypt x) (x_skip x) in
  moderate f (x_subs x) -> well_placed f (x_iv x) (x_subs x) -> (forall i, c_ans s i = true) ->
  total (x_subs x) <= Z.of_nat fuel ->
  exists s' bs', common_encryption fuel g bs [x] s = CDone (s', bs', OK) /\
    decrypted g f (x_iv x) (x_subs x) (bytes_at (c_mem s) in_) (bytes_at (c_mem s') out) /\
    outside_kept (c_mem s) (c_mem s') out (total (x_subs x)) /\ offsets_moved bs bs' x.
Proof. exact call_decrypts. Qed.
Print Assumptions C20_sample_decrypted_partial.

(** A cbcs sample: pattern 1:2, clear bytes, partial blocks; and a cenc sample with a split
    block and a counter that rolls over. *)
Example C20_nontrivial :
  let x := MkSample (MkIv 7 9) 1 2 [(5, 100); (0, 40); (3, 7)] 0 1 in
  let y := MkSample (MkIv 7 (2 ^ 64 - 2)) 0 0 [(5, 20); (3, 28)] 0 1 in
  accepted (two_buffers 200) x 1000 2000 /\ moderate (MkScheme false 1 2) (x_subs x) /\
  well_placed (MkScheme false 1 2) (x_iv x) (x_subs x) /\
  map (encrypted (MkScheme false 1 2) (x_subs x)) [4; 5; 20; 21; 52; 53; 101; 105; 120; 121; 150] =
    [false; true; true; false; false; true; false; true; true; false; false] /\
  accepted (two_buffers 200) y 1000 2000 /\ moderate (MkScheme true 0 0) (x_subs y) /\
  well_placed (MkScheme true 0 0) (x_iv y) (x_subs y).
Proof.
  cbv zeta. split; [apply two_accepted; cbn; lia|]. split; [repeat split; try (repeat constructor); cbn; lia|].
  split; [discriminate|]. split; [vm_compute; reflexivity|]. split; [apply two_accepted; cbn; lia|].
  split; [repeat split; try (repeat constructor); cbn; lia|]. intros _ _. cbn [x_iv x_subs iv_counter ranges_good].
  split; [now left|]. split; [|exact I]. right. right. change ((0 + 20) mod 16) with 4. change ((0 + 20) / 16) with 1.
  change ((0 + 20 + 28) / 16) with 3. split; [lia|]. intros r Hr. lia.
Qed.

(** C20.  A protected range of 2^32 bytes: the call succeeds and nothing is decrypted. *)
Theorem C20_four_gigabytes_refuted : exists g bs x s out in_,
  sample_u64 x /\ usable (c_mem s) (buffer_at bs (x_out x)) /\ usable (c_mem s) (buffer_at bs (x_in x)) /\
  accepted bs x out in_ /\ let f := MkScheme (is_ctr (c_evp s)) (x_crypt x) (x_skip x) in
  (forall i, c_ans s i = true) /\ well_placed f (x_iv x) (x_subs x) /\ x_crypt x = 0 /\
  exists fuel s' bs', common_encryption fuel g bs [x] s = CDone (s', bs', OK) /\ c_mem s' = c_mem s /\
    ~ decrypted g f (x_iv x) (x_subs x) (bytes_at (c_mem s) in_) (bytes_at (c_mem s') out).
Proof. exact huge_untouched. Qed.
Print Assumptions C20_four_gigabytes_refuted.

(** C20.  A pattern of 2^60 encrypted blocks and one clear block: the encrypted bytes are
    copied and the call succeeds. *)
Theorem C20_pattern_wraps_refuted : exists g bs x s out in_,
  sample_u64 x /\ usable (c_mem s) (buffer_at bs (x_out x)) /\ usable (c_mem s) (buffer_at bs (x_in x)) /\
  accepted bs x out in_ /\ let f := MkScheme (is_ctr (c_evp s)) (x_crypt x) (x_skip x) in
  (forall i, c_ans s i = true) /\
  exists fuel s' bs', common_encryption fuel g bs [x] s = CDone (s', bs', OK) /\
    ~ decrypted g f (x_iv x) (x_subs x) (bytes_at (c_mem s) in_) (bytes_at (c_mem s') out).
Proof. exact wrapping_copies. Qed.
Print Assumptions C20_pattern_wraps_refuted.

(** C21.  In counter mode without a pattern the byte with [k] protected bytes before it is
    combined with byte [k mod 16] of the block that has the nonce unchanged and the counter
    increased by [k / 16] modulo 2^64.  Partial: a range that begins inside a block must
    reach the end of the block, and the counter must not roll over inside such a range
    after its second block. *)
Theorem C21_counter_partial : forall fuel g bs x s out in_,
  sample_u64 x -> usable (c_mem s) (buffer_at bs (x_out x)) -> usable (c_mem s) (buffer_at bs (x_in x)) ->
  accepted bs x out in_ -> is_ctr (c_evp s) = true -> x_crypt x = 0 ->
  Forall (fun cp => snd cp < 2 ^ 31) (x_subs x) -> ranges_good (iv_counter (x_iv x)) 0 (x_subs x) ->
  (forall i, c_ans s i = true) ->
  exists s' bs', common_encryption fuel g bs [x] s = CDone (s', bs', OK) /\
    forall j, 0 <= j < total (x_subs x) ->
      m_val (c_mem s') (out + j) =
      if is_protected (x_subs x) j
      then let k := protected_before (x_subs x) j in
           Z.lxor (m_val (c_mem s) (in_ + j))
             (e_stream g (MkIv (iv_nonce (x_iv x)) ((iv_counter (x_iv x) + k / 16) mod 2 ^ 64)) (k mod 16))
      else m_val (c_mem s) (in_ + j).
Proof. exact call_counter. Qed.
Print Assumptions C21_counter_partial.

(** Protected ranges that are multiples of 16 bytes, as the standard asks for patterns, meet
    the condition for every counter. *)
Theorem C21_whole_blocks_well_placed : forall counter subs,
  subs_u64 subs -> Forall (fun cp => snd cp mod 16 = 0) subs ->
  forall k, k mod 16 = 0 -> ranges_good counter k subs.
Proof. exact whole_blocks_good. Qed.
Print Assumptions C21_whole_blocks_well_placed.

Example C21_nontrivial :
  Forall (fun cp => snd cp < 2 ^ 31) [(5, 20); (3, 28)] /\ ranges_good (2 ^ 64 - 2) 0 [(5, 20); (3, 28)] /\
  map (protected_before [(5, 20); (3, 28)]) [4; 5; 6; 24; 27; 28; 29] = [0; 0; 1; 19; 20; 20; 21].
Proof.
  split; [repeat constructor|]. split; [|reflexivity]. cbn [ranges_good].
  split; [now left|]. split; [|exact I]. right. right. change ((0 + 20) mod 16) with 4. change ((0 + 20) / 16) with 1.
  change ((0 + 20 + 28) / 16) with 3. split; [lia|]. intros r Hr. lia.
Qed.

(** C21.  With block counter 0, the value it has with an 8-byte initialisation vector, and
    protected ranges of 8, 4 and 4 bytes, the last range is combined with the wrong bytes. *)
Theorem C21_split_block_refuted : exists g bs x s out in_,
  sample_u64 x /\ usable (c_mem s) (buffer_at bs (x_out x)) /\ usable (c_mem s) (buffer_at bs (x_in x)) /\
  accepted bs x out in_ /\ let f := MkScheme true 0 0 in is_ctr (c_evp s) = true /\ x_crypt x = 0 /\ x_skip x = 0 /\
  moderate f (x_subs x) /\ (forall i, c_ans s i = true) /\
  exists fuel s' bs', common_encryption fuel g bs [x] s = CDone (s', bs', OK) /\
    ~ decrypted g f (x_iv x) (x_subs x) (bytes_at (c_mem s) in_) (bytes_at (c_mem s') out).
Proof. exact three_ranges_wrong. Qed.
Print Assumptions C21_split_block_refuted.

(** C21.  Ranges of 8 and 56 bytes and a counter two blocks before its end: the roll-over is
    missed and the nonce changes. *)
Theorem C21_rollover_refuted : exists g bs x s out in_,
  sample_u64 x /\ usable (c_mem s) (buffer_at bs (x_out x)) /\ usable (c_mem s) (buffer_at bs (x_in x)) /\
  accepted bs x out in_ /\ let f := MkScheme true 0 0 in is_ctr (c_evp s) = true /\ x_crypt x = 0 /\ x_skip x = 0 /\
  moderate f (x_subs x) /\ (forall i, c_ans s i = true) /\ 0 < iv_counter (x_iv x) /\ total (x_subs x) mod 16 = 0 /\
  exists fuel s' bs', common_encryption fuel g bs [x] s = CDone (s', bs', OK) /\
    ~ decrypted g f (x_iv x) (x_subs x) (bytes_at (c_mem s) in_) (bytes_at (c_mem s') out).
Proof. exact rolling_wrong. Qed.
Print Assumptions C21_rollover_refuted.

(** C22.  Whatever OpenSSL answers, processing ends and accesses only the two ranges of the
    sample, of which only the output is changed.  Memory may consist of nothing but
    the two ranges: an access elsewhere would be [CFault].  Partial as in C20. *)
Theorem C22_inside_and_ends_partial : forall fuel g x s out in_,
  sample_u64 x -> live (c_mem s) out (total (x_subs x)) -> live (c_mem s) in_ (total (x_subs x)) ->
  disjoint out (total (x_subs x)) in_ (total (x_subs x)) ->
  let f := MkScheme (is_ctr (c_evp s)) (x_crypt x) (x_skip x) in
  moderate f (x_subs x) -> well_placed f (x_iv x) (x_subs x) -> total (x_subs x) <= Z.of_nat fuel ->
  exists s' n st, process_bytes fuel g x out in_ s = CDone (s', n, st) /\
    outside_kept (c_mem s) (c_mem s') out (total (x_subs x)).
Proof. exact bytes_bounds. Qed.
Print Assumptions C22_inside_and_ends_partial.

Example C22_nontrivial :
  live (two_ranges 155) 1000 155 /\ live (two_ranges 155) 2000 155 /\ disjoint 1000 155 2000 155 /\
  total [(5, 100); (0, 40); (3, 7)] = 155 /\ moderate (MkScheme false 1 2) [(5, 100); (0, 40); (3, 7)].
Proof.
  split; [intros a Ha; cbn; lia|]. split; [intros a Ha; cbn; lia|]. split; [left; lia|]. split; [reflexivity|].
  repeat split; try (repeat constructor); cbn; lia.
Qed.

(** C22.  Block counter 0 and protected ranges of 8 and 4 bytes: bytes after the end of
    both buffers are accessed. *)
Theorem C22_counter_zero_refuted : exists g bs x s out in_,
  sample_u64 x /\ usable (c_mem s) (buffer_at bs (x_out x)) /\ usable (c_mem s) (buffer_at bs (x_in x)) /\
  accepted bs x out in_ /\ moderate (MkScheme (is_ctr (c_evp s)) (x_crypt x) (x_skip x)) (x_subs x) /\
  (forall i, c_ans s i = true) /\ forall fuel, common_encryption fuel g bs [x] s = CFault.
Proof. exact short_range_faults. Qed.
Print Assumptions C22_counter_zero_refuted.

(** C22.  The same with another counter: two ranges of one byte. *)
Theorem C22_last_counter_refuted : exists g bs x s out in_,
  sample_u64 x /\ usable (c_mem s) (buffer_at bs (x_out x)) /\ usable (c_mem s) (buffer_at bs (x_in x)) /\
  accepted bs x out in_ /\ moderate (MkScheme (is_ctr (c_evp s)) (x_crypt x) (x_skip x)) (x_subs x) /\
  0 < iv_counter (x_iv x) /\
  (forall i, c_ans s i = true) /\ forall fuel, common_encryption fuel g bs [x] s = CFault.
Proof. exact last_block_faults. Qed.
Print Assumptions C22_last_counter_refuted.

(** C22.  A pattern of 2^60 encrypted blocks and no clear ones: the loop never ends. *)
Theorem C22_endless_refuted : exists g bs x s out in_,
  sample_u64 x /\ usable (c_mem s) (buffer_at bs (x_out x)) /\ usable (c_mem s) (buffer_at bs (x_in x)) /\
  accepted bs x out in_ /\ (forall i, c_ans s i = true) /\ forall fuel, common_encryption fuel g bs [x] s = CSpin.
Proof. exact wrapping_spins. Qed.
Print Assumptions C22_endless_refuted.

(** C23.  Without a pattern the call succeeds exactly if all calls of OpenSSL made by it
    succeed, and then the output is right. *)
Theorem C23_failure_reported_partial : forall fuel g bs x s out in_,
  sample_u64 x -> usable (c_mem s) (buffer_at bs (x_out x)) -> usable (c_mem s) (buffer_at bs (x_in x)) ->
  accepted bs x out in_ -> x_crypt x = 0 ->
  let f := MkScheme (is_ctr (c_evp s)) (x_crypt x) (x_skip x) in
  moderate f (x_subs x) -> well_placed f (x_iv x) (x_subs x) -> total (x_subs x) <= Z.of_nat fuel ->
  exists s' bs' st, common_encryption fuel g bs [x] s = CDone (s', bs', st) /\
    (st = OK <-> forall i, (c_calls s <= i < c_calls s')%nat -> c_ans s i = true) /\
    (st = OK -> decrypted g f (x_iv x) (x_subs x) (bytes_at (c_mem s) in_) (bytes_at (c_mem s') out)).
Proof. exact call_reports. Qed.
Print Assumptions C23_failure_reported_partial.

(** C23.  With a pattern the failure of the first of two ranges is forgotten: the call
    succeeds and the output is wrong. *)
Theorem C23_pattern_failure_lost_refuted : exists g bs x s out in_,
  sample_u64 x /\ usable (c_mem s) (buffer_at bs (x_out x)) /\ usable (c_mem s) (buffer_at bs (x_in x)) /\
  accepted bs x out in_ /\ let f := MkScheme (is_ctr (c_evp s)) (x_crypt x) (x_skip x) in
  moderate f (x_subs x) /\
  exists fuel s' bs', common_encryption fuel g bs [x] s = CDone (s', bs', OK) /\
    (exists i, (c_calls s <= i < c_calls s')%nat /\ c_ans s i = false) /\
    ~ decrypted g f (x_iv x) (x_subs x) (bytes_at (c_mem s) in_) (bytes_at (c_mem s') out).
Proof. exact failure_lost. Qed.
Print Assumptions C23_pattern_failure_lost_refuted.

(** C24.  A sample is processed exactly if it is [accepted]: its ranges lie inside their
    buffers and are apart. *)
Theorem C24_accepted_iff_apart : forall bs x,
  sample_u64 x -> u64_buffer (buffer_at bs (x_out x)) -> u64_buffer (buffer_at bs (x_in x)) ->
  verify_sample bs x = OK <-> exists out in_, accepted bs x out in_.
Proof. exact verify_iff. Qed.
Print Assumptions C24_accepted_iff_apart.

(** C24.  If any sample is not accepted, nothing happens at all. *)
Theorem C24_refused_untouched : forall fuel g bs xs s,
  verify_all bs xs <> OK -> common_encryption fuel g bs xs s = CDone (s, bs, verify_all bs xs).
Proof. exact refused_untouched. Qed.
Print Assumptions C24_refused_untouched.
Theorem C24_all_or_none : forall bs xs,
  verify_all bs xs = OK <-> Forall (fun x => verify_sample bs x = OK) xs.
Proof. exact verify_all_iff. Qed.
Print Assumptions C24_all_or_none.

Example C24_nontrivial :
  verify_sample [BClear 1000 64 0; BClear 1064 64 0] (MkSample (MkIv 5 1) 0 0 [(0, 8); (5, 3)] 0 1) = OK /\
  verify_sample [BClear 1000 64 0; BClear 1010 64 0] (MkSample (MkIv 5 1) 0 0 [(0, 8); (5, 3)] 0 1) = INVALID_PARAMETER /\
  (* ranges that touch without overlapping are refused, too *)
  verify_sample [BClear 1000 64 0; BClear 1016 64 0] (MkSample (MkIv 5 1) 0 0 [(0, 8); (5, 3)] 0 1) = INVALID_PARAMETER.
Proof. vm_compute. repeat split. Qed.

(** C24.  Two accepted samples that share the output buffer: the second is processed with
    overlapping ranges. *)
Theorem C24_shared_buffer_refuted : exists g bs xs s,
  Forall (fun x => sample_u64 x /\ usable (c_mem s) (buffer_at bs (x_out x)) /\ usable (c_mem s) (buffer_at bs (x_in x)) /\
                   exists out in_, accepted bs x out in_) xs /\
  (forall i, c_ans s i = true) /\ forall fuel, common_encryption fuel g bs xs s = COverlap.
Proof. exact shared_overlaps. Qed.
Print Assumptions C24_shared_buffer_refuted.

(** C25.  The required length is the exact sum, or 0 if the sum does not fit in 64 bits;
    samples with required length 0 are refused ([accepted] in C24). *)
Theorem C25_length_exact : forall subs, subs_u64 subs ->
  required_length subs = if total subs <? 2 ^ 64 then total subs else 0.
Proof. exact required_exact. Qed.
Print Assumptions C25_length_exact.

Example C25_nontrivial :
  required_length [(2 ^ 63, 5); (2 ^ 62, 2 ^ 62 - 6)] = 2 ^ 64 - 1 /\
  required_length [(2 ^ 63, 5); (2 ^ 62, 2 ^ 62 - 5)] = 0 /\ required_length [(5, 2 ^ 64 - 1); (1, 1)] = 0.
Proof. vm_compute. repeat split. Qed.
