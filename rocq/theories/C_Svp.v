(** C16, C17 and C18: buffers handed to ciphers, secure-video-path writes and
    copies, creation of secure-video-path buffers. *)
From Verif Require Import Base M_Svp S_Svp P_Svp.

(** C16.  A clear buffer description is accepted exactly when the byte range lies
    inside the described buffer and the buffer inside the address space; the
    address used is the start of that range. *)
Theorem C16_clear_range_exact : forall base len off n p,
  is_u64 base -> is_u64 len -> is_u64 off -> is_u64 n ->
  convert_clear base len off n = (OK, p) <-> p = base + off /\ inside base len p n.
Proof. exact convert_clear_iff. Qed.
Print Assumptions C16_clear_range_exact.

Example C16_clear_nontrivial :
  convert_clear 4096 64 48 16 = (OK, 4144) /\
  convert_clear 4096 64 49 16 = (INVALID_PARAMETER, 0) /\
  convert_clear 4096 64 (2 ^ 64 - 8) 16 = (INVALID_PARAMETER, 0) /\
  convert_clear (2 ^ 64 - 16) 64 0 8 = (INVALID_PARAMETER, 0).
Proof. vm_compute. repeat split. Qed.

(** C16.  The same for a secure-video-path buffer. *)
Theorem C16_svp_range_exact : forall b off n p,
  created b -> is_u64 off -> is_u64 n ->
  convert_svp (Some b) off n = (OK, p) <->
  p = sb_memory b + off /\ inside (sb_memory b) (sb_size b) p n.
Proof. exact convert_svp_iff. Qed.
Print Assumptions C16_svp_range_exact.

Theorem C16_svp_released_buffer_refused : forall off n s p,
  convert_svp None off n = (s, p) -> s <> OK.
Proof. exact convert_svp_none. Qed.
Print Assumptions C16_svp_released_buffer_refused.

Example C16_svp_nontrivial :
  created (MkSvp 8192 256) /\ convert_svp (Some (MkSvp 8192 256)) 240 16 = (OK, 8432) /\
  convert_svp (Some (MkSvp 8192 256)) 241 16 = (INVALID_PARAMETER, 0).
Proof.
  split; [|vm_compute; repeat split].
  apply created_iff. unfold is_u64. rewrite W64_val. cbn. lia.
Qed.

(** C17.  [sa_svp_buffer_write]: with the input outside the secure buffer, the
    call succeeds exactly when every segment lies inside both buffers; then the
    destination positions covered by a segment hold the source bytes and nothing
    else has changed; on failure nothing has changed.  No access leaves the two
    buffers (the result is never [MFault]). *)
Theorem C17_write_exact : forall m b in_ in_len segs,
  created b -> is_u64 in_len -> in_ <> 0 -> Forall segment_u64 segs ->
  live m (sb_memory b) (sb_size b) -> live m in_ in_len ->
  disjoint (sb_memory b) (sb_size b) in_ in_len ->
  exists m' r, svp_write m (Some b) in_ in_len (Some segs) = MOk (m', r) /\
    (r = true <-> Forall (segment_inside (sb_size b) in_len) segs) /\
    (r = true -> transferred m m' (sb_memory b) in_ segs) /\
    (r = false -> m' = m).
Proof. exact svp_write_spec. Qed.
Print Assumptions C17_write_exact.

(** C17.  [sa_svp_buffer_copy] between buffers that do not overlap. *)
Theorem C17_copy_exact_partial : forall m bo bi segs,
  created bo -> created bi -> Forall segment_u64 segs ->
  live m (sb_memory bo) (sb_size bo) -> live m (sb_memory bi) (sb_size bi) ->
  disjoint (sb_memory bo) (sb_size bo) (sb_memory bi) (sb_size bi) ->
  exists m' r, svp_copy m (Some bo) (Some bi) (Some segs) = MOk (m', r) /\
    (r = true <-> Forall (segment_inside (sb_size bo) (sb_size bi)) segs) /\
    (r = true -> transferred m m' (sb_memory bo) (sb_memory bi) segs) /\
    (r = false -> m' = m).
Proof. exact svp_copy_spec. Qed.
Print Assumptions C17_copy_exact_partial.

(** C17.  For any two live buffers, overlapping or identical: no access leaves
    them, a refused call changes nothing, and undefined behaviour arises exactly
    when a segment's own source and destination share a byte. *)
Theorem C17_copy_bounded_partial : forall m bo bi segs,
  created bo -> created bi -> Forall segment_u64 segs ->
  live m (sb_memory bo) (sb_size bo) -> live m (sb_memory bi) (sb_size bi) ->
  match svp_copy m (Some bo) (Some bi) (Some segs) with
  | MFault => False
  | MOverlap => Forall (segment_inside (sb_size bo) (sb_size bi)) segs /\
                Exists (self_overlap (sb_memory bo) (sb_memory bi)) segs
  | MOk (m', true) => Forall (segment_inside (sb_size bo) (sb_size bi)) segs /\
                      ~ Exists (self_overlap (sb_memory bo) (sb_memory bi)) segs /\
                      forall a, ~ (sb_memory bo <= a < sb_memory bo + sb_size bo) -> m_val m' a = m_val m a
  | MOk (m', false) => ~ Forall (segment_inside (sb_size bo) (sb_size bi)) segs /\ m' = m
  end.
Proof. exact svp_copy_any. Qed.
Print Assumptions C17_copy_bounded_partial.

(** The full statement fails: a copy inside one buffer, every segment in range,
    hands overlapping ranges to [memcpy]. *)
Theorem C17_copy_within_one_buffer_refuted :
  exists m b segs,
    created b /\ live m (sb_memory b) (sb_size b) /\ Forall segment_u64 segs /\
    Forall (segment_inside (sb_size b) (sb_size b)) segs /\
    svp_copy m (Some b) (Some b) (Some segs) = MOverlap.
Proof. exact copy_within_one_buffer. Qed.
Print Assumptions C17_copy_within_one_buffer_refuted.

(** Two segments, the second rewriting part of the first. *)
Example C17_nontrivial :
  let m := MkMem (fun a => a mod 251) (fun a => (4096 <=? a) && (a <? 4096 + 8192)) in
  match svp_write m (Some (MkSvp 8192 64)) 4096 32 (Some [MkSeg 0 16 8; MkSeg 4 0 8]) with
  | MOk (m', true) =>
      map (fun i => m_val m' (8192 + i)) [0; 3; 4; 11; 12] =
      map (m_val m) [4096 + 16; 4096 + 19; 4096; 4096 + 7; 8192 + 12]
  | _ => False
  end.
Proof. vm_compute. reflexivity. Qed.

(** C18.  Creating a buffer record: a range that does not wrap is recorded
    exactly (or the allocation fails and is reported). *)
Theorem C18_valid_range_recorded_partial : forall memory size alloc,
  is_u64 memory -> is_u64 size -> memory <> 0 -> memory + size < 2 ^ 64 ->
  svp_create_buffer memory size alloc = if alloc then (true, Some (MkSvp memory size)) else (false, None).
Proof. exact create_buffer_valid. Qed.
Print Assumptions C18_valid_range_recorded_partial.

(** C18.  A buffer record that comes into existence never wraps. *)
Theorem C18_recorded_range_valid : forall memory size alloc r b,
  is_u64 memory -> is_u64 size ->
  svp_create_buffer memory size alloc = (r, Some b) ->
  b = MkSvp memory size /\ memory <> 0 /\ memory + size < 2 ^ 64.
Proof. exact create_buffer_some. Qed.
Print Assumptions C18_recorded_range_valid.

(** The full statement fails: every wrapping range is reported as a success,
    with no buffer behind it. *)
Theorem C18_wrapping_range_accepted_refuted : forall memory size alloc,
  is_u64 memory -> is_u64 size -> memory <> 0 -> 2 ^ 64 <= memory + size ->
  svp_create_buffer memory size alloc = (true, None).
Proof. exact create_buffer_wraps. Qed.
Print Assumptions C18_wrapping_range_accepted_refuted.

Example C18_nontrivial :
  svp_create_buffer 8192 64 true = (true, Some (MkSvp 8192 64)) /\
  svp_create_buffer (2 ^ 64 - 32) 64 true = (true, None).
Proof. vm_compute. split; reflexivity. Qed.
