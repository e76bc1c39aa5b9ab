(** Specification vocabulary for buffers and secure-video-path memory. *)
From Verif Require Import Base M_Svp.

(** The [n] bytes at [p] lie inside the buffer of [len] bytes at [base], and that
    buffer lies inside the 64-bit address space. *)
Definition inside (base len p n : Z) : Prop :=
  base <> 0 /\ base <= p /\ p + n <= base + len /\ base + len < 2 ^ 64.

(** A buffer [svp_create_buffer] has produced. *)
Definition created (b : svp_buffer) : Prop :=
  is_u64 (sb_memory b) /\ is_u64 (sb_size b) /\
  exists alloc, svp_create_buffer (sb_memory b) (sb_size b) alloc = (true, Some b).

(** A segment given as 64-bit numbers. *)
Definition segment_u64 (s : segment) : Prop :=
  is_u64 (sg_out s) /\ is_u64 (sg_in s) /\ is_u64 (sg_len s).

(** A segment inside both buffers, as mathematical integers. *)
Definition segment_inside (out_size in_size : Z) (s : segment) : Prop :=
  sg_out s + sg_len s <= out_size /\ sg_in s + sg_len s <= in_size.

(** Position [i] of the destination is written by segment [s]. *)
Definition covers (s : segment) (i : Z) : bool :=
  (sg_out s <=? i) && (i <? sg_out s + sg_len s).

(** The source position the last segment covering destination position [i]
    takes its byte from. *)
Fixpoint source_of (segs : list segment) (i : Z) : option Z :=
  match segs with
  | [] => None
  | s :: rest =>
      match source_of rest i with
      | Some j => Some j
      | None => if covers s i then Some (sg_in s + (i - sg_out s)) else None
      end
  end.

(** [m'] is [m] after copying the segments from the buffer at [src] to the buffer
    at [dst]: exactly the covered positions change. *)
Definition transferred (m m' : mem) (dst src : Z) (segs : list segment) : Prop :=
  forall a,
    m_val m' a =
    match source_of segs (a - dst) with
    | Some j => m_val m (src + j)
    | None => m_val m a
    end.

(** Every byte of the buffer of [len] bytes at [base] belongs to a live object. *)
Definition live (m : mem) (base len : Z) : Prop :=
  forall a, base <= a < base + len -> m_ok m a = true.

Definition disjoint (a la b lb : Z) : Prop := a + la <= b \/ b + lb <= a.

(** A segment whose source and destination share a byte. *)
Definition self_overlap (dst src : Z) (s : segment) : Prop :=
  exists a, dst + sg_out s <= a < dst + sg_out s + sg_len s /\
            src + sg_in s <= a < src + sg_in s + sg_len s.
