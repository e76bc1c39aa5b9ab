(** Model of the secure-video-path buffers of taimpl/src/porting/svp.c and of
    [convert_buffer] in taimpl/src/internal/buffer.c.

    Addresses, offsets and lengths are 64-bit words represented as [Z]; every
    addition the code guards with [add_overflow] uses the modelled function. *)
From Verif Require Import Base M_Memory.

(** ** Memory

    [m_val] is the content, [m_ok] says which addresses belong to live objects.
    An access outside [m_ok] is [MFault]; a [memcpy] between overlapping objects
    is undefined (C11 7.24.2.1p2) and is [MOverlap].  Neither is a value. *)
Record mem := MkMem { m_val : Z -> Z; m_ok : Z -> bool }.

Inductive mres (A : Type) := MOk (a : A) | MFault | MOverlap.
Arguments MOk {A}. Arguments MFault {A}. Arguments MOverlap {A}.

Definition range_ok (m : mem) (a n : Z) : bool :=
  forallb (fun i => m_ok m (a + Z.of_nat i)) (seq 0 (Z.to_nat n)).

Definition overlapping (a b n : Z) : bool := (0 <? n) && (a <? b + n) && (b <? a + n).

(** The C library's [memcpy]. *)
Definition memcpy (m : mem) (dst src n : Z) : mres mem :=
  if negb (range_ok m src n && range_ok m dst n) then MFault
  else if overlapping dst src n then MOverlap
  else MOk (MkMem (fun a => if (dst <=? a) && (a <? dst + n) then m_val m (src + (a - dst)) else m_val m a)
                  (m_ok m)).

(** ** svp.c *)

(** [struct svp_buffer_s], porting/svp.c:29-32. *)
Record svp_buffer := MkSvp { sb_memory : Z; sb_size : Z }.

(** [sa_svp_offset], client/include/sa_types.h: one segment. *)
Record segment := MkSeg { sg_out : Z; sg_in : Z; sg_len : Z }.

(** [svp_validate_buffer], porting/svp.c:34-46.  The function returns [bool] but
    answers [SA_STATUS_INVALID_PARAMETER] (5) for an invalid range, which
    converts to true. *)
Definition svp_validate_buffer (b : option svp_buffer) : bool :=
  match b with
  | None => false
  | Some b =>
      if negb (memory_is_valid (sb_memory b) (sb_size b))
      then c_bool (status_code INVALID_PARAMETER)
      else true
  end.

(** [svp_create_buffer], porting/svp.c:48-79: the answer and the new value of
    [*svp_buffer], which was NULL ([svp_create] zeroes the structure,
    svp_store.c:59-61).  [alloc] is the success of the allocation. *)
Definition svp_create_buffer (memory size : Z) (alloc : bool) : bool * option svp_buffer :=
  if memory =? 0 then (false, None)
  else if negb (memory_is_valid memory size) then (c_bool (status_code INVALID_PARAMETER), None)
  else if negb alloc then (false, None)
  else (true, Some (MkSvp memory size)).

(** [svp_release_buffer], porting/svp.c:81-107, with non-NULL result pointers:
    the memory and size handed back. *)
Definition svp_release_buffer (b : option svp_buffer) : option (Z * Z) :=
  match b with
  | None => None
  | Some b => Some (sb_memory b, sb_size b)
  end.

(** The checks at porting/svp.c:137-156 and 198-217 for one segment. *)
Definition segment_ok (out_size in_size : Z) (s : segment) : bool :=
  let '(o1, range) := add_overflow (sg_out s) (sg_len s) in
  if o1 then false
  else if out_size <? range then false
  else
    let '(o2, range) := add_overflow (sg_in s) (sg_len s) in
    if o2 then false else negb (in_size <? range).

(** The copying loop of [svp_write], porting/svp.c:160-161. *)
Fixpoint write_loop (m : mem) (out in_ : Z) (segs : list segment) : mres mem :=
  match segs with
  | [] => MOk m
  | s :: rest =>
      match memcpy m (out + sg_out s) (in_ + sg_in s) (sg_len s) with
      | MOk m' => write_loop m' out in_ rest
      | MFault => MFault
      | MOverlap => MOverlap
      end
  end.

(** [svp_write], porting/svp.c:109-164.  [in_ = 0] is NULL; [segs = None] is a
    NULL offsets array. *)
Definition svp_write (m : mem) (out : option svp_buffer) (in_ in_length : Z)
    (segs : option (list segment)) : mres (mem * bool) :=
  match out, segs with
  | None, _ => MOk (m, false)
  | Some b, segs =>
      if in_ =? 0 then MOk (m, false)
      else match segs with
      | None => MOk (m, false)
      | Some segs =>
          if negb (svp_validate_buffer out) then MOk (m, false)
          else if negb (forallb (segment_ok (sb_size b) in_length) segs) then MOk (m, false)
          else match write_loop m (sb_memory b) in_ segs with
               | MOk m' => MOk (m', true)
               | MFault => MFault
               | MOverlap => MOverlap
               end
      end
  end.

(** The copying loop of [svp_copy], porting/svp.c:220-234: it may stop with
    [false] between two copies. *)
Fixpoint copy_loop (m : mem) (out in_ : Z) (segs : list segment) : mres (mem * bool) :=
  match segs with
  | [] => MOk (m, true)
  | s :: rest =>
      let '(o1, out_position) := add_overflow out (sg_out s) in
      if o1 then MOk (m, false)
      else
        let '(o2, in_position) := add_overflow in_ (sg_in s) in
        if o2 then MOk (m, false)
        else match memcpy m out_position in_position (sg_len s) with
             | MOk m' => copy_loop m' out in_ rest
             | MFault => MFault
             | MOverlap => MOverlap
             end
  end.

(** [svp_copy], porting/svp.c:166-236. *)
Definition svp_copy (m : mem) (out in_ : option svp_buffer)
    (segs : option (list segment)) : mres (mem * bool) :=
  match out, in_, segs with
  | Some bo, Some bi, Some segs =>
      if negb (svp_validate_buffer out) then MOk (m, false)
      else if negb (svp_validate_buffer in_) then MOk (m, false)
      else if negb (forallb (segment_ok (sb_size bo) (sb_size bi)) segs) then MOk (m, false)
      else copy_loop m (sb_memory bo) (sb_memory bi) segs
  | _, _, _ => MOk (m, false)
  end.

(** [svp_digest], porting/svp.c:296-332, up to the digest itself: the range that
    is hashed.  There is no NULL test: [DNullDeref] is the read of
    [svp_buffer->size] at line 310 through a NULL pointer. *)
Inductive digest_range := DRange (position length : Z) | DFail | DNullDeref.
Definition svp_digest_range (b : option svp_buffer) (offset length : Z) : digest_range :=
  let '(o, range) := add_overflow offset length in
  if o then DFail
  else match b with
  | None => DNullDeref
  | Some b' =>
      if sb_size b' <? range then DFail
      else if negb (svp_validate_buffer b) then DFail
      else let '(o, position) := add_overflow (sb_memory b') offset in
           if o then DFail else DRange position length
  end.

(** [svp_get_svp_memory], porting/svp.c:334-344 (0 is NULL), and [svp_get_size],
    346-351. *)
Definition svp_get_svp_memory (b : option svp_buffer) : Z :=
  match b with
  | None => 0
  | Some b' => if negb (svp_validate_buffer b) then 0 else sb_memory b'
  end.
Definition svp_get_size (b : option svp_buffer) : Z :=
  match b with None => 0 | Some b' => sb_size b' end.

(** [convert_buffer], internal/buffer.c:66-90: the SVP case after the buffer has
    been acquired; the status and [*bytes]. *)
Definition convert_svp (b : option svp_buffer) (offset n : Z) : status * Z :=
  let '(o, memory_range) := add_overflow offset n in
  if o then (INVALID_PARAMETER, 0)
  else
    let location := svp_get_svp_memory b in
    if location =? 0 then (INVALID_PARAMETER, 0)
    else if svp_get_size b <? memory_range then (INVALID_PARAMETER, 0)
    else let '(o, position) := add_overflow location offset in
         if o then (INVALID_PARAMETER, 0) else (OK, position).

(** [convert_buffer], internal/buffer.c:91-118: the clear case. *)
Definition convert_clear (base length offset n : Z) : status * Z :=
  if base =? 0 then (NULL_PARAMETER, 0)
  else
    let '(o, memory_range) := add_overflow offset n in
    if o then (INVALID_PARAMETER, 0)
    else if length <? memory_range then (INVALID_PARAMETER, 0)
    else if negb (memory_is_valid base length) then (INVALID_PARAMETER, 0)
    else let '(o, position) := add_overflow base offset in
         if o then (INVALID_PARAMETER, 0) else (OK, position).
