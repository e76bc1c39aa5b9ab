(** Model of taimpl/src/internal/slots.c: a bit-field slot allocator. *)
From Verif Require Import Base.

(** [struct slots_s], slots.c:29-34.  Each [int] block is the 32-bit pattern as
    an [N]; [name] is only used for logging and is dropped.  [block_count] is the
    length of the list. *)
Record slots := MkSlots { bitfield : list N; slot_count : Z }.

Definition BLOCK_BITS : nat := 32.

(** [slots_init], slots.c:36-82.  Allocation failure is not modelled (it returns
    NULL like a bad count). *)
Definition slots_init (count : Z) : option slots :=
  if count mod 32 =? 0
  then Some (MkSlots (repeat 0%N (Z.to_nat (count / 32))) count)
  else None.

(** [ffs], POSIX: one plus the index of the least significant one bit, 0 if none.
    The scan looks at the 32 bits of an [int]. *)
Fixpoint ffs_from (n : nat) (i : N) (x : N) : N :=
  match n with
  | O => 0%N
  | S n' => if N.testbit x i then (i + 1)%N else ffs_from n' (i + 1)%N x
  end.
Definition ffs (x : N) : N := ffs_from BLOCK_BITS 0%N x.

(** [~x] on a 32-bit int. *)
Definition bnot32 (x : N) : N := N.lxor x (N.ones 32).

(** The loop of [slots_allocate], slots.c:106-115; [i] is the block index.
    [1 << 31] on a signed int is taken to set bit 31, as the compilers in use do. *)
Fixpoint allocate_from (i : Z) (bs : list N) : option (list N * Z) :=
  match bs with
  | [] => None
  | b :: rest =>
      let least_significant_available := ffs (bnot32 b) in
      if negb (least_significant_available =? 0)%N then
        let bitmask := N.shiftl 1 (least_significant_available - 1) in
        Some (N.lor b bitmask :: rest,
              (i + 1) * 32 - Z.of_N least_significant_available)
      else match allocate_from (i + 1) rest with
           | Some (rest', slot) => Some (b :: rest', slot)
           | None => None
           end
  end.

(** [slots_allocate], slots.c:99-124. *)
Definition slots_allocate (s : slots) : slots * Z :=
  match allocate_from 0 (bitfield s) with
  | Some (bf, slot) => (MkSlots bf (slot_count s), slot)
  | None => (s, INVALID_HANDLE)
  end.

(** BLOCK_IDX, BLOCK_BITMASK, slots.c:25-27. *)
Definition block_idx (slot : Z) : nat := Z.to_nat (slot / 32).
Definition block_bit (slot : Z) : N := Z.to_N (32 - slot mod 32 - 1).
Definition block_bitmask (slot : Z) : N := N.shiftl 1 (block_bit slot).

(** [slots_free], slots.c:126-155. *)
Definition slots_free (s : slots) (slot : Z) : slots :=
  if slot =? INVALID_HANDLE then s
  else if slot_count s <=? slot then s
  else
    let b := nth (block_idx slot) (bitfield s) 0%N in
    if (N.land b (block_bitmask slot) =? 0)%N then s
    else MkSlots (update (block_idx slot)
                         (N.land b (bnot32 (block_bitmask slot)))
                         (bitfield s))
                 (slot_count s).
