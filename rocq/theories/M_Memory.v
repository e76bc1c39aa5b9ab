(** Model of the byte-level helpers of taimpl/src/porting/memory.c and
    taimpl/src/internal/pad.c, and of [convert_uuid] in internal/rights.c. *)
From Verif Require Import Base.

(** [memory_memcmp_constant], porting/memory.c:49-59: the accumulated bitwise or
    of the bytewise exclusive ors.  Both arguments have [length] bytes. *)
Fixpoint memcmp_constant (a b : list Z) : Z :=
  match a, b with
  | x :: a', y :: b' => Z.lor (Z.lxor x y) (memcmp_constant a' b')
  | _, _ => 0
  end.

(** [memory_is_valid_svp] and [memory_is_valid_clear], porting/memory.c:71-108:
    same body; a NULL pointer is address 0. *)
Definition memory_is_valid (location size : Z) : bool :=
  if location =? 0 then false else negb (fst (add_overflow location size)).

(** [pad_check_pkcs7], internal/pad.c:23-52, on a 16-byte block: the pad value
    (also stored when the check fails) and the answer.  [forallb] over the last
    [pad] bytes is the loop at 44-49. *)
Definition pad_check_pkcs7 (block : list Z) : Z * bool :=
  let pad := nth 15 block 0 in
  if (pad <? 1) || (16 <? pad) then (pad, false)
  else (pad, forallb (fun b => b =? pad) (skipn (Z.to_nat (16 - pad)) block)).

(** [pad_apply_pkcs7], internal/pad.c:54-76, on a 16-byte block. *)
Definition pad_apply_pkcs7 (block : list Z) (pad : Z) : option (list Z) :=
  if (pad <? 1) || (16 <? pad) then None
  else Some (firstn (Z.to_nat (16 - pad)) block ++ repeat pad (Z.to_nat pad)).

(** [PADDED_SIZE], include/internal/pad.h:39. *)
Definition PADDED_SIZE (size : Z) : Z := 16 * (size / 16 + 1).

(** Lower-casing as in rights.c:402-403 and 410-411. *)
Definition lower (c : Z) : Z := if (65 <=? c) && (c <=? 90) then c + 32 else c.
(** The hex test at rights.c:405 and 413. *)
Definition is_hex (c : Z) : bool :=
  negb (((c <? 48) || (57 <? c)) && ((c <? 97) || (102 <? c))).
(** rights.c:417-418. *)
Definition hex_digit (c : Z) : Z :=
  if (48 <=? c) && (c <=? 57) then c - 48 else c - 97 + 10.

(** [convert_uuid], internal/rights.c:383-425.  [str] is the caller's buffer of
    exactly [length str] characters; [id] is the previous content of the 16
    output bytes.  [ConvOut] is a read outside the buffer. *)
Inductive conv := ConvTrue (id : list Z) | ConvFalse | ConvOut.

(** The loop at rights.c:393-422: [fuel] is [16 - j]. *)
Fixpoint convert_loop (fuel : nat) (str : list Z) (len : nat) (i j : nat) (id : list Z) : conv :=
  match fuel with
  | O => ConvTrue id
  | S fuel' =>
      if negb (i <? len)%nat then ConvTrue id
      else match nth_error str i with
      | None => ConvOut
      | Some c0 =>
          let i1 := if c0 =? 45 then S i else i in
          if (len <=? i1)%nat then ConvFalse
          else match nth_error str i1 with
          | None => ConvOut
          | Some c1' =>
              let c1 := lower c1' in
              let i2 := S i1 in
              if (len <=? i2)%nat || negb (is_hex c1) then ConvFalse
              else match nth_error str i2 with
              | None => ConvOut
              | Some c2' =>
                  let c2 := lower c2' in
                  if negb (is_hex c2) then ConvFalse
                  else convert_loop fuel' str len (S i2) (S j)
                         (update j (hex_digit c1 * 16 + hex_digit c2) id)
              end
          end
      end
  end.

Definition convert_uuid (str : list Z) (len : nat) (id : list Z) : conv :=
  if negb (len =? 36)%nat then ConvFalse else convert_loop 16 str len 0 0 id.
