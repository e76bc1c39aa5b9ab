(** Shared definitions: status codes, 64-bit arithmetic, bytes, tactics. *)
From Coq Require Export ZArith NArith List Bool Lia Arith.
From Coq Require Export ZifyBool ZifyNat ZifyN.
Export ListNotations.
#[global] Open Scope Z_scope.

Ltac Zify.zify_post_hook ::= Z.div_mod_to_equations.

#[global] Arguments N.add : simpl never.
#[global] Arguments N.sub : simpl never.
#[global] Arguments N.mul : simpl never.
#[global] Arguments N.div : simpl never.
#[global] Arguments N.modulo : simpl never.
#[global] Arguments N.pow : simpl never.
#[global] Arguments Z.add : simpl never.
#[global] Arguments Z.sub : simpl never.
#[global] Arguments Z.mul : simpl never.
#[global] Arguments Z.div : simpl never.
#[global] Arguments Z.modulo : simpl never.
#[global] Arguments Z.pow : simpl never.

(** [sa_status], client/include/sa_types.h:333-362.  The numeric values matter
    only where the code converts a status to [bool]; see [status_code]. *)
Inductive status :=
| OK | NO_AVAILABLE_RESOURCE_SLOT | INVALID_KEY_FORMAT | INVALID_KEY_TYPE
| NULL_PARAMETER | INVALID_PARAMETER | OPERATION_NOT_ALLOWED | INVALID_SVP_BUFFER
| OPERATION_NOT_SUPPORTED | SELF_TEST | VERIFICATION_FAILED | INTERNAL_ERROR
| HW_ERROR.

Definition status_eqb (a b : status) : bool :=
  match a, b with
  | OK, OK | NO_AVAILABLE_RESOURCE_SLOT, NO_AVAILABLE_RESOURCE_SLOT
  | INVALID_KEY_FORMAT, INVALID_KEY_FORMAT | INVALID_KEY_TYPE, INVALID_KEY_TYPE
  | NULL_PARAMETER, NULL_PARAMETER | INVALID_PARAMETER, INVALID_PARAMETER
  | OPERATION_NOT_ALLOWED, OPERATION_NOT_ALLOWED
  | INVALID_SVP_BUFFER, INVALID_SVP_BUFFER
  | OPERATION_NOT_SUPPORTED, OPERATION_NOT_SUPPORTED | SELF_TEST, SELF_TEST
  | VERIFICATION_FAILED, VERIFICATION_FAILED | INTERNAL_ERROR, INTERNAL_ERROR
  | HW_ERROR, HW_ERROR => true
  | _, _ => false
  end.

Lemma status_eqb_eq a b : status_eqb a b = true <-> a = b.
Proof. destruct a, b; cbn; split; intros H; congruence. Qed.

(** Enumerator values, client/include/sa_types.h:333-362. *)
Definition status_code (s : status) : Z :=
  match s with
  | OK => 0 | NO_AVAILABLE_RESOURCE_SLOT => 1 | INVALID_KEY_FORMAT => 2
  | INVALID_KEY_TYPE => 3 | NULL_PARAMETER => 4 | INVALID_PARAMETER => 5
  | OPERATION_NOT_ALLOWED => 6 | INVALID_SVP_BUFFER => 7
  | OPERATION_NOT_SUPPORTED => 8 | SELF_TEST => 9 | VERIFICATION_FAILED => 10
  | INTERNAL_ERROR => 11 | HW_ERROR => 12
  end.

(** Conversion of a C integer to [bool]: non-zero is true (C11 6.3.1.2). *)
Definition c_bool (z : Z) : bool := negb (z =? 0).

(** 64-bit unsigned words.  [size_t], [uint64_t] and [unsigned long] are all
    64 bits wide on the platforms the reference implementation targets. *)
Definition W64 : Z := 2 ^ 64.
Definition wrap64 (x : Z) : Z := x mod W64.
Definition is_u64 (x : Z) : Prop := 0 <= x < W64.
Definition SIZE_MAX : Z := W64 - 1.
(** INVALID_HANDLE, client/include/sa_types.h; SLOT_INVALID, slots.h:43. *)
Definition INVALID_HANDLE : Z := W64 - 1.

(** [add_overflow], porting/overflow.c:21-26 ([__builtin_uaddl_overflow]): the
    wrapped sum and whether it wrapped. *)
Definition add_overflow (a b : Z) : bool * Z :=
  (W64 <=? a + b, wrap64 (a + b)).

Lemma W64_pos : 0 < W64. Proof. reflexivity. Qed.
Lemma W64_val : W64 = 18446744073709551616. Proof. reflexivity. Qed.

Lemma add_overflow_no a b c :
  is_u64 a -> is_u64 b -> add_overflow a b = (false, c) -> c = a + b /\ is_u64 c.
Proof.
  unfold add_overflow, is_u64, wrap64. rewrite W64_val. intros Ha Hb H.
  injection H as H1 H2. subst c.
  rewrite Z.mod_small by lia. lia.
Qed.

(** Bytes are [Z] in 0..255. *)
Definition byte_ok (b : Z) : Prop := 0 <= b < 256.
Definition bytes_ok (l : list Z) : Prop := Forall byte_ok l.

(** List helpers with [Z] or [nat] positions. *)
Definition zlen {A} (l : list A) : Z := Z.of_nat (length l).

Fixpoint update {A} (i : nat) (x : A) (l : list A) : list A :=
  match l, i with
  | [], _ => []
  | _ :: t, O => x :: t
  | h :: t, S j => h :: update j x t
  end.

Lemma update_length {A} i (x : A) l : length (update i x l) = length l.
Proof. revert i; induction l as [|h t IH]; intros [|i]; cbn; auto. Qed.

Lemma nth_error_update_eq {A} i (x : A) l :
  (i < length l)%nat -> nth_error (update i x l) i = Some x.
Proof.
  revert i; induction l as [|h t IH]; intros [|i] H; cbn in *; try lia; auto.
  apply IH; lia.
Qed.

Lemma nth_error_update_neq {A} i j (x : A) l :
  i <> j -> nth_error (update i x l) j = nth_error l j.
Proof.
  revert i j; induction l as [|h t IH]; intros [|i] [|j] H; cbn; auto; try lia.
Qed.

Lemma nth_update_eq {A} i (x d : A) l :
  (i < length l)%nat -> nth i (update i x l) d = x.
Proof.
  revert i; induction l as [|h t IH]; intros [|i] H; cbn in *; try lia; auto.
  apply IH; lia.
Qed.

Lemma nth_update_neq {A} i j (x d : A) l :
  i <> j -> nth j (update i x l) d = nth j l d.
Proof.
  revert i j; induction l as [|h t IH]; intros [|i] [|j] H; cbn; auto; try lia.
Qed.
