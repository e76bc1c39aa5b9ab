(** Specifications used by the byte-level theorems, written without reference to
    the model. *)
From Verif Require Import Base.

(** The big-endian number spelled by a byte string. *)
Fixpoint number_of (acc : Z) (l : list Z) : Z :=
  match l with [] => acc | b :: r => number_of (acc * 256 + b) r end.

(** PKCS#7 (RFC 5652 6.3): a message is followed by [p] bytes of value [p], where
    1 <= p <= 16 and the total is a multiple of 16. *)
Definition pkcs7_pad (msg : list Z) : list Z :=
  let p := 16 - zlen msg mod 16 in msg ++ repeat p (Z.to_nat p).
Definition pkcs7_block (block : list Z) (p : Z) : Prop :=
  1 <= p <= 16 /\ exists head, block = head ++ repeat p (Z.to_nat p) /\ length block = 16%nat.

(** Hexadecimal digits, as character codes. *)
Inductive hex_value : Z -> Z -> Prop :=
| hv_digit : forall d, 0 <= d <= 9 -> hex_value (48 + d) d
| hv_lower : forall d, 10 <= d <= 15 -> hex_value (87 + d) d
| hv_upper : forall d, 10 <= d <= 15 -> hex_value (55 + d) d.

(** The text denotes the bytes: two digits per byte. *)
Inductive hex_text : list Z -> list Z -> Prop :=
| ht_nil : hex_text [] []
| ht_cons : forall a b x y cs bs, hex_value a x -> hex_value b y -> hex_text cs bs ->
    hex_text (a :: b :: cs) (x * 16 + y :: bs).

(** RFC 4122 text: 8-4-4-4-12 digits separated by hyphens (character 45). *)
Definition uuid_text (str : list Z) (id : list Z) : Prop :=
  exists g1 g2 g3 g4 g5,
    str = g1 ++ 45 :: g2 ++ 45 :: g3 ++ 45 :: g4 ++ 45 :: g5 /\
    length g1 = 8%nat /\ length g2 = 4%nat /\ length g3 = 4%nat /\ length g4 = 4%nat /\
    length g5 = 12%nat /\ hex_text (g1 ++ g2 ++ g3 ++ g4 ++ g5) id.
