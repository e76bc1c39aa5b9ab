(** The keystore as DER and as its users see it. *)
From Verif Require Import Base M_RootKey.

(** ** DER (X.690): lengths in as few bytes as they need, and items *)
Definition der_length (n : Z) : list Z :=
  if n <? 128 then [n]
  else if n <? 2 ^ 8 then [129; n]
  else if n <? 2 ^ 16 then [130; n / 2 ^ 8; n mod 2 ^ 8]
  else if n <? 2 ^ 24 then [131; n / 2 ^ 16; n / 2 ^ 8 mod 2 ^ 8; n mod 2 ^ 8]
  else [132; n / 2 ^ 24; n / 2 ^ 16 mod 2 ^ 8; n / 2 ^ 8 mod 2 ^ 8; n mod 2 ^ 8].
Definition item (tag : Z) (content : list Z) : list Z := tag :: der_length (zlen content) ++ content.
(** A secret bag, RFC 7292 4.2.5: SEQUENCE { OID, [0] SEQUENCE { OID, [0] OCTET STRING }, attributes } *)
Definition secret_bag (oid type secret attributes : list Z) : list Z :=
  item 48 (item 6 oid ++ item 160 (item 48 (item 6 type ++ item 160 (item 4 secret))) ++ attributes).

(** ** The keystore *)
(** Device ids are named by hexadecimal digits. *)
Definition digit (c : Z) : Z :=
  if (48 <=? c) && (c <=? 57) then c - 48
  else if (97 <=? c) && (c <=? 102) then c - 87
  else if (65 <=? c) && (c <=? 70) then c - 55 else -1.
Definition number (l : list Z) : Z := fold_left (fun v c => 16 * v + digit c) l 0.
Definition device (b : bag) (name key : list Z) : Prop :=
  b = MkBag (Some name) (Some key) /\ 2 <= zlen name <= 16 /\ Forall (fun c => 0 <= digit c) name /\ zlen key = 16.
Definition common (b : bag) (key : list Z) : Prop := b = MkBag (Some COMMON) (Some key) /\ zlen key = 16.
(** No name is longer than the one before it, nor than the room for the first. *)
Fixpoint fits (room : Z) (l : list bag) : Prop :=
  match l with
  | [] => True
  | b :: l => match b_name b with Some n => 0 < zlen n <= room /\ fits (zlen n) l | None => False end
  end.

(** A keystore with one safe whose first bags are the device's key, with an id of ten digits at least, and the common one. *)
Definition proper (name key ckey : list Z) (k : keystore) : Prop :=
  exists d c rest, k = Some [Data (Some (d :: c :: rest))] /\ device d name key /\ 10 <= zlen name /\ number name <> 0 /\ common c ckey.
Definition store_of (o : op) : keystore := match o with GetRoot k | GetCommon k | DeviceId k => k end.
Definition right (name key ckey : list Z) (o : op) : answer :=
  match o with GetRoot _ => Key key | GetCommon _ => Key ckey | DeviceId _ => Id (number name) end.
