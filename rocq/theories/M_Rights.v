(** Model of taimpl/src/internal/rights.c, key_type.c and stored_key.c. *)
From Verif Require Import Base M_ObjectStore.

(** Usage flag numbers, client/include/sa_types.h:367-438. *)
Definition F_KEY_EXCHANGE := 0.      Definition F_DERIVE := 1.
Definition F_UNWRAP := 2.            Definition F_ENCRYPT := 3.
Definition F_DECRYPT := 4.           Definition F_SIGN := 5.
Definition F_ANALOG_UNPROTECTED := 6. Definition F_ANALOG_CGMSA := 7.
Definition F_DIGITAL_UNPROTECTED := 8. Definition F_HDCP14 := 9.
Definition F_HDCP22 := 10.           Definition F_DTCP := 11.
Definition F_SVP_OPTIONAL := 12.     Definition F_CACHEABLE := 13.

(** SA_USAGE_BIT_MASK / _TEST / _SET / _CLEAR, sa_types.h:46-63. *)
Definition BIT_MASK (b : Z) : Z := Z.shiftl 1 b.
Definition BIT_TEST (a b : Z) : bool := negb (Z.land a (BIT_MASK b) =? 0).
Definition BIT_SET (a b : Z) : Z := Z.lor a (BIT_MASK b).
Definition BIT_CLEAR (a b : Z) : Z := Z.land a (Z.lnot (BIT_MASK b)).

(** sa_types.h:68-86. *)
Definition OUTPUT_PROTECTIONS_MASK : Z :=
  fold_left (fun m b => Z.lor m (BIT_MASK b))
    [F_ANALOG_UNPROTECTED; F_ANALOG_CGMSA; F_DIGITAL_UNPROTECTED; F_HDCP14; F_HDCP22;
     F_DTCP; F_SVP_OPTIONAL] 0.
Definition KEY_USAGE_MASK : Z :=
  fold_left (fun m b => Z.lor m (BIT_MASK b))
    [F_KEY_EXCHANGE; F_DERIVE; F_UNWRAP; F_ENCRYPT; F_DECRYPT; F_SIGN] 0.

(** [sa_rights], sa_types.h:456-493; [r_id] has 64 bytes and [r_tas] 32 entries. *)
Record rights := MkRights {
  r_id : list Z;
  r_usage : Z;
  r_child_usage : Z;
  r_not_before : Z;
  r_not_on_or_after : Z;
  r_tas : list uuid
}.

(** NO_MATCH and ALL_MATCH, rights.c:25-33, as numbers. *)
Definition NO_MATCH : uuid := 0.
Definition ALL_MATCH : uuid := 2 ^ 128 - 1.

(** [video_output_state_t], include/porting/video_output.h:41-54. *)
Record video := MkVideo {
  v_analog_unprotected : Z; v_analog_cgmsa : Z; v_digital_unprotected : Z;
  v_hdcp14 : Z; v_hdcp22 : Z; v_svp_enabled : bool
}.

(** [strnlen], used at rights.c:61. *)
Fixpoint strnlen (l : list Z) (n : nat) : nat :=
  match n, l with
  | S n', b :: r => if b =? 0 then O else S (strnlen r n')
  | _, _ => O
  end.

(** [rights_validate_format], rights.c:55-67. *)
Definition rights_validate_format (r : rights) : bool :=
  negb (strnlen (r_id r) 64 =? 64)%nat.

(** [rights_allowed_time], rights.c:220-240. *)
Definition rights_allowed_time (r : rights) (time : Z) : bool :=
  if time <? r_not_before r then false
  else if r_not_on_or_after r <=? time then false
  else true.

(** [rights_allowed_video_output_state], rights.c:242-293. *)
Definition rights_allowed_video (r : rights) (v : video) : bool :=
  let u := r_usage r in
  if negb (BIT_TEST u F_SVP_OPTIONAL) && negb (v_svp_enabled v) then false
  else if negb (BIT_TEST u F_ANALOG_UNPROTECTED) && (0 <? v_analog_unprotected v) then false
  else if negb (BIT_TEST u F_ANALOG_CGMSA) && (0 <? v_analog_cgmsa v) then false
  else if negb (BIT_TEST u F_DIGITAL_UNPROTECTED) && (0 <? v_digital_unprotected v) then false
  else if negb (BIT_TEST u F_HDCP14) && (0 <? v_hdcp14 v) then false
  else if negb (BIT_TEST u F_HDCP22) && (0 <? v_hdcp22 v) then false
  else true.

(** [validate_video_output_state], rights.c:35-53; [None] is a failing poll. *)
Definition validate_video (r : rights) (poll : option video) : bool :=
  match poll with
  | None => false
  | Some v => if negb (rights_allowed_video r v) then false else true
  end.

(** [rights_allowed_uuid], rights.c:295-324. *)
Fixpoint allowed_uuid_loop (tas : list uuid) (caller : uuid) : bool :=
  match tas with
  | [] => false
  | t :: rest =>
      if t =? NO_MATCH then allowed_uuid_loop rest caller
      else if t =? ALL_MATCH then true
      else if t =? caller then true
      else allowed_uuid_loop rest caller
  end.
Definition rights_allowed_uuid (r : rights) (caller : uuid) : bool :=
  allowed_uuid_loop (r_tas r) caller.

(** [rights_allowed_derive] 69-86, [_exchange] 88-105, [_unwrap] 107-124,
    [_sign] 200-218: flag, then the current time. *)
Definition rights_allowed_flag_time (flag : Z) (r : rights) (now : Z) : bool :=
  if negb (BIT_TEST (r_usage r) flag) then false
  else if negb (rights_allowed_time r now) then false
  else true.
Definition rights_allowed_derive := rights_allowed_flag_time F_DERIVE.
Definition rights_allowed_exchange := rights_allowed_flag_time F_KEY_EXCHANGE.
Definition rights_allowed_unwrap := rights_allowed_flag_time F_UNWRAP.
Definition rights_allowed_sign := rights_allowed_flag_time F_SIGN.

(** Key types, sa_types.h. *)
Definition KT_SYMMETRIC := 0. Definition KT_EC := 1.
Definition KT_RSA := 2.       Definition KT_DH := 3.

(** [rights_allowed_decrypt] 126-153 and [rights_allowed_encrypt] 155-182. *)
Definition rights_allowed_crypt (flag : Z) (r : rights) (key_type : Z) (now : Z)
    (poll : option video) : bool :=
  if negb (BIT_TEST (r_usage r) flag) then false
  else if negb (rights_allowed_time r now) then false
  else if key_type =? KT_SYMMETRIC then
    if negb (validate_video r poll) then false else true
  else true.
Definition rights_allowed_decrypt := rights_allowed_crypt F_DECRYPT.
Definition rights_allowed_encrypt := rights_allowed_crypt F_ENCRYPT.

(** [rights_allowed_clear], rights.c:184-198. *)
Definition rights_allowed_clear (r : rights) : bool :=
  if negb (BIT_TEST (r_usage r) F_SVP_OPTIONAL) then false else true.

(** [key_usage_to_usage_flags], rights.c:326-381.  Values of [key_usage]
    (TYPEJ_DATA_AND_KEY 0, DATA_ONLY 1, KEY_ONLY 2, SOC_DATA_AND_KEY 3) and of
    the subtype (HMAC_SUBTYPE 2) are in include/internal/rights.h:53-65.  On the
    error path the flags are returned as the code leaves them. *)
Definition clear_key_usage (u : Z) : Z :=
  fold_left BIT_CLEAR [F_KEY_EXCHANGE; F_DERIVE; F_UNWRAP; F_DECRYPT; F_ENCRYPT; F_SIGN] u.
Definition set_bits (u : Z) (bs : list Z) : Z := fold_left BIT_SET bs u.
Definition key_usage_to_usage_flags (u key_usage key_type subtype : Z) : Z * status :=
  let u := clear_key_usage u in
  let exch u := if (key_type =? KT_DH) || (key_type =? KT_EC)
                then BIT_SET u F_KEY_EXCHANGE else u in
  if (key_usage =? 0) || (key_usage =? 3) then
    (set_bits (exch u) [F_UNWRAP; F_DECRYPT; F_ENCRYPT; F_SIGN; F_DERIVE], OK)
  else if key_usage =? 1 then
    let u1 := exch u in
    let u2 := if subtype =? 2 then u1 else set_bits u1 [F_DECRYPT; F_ENCRYPT] in
    (set_bits u2 [F_SIGN; F_DERIVE], OK)
  else if key_usage =? 2 then (BIT_SET u F_UNWRAP, OK)
  else (u, INVALID_KEY_FORMAT).

(** ** key_type.c *)

(** [ec_key_size_from_curve], ec.c:98-128; curve numbers in sa_types.h. *)
Definition ec_key_size_from_curve (c : Z) : Z :=
  if c =? 7 then 24 else if c =? 8 then 28 else if c =? 0 then 32
  else if c =? 1 then 48 else if c =? 2 then 66
  else if (c =? 3) || (c =? 4) then 32
  else if c =? 5 then 57 else if c =? 6 then 56 else 0.

(** key_type.c:23-80. *)
Definition valid_aes_size (s : Z) : bool := (s =? 16) || (s =? 32).
Definition valid_hmac_size (s : Z) : bool := (16 <=? s) && (s <=? 512).
Definition valid_rsa_size (s : Z) : bool := (s =? 128) || (s =? 256) || (s =? 384) || (s =? 512).
Definition valid_ec_size (c s : Z) : bool :=
  ((c =? 7) && (s =? ec_key_size_from_curve 7)) || ((c =? 8) && (s =? ec_key_size_from_curve 8)) ||
  ((c =? 0) && (s =? ec_key_size_from_curve 0)) || ((c =? 1) && (s =? ec_key_size_from_curve 1)) ||
  ((c =? 2) && (s =? ec_key_size_from_curve 2)) || ((c =? 3) && (s =? ec_key_size_from_curve 3)) ||
  ((c =? 4) && (s =? ec_key_size_from_curve 4)) || ((c =? 5) && (s =? ec_key_size_from_curve 5)) ||
  ((c =? 6) && (s =? ec_key_size_from_curve 6)).
Definition valid_dh_size (s : Z) : bool := (s <=? 512) && (0 <? s).
Definition key_type_supports_aes (t s : Z) : bool := (t =? KT_SYMMETRIC) && valid_aes_size s.
Definition key_type_supports_hmac (t s : Z) : bool := (t =? KT_SYMMETRIC) && valid_hmac_size s.
Definition key_type_supports_rsa (t s : Z) : bool := (t =? KT_RSA) && valid_rsa_size s.
Definition key_type_supports_ec (t c s : Z) : bool := (t =? KT_EC) && valid_ec_size c s.
Definition key_type_supports_dh (t s : Z) : bool := (t =? KT_DH) && valid_dh_size s.
Definition key_type_supports_any (t c s : Z) : bool :=
  key_type_supports_aes t s || key_type_supports_hmac t s || key_type_supports_rsa t s ||
  key_type_supports_ec t c s || key_type_supports_dh t s.
Definition key_type_supports_chacha20 (t s : Z) : bool := (t =? KT_SYMMETRIC) && (s =? 32).

(** ** stored_key.c *)

(** [sa_type_parameters], sa_types.h: a union of a curve and DH parameters.  The
    curve is read for every key type; for DH it is the low byte of the union. *)
Record params := MkParams { p_curve : Z; p_dh : list Z * list Z }.
Definition no_params : params := MkParams 0 ([], []).

(** [stored_key_t], stored_key.c:27-31, with the header fields inlined (the magic
    is constant). *)
Record stored_key := MkKey {
  k_rights : rights;
  k_type : Z;
  k_params : params;
  k_size : Z;
  k_bytes : list Z
}.

Definition with_usage (r : rights) (u : Z) : rights :=
  MkRights (r_id r) u (r_child_usage r) (r_not_before r) (r_not_on_or_after r) (r_tas r).

(** KEY_ONLY_MASK, stored_key.c:33. *)
Definition KEY_ONLY_MASK : Z := Z.land (Z.lnot (BIT_MASK F_UNWRAP)) KEY_USAGE_MASK.

(** [restrict_child_rights], stored_key.c:35-53. *)
Definition restrict_child_rights (r : rights) (root : option rights) : rights :=
  match root with
  | None => r
  | Some p =>
      if negb (Z.land (r_usage p) KEY_ONLY_MASK =? 0) || (r_child_usage p =? 0) then
        let disallowed := Z.land (Z.lnot (r_usage p)) OUTPUT_PROTECTIONS_MASK in
        with_usage r (Z.land (r_usage r) (Z.lnot disallowed))
      else
        let disallowed := Z.land (Z.lnot (r_child_usage p)) KEY_USAGE_MASK in
        with_usage r (Z.land (r_usage r) (Z.lnot disallowed))
  end.

(** [stored_key_create], stored_key.c:92-165.  [rights] and [bytes] are [None] for
    NULL; allocation failure (INTERNAL_ERROR) is [alloc = false]. *)
Definition stored_key_create (r : option rights) (parent : option rights) (key_type : Z)
    (ps : params) (size : Z) (bytes : option (list Z)) (alloc : bool) : status * option stored_key :=
  match r with
  | None => (NULL_PARAMETER, None)
  | Some r =>
      match bytes with
      | None => (NULL_PARAMETER, None)
      | Some b =>
          if negb (key_type_supports_any key_type (p_curve ps) size) then (INVALID_PARAMETER, None)
          else if negb (rights_validate_format r) then (INVALID_PARAMETER, None)
          else if negb alloc then (INTERNAL_ERROR, None)
          else (OK, Some (MkKey (restrict_child_rights r parent) key_type ps size b))
      end
  end.
