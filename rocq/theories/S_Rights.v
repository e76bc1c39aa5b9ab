(** What rights mean, after client/include/sa_types.h:367-493, independently of the
    code that checks them. *)
From Verif Require Import Base M_ObjectStore M_Rights.

(** A usage flag is set.  The flags are bits, numbered as in sa_types.h:367-437: 0 key
    exchange, 1 derive, 2 unwrap, 3 encrypt, 4 decrypt, 5 sign, 6 analog unprotected,
    7 analog CGMS-A, 8 digital unprotected, 9 HDCP 1.4, 10 HDCP 2.2, 11 DTCP, 12 secure
    video path optional, 13 cacheable. *)
Definition has_flag (r : rights) (f : Z) : Prop := Z.testbit (r_usage r) f = true.

(** The validity period is [not_before <= t < not_on_or_after]. *)
Definition in_window (r : rights) (t : Z) : Prop :=
  r_not_before r <= t < r_not_on_or_after r.

(** The caller is listed, or the list holds the entry that matches every TA; the
    all-zero entry matches nobody. *)
Definition listed (r : rights) (caller : uuid) : Prop :=
  In (2 ^ 128 - 1) (r_tas r) \/ (caller <> 0 /\ In caller (r_tas r)).

(** Every kind of active output is permitted, and the secure video path is on unless
    it is optional. *)
Definition outputs_permitted (r : rights) (v : video) : Prop :=
  (v_analog_unprotected v > 0 -> has_flag r 6) /\
  (v_analog_cgmsa v > 0 -> has_flag r 7) /\
  (v_digital_unprotected v > 0 -> has_flag r 8) /\
  (v_hdcp14 v > 0 -> has_flag r 9) /\
  (v_hdcp22 v > 0 -> has_flag r 10) /\
  (v_svp_enabled v = false -> has_flag r 12).

(** What a platform can really have connected: the documentation (sa_types.h:
    420-427) also names DTCP outputs. *)
Record outputs := MkOutputs { o_video : video; o_dtcp : Z }.
Definition all_outputs_permitted (r : rights) (o : outputs) : Prop :=
  outputs_permitted r (o_video o) /\ (o_dtcp o > 0 -> has_flag r 11).

(** Output-protection flags (sa_types.h:382-437) and key usage flags. *)
Definition is_output_flag (f : Z) : Prop := 6 <= f <= 12.
Definition is_usage_flag (f : Z) : Prop := 0 <= f <= 5.

(** The only usage flag among bits 0-5 is UNWRAP: then [child_usage_flags] apply to
    any key unwrapped (sa_types.h:467-471). *)
Definition unwrap_only (r : rights) : Prop :=
  forall f, is_usage_flag f -> has_flag r f -> f = 2.

(** Allowed key sizes in bytes, by key type (0 symmetric, 1 EC, 2 RSA, 3 DH) and, for EC,
    curve. *)
Inductive size_allowed : Z -> Z -> Z -> Prop :=
| sz_symmetric c s : 16 <= s <= 512 -> size_allowed 0 c s
| sz_rsa c s : In s [128; 256; 384; 512] -> size_allowed 2 c s
| sz_ec c s : In (c, s) [(7, 24); (8, 28); (0, 32); (1, 48); (2, 66); (3, 32); (4, 32); (5, 57); (6, 56)] ->
              size_allowed 1 c s
| sz_dh c s : 1 <= s <= 512 -> size_allowed 3 c s.

(** The identifier is a NUL-terminated string. *)
Definition id_terminated (r : rights) : Prop := exists i, (i < 64)%nat /\ nth_error (r_id r) i = Some 0.

(** Two rights that agree on everything but the usage flags. *)
Definition same_but_usage (a b : rights) : Prop :=
  r_id a = r_id b /\ r_child_usage a = r_child_usage b /\ r_not_before a = r_not_before b /\
  r_not_on_or_after a = r_not_on_or_after b /\ r_tas a = r_tas b.

(** Key containers carry a usage word: 0 and 3 data and key, 1 data only, 2 key only.
    It decides the six usage flags: *)
Definition usage_table (key_usage key_type subtype f : Z) : bool :=
  match key_usage with
  | 0 | 3 => if f =? 0 then (key_type =? 3) || (key_type =? 1) else true
  | 1 => if f =? 0 then (key_type =? 3) || (key_type =? 1)
         else if f =? 2 then false
         else if (f =? 3) || (f =? 4) then negb (subtype =? 2) else true
  | _ => f =? 2
  end.
