(** Specifications for export and import of keys. *)
From Verif Require Import Base M_ObjectStore M_Memory M_Rights S_Bytes M_KeyStore.

(** The device does its job: AES-CBC decryption undoes encryption with the same key and
    vector and keeps the length of whole blocks; authentication codes have 32 bytes; what it makes are
    bytes. *)
Record good_device (d : device) : Prop := {
  gd_inverse : forall key iv m, bytes_ok m -> zlen m mod 16 = 0 -> d_dec d key iv (d_enc d key iv m) = m;
  gd_enc_len : forall key iv m, zlen m mod 16 = 0 -> length (d_enc d key iv m) = length m;
  gd_dec_len : forall key iv m, zlen m mod 16 = 0 -> length (d_dec d key iv m) = length m;
  gd_mac_len : forall key m, length (d_hmac d key m) = 32%nat;
  gd_enc_bytes : forall key iv m, bytes_ok (d_enc d key iv m);
  gd_dec_bytes : forall key iv m, bytes_ok (d_dec d key iv m);
  gd_mac_bytes : forall key m, bytes_ok (d_hmac d key m) }.

(** What the user sees of a key: rights, type, parameters, size and key bytes. *)
Definition key_of (k : skey) : stored_key :=
  MkKey (hdr_rights (sk_header k)) (hdr_type (sk_header k)) (hdr_params (sk_header k))
    (hdr_size (sk_header k)) (sk_bytes k).

(** Keys as the implementation makes them: a header with zero padding between its fields,
    describing rights and a kind of key that can be stored. *)
Definition proper_key (k : skey) : Prop :=
  (exists r t p s, sk_header k = make_header r t p s /\
     length r = 608%nat /\ length t = 1%nat /\ length p = 1040%nat /\ length s = 2%nat) /\
  rights_validate_format (hdr_rights (sk_header k)) = true /\
  key_type_supports_any (hdr_type (sk_header k)) (p_curve (hdr_params (sk_header k))) (hdr_size (sk_header k)) = true /\
  bytes_ok (sk_header k) /\ bytes_ok (sk_bytes k) /\ zlen (sk_bytes k) < 2 ^ 63.
Definition cacheable (k : skey) : bool := Z.testbit (r_usage (hdr_rights (sk_header k))) 13.

(** No resource fails while wrapping, with the vector [iv]; while unwrapping. *)
Definition wrapping_works (a : wrap_answers) (iv : list Z) : Prop :=
  a = MkWA true true (Some iv) true true /\ length iv = 16%nat /\ bytes_ok iv.
(** Random vectors, if there are any, have 16 bytes. *)
Definition vector_ok (a : wrap_answers) : Prop :=
  match wa_iv a with Some iv => length iv = 16%nat /\ bytes_ok iv | None => True end.
Definition mixin_ok (mixin : option (list Z)) : Prop := match mixin with Some m => bytes_ok m | None => True end.
Definition unwrapping_works : unwrap_answers := MkUA true true true true.

(** The parts of an exported key: 16 bytes mixed into the keys, the header, the vector, the
    length of the ciphertext in 8 bytes, the ciphertext, the authentication code. *)
Definition parts (exported mixin h iv len cipher mac : list Z) : Prop :=
  exported = mixin ++ h ++ iv ++ len ++ cipher ++ mac /\
  length mixin = 16%nat /\ length h = HEADER_SIZE /\ length iv = 16%nat /\ length len = 8%nat /\
  zlen cipher = le_num len /\ length mac = 32%nat.

(** The keys of the device for exported keys, which depend on the mixed-in bytes. *)
Definition export_mac_key (d : device) (mixin : list Z) := d_key d (i_mac (with_mixin export_inputs mixin)).
Definition export_enc_key (d : device) (mixin : list Z) := d_key d (i_wrap (with_mixin export_inputs mixin)).

(** [exported] is an authentic export of [k]: its code is that of the header, vector, length
    and ciphertext it carries, and the ciphertext hides the padded bytes of [k]. *)
Definition authentic (d : device) (exported : list Z) (k : stored_key) : Prop :=
  exists mixin h iv len cipher mac,
    parts exported mixin h iv len cipher mac /\
    mac = d_hmac d (export_mac_key d mixin) (h ++ iv ++ len ++ cipher) /\
    firstn 4 h = MAGIC /\
    zlen cipher mod 16 = 0 /\
    d_dec d (export_enc_key d mixin) iv cipher = pkcs7_pad (k_bytes k) /\
    rights_validate_format (k_rights k) = true /\
    key_type_supports_any (k_type k) (p_curve (k_params k)) (k_size k) = true /\
    k_rights k = hdr_rights h /\ k_type k = hdr_type h /\ k_params k = hdr_params h /\ k_size k = hdr_size h.
