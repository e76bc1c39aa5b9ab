(** Model of taimpl/src/internal/key_store.c on bytes: wrapping of stored keys, export and
    import of exported keys.  Structures have the layout of a 64-bit little-endian
    platform.  The object store around it is modelled in M_ObjectStore, the calls in
    M_ApiKey.

    The device functions (key ladder, AES-CBC, HMAC) are arbitrary functions; the answers of
    calls that can fail are arguments. *)
From Verif Require Import Base M_Slots M_ObjectStore M_Memory M_Rights.

(** [None] is an access outside the bytes given. *)
Definition slice (l : list Z) (off n : nat) : option (list Z) :=
  if (off + n <=? length l)%nat then Some (firstn n (skipn off l)) else None.
(** Fields of structures, which always have their full size. *)
Definition field (l : list Z) (off n : nat) : list Z := firstn n (skipn off l).
(** Little-endian numbers. *)
Fixpoint le_num (l : list Z) : Z := match l with [] => 0 | b :: r => b + 256 * le_num r end.
Fixpoint le_bytes (n : nat) (x : Z) : list Z :=
  match n with O => [] | S n => x mod 256 :: le_bytes n (x / 256) end.

(** ** sa_header, client/include/sa_types.h:503-537
    magic 0-3, rights 8-615 (id 8-71, usage flags 72, child usage flags 80, not before 88,
    not on or after 96, allowed TAs 104-615), type 616, type parameters 624-1663 (curve
    624-627; DH: p 624, p_length 1136, g 1144, g_length 1656), size 1664-1665. *)
Definition HEADER_SIZE : nat := 1672.
Definition MAGIC : list Z := [115; 97; 107; 48].
Fixpoint uuids (n : nat) (l : list Z) : list uuid :=
  match n with O => [] | S n => le_num (firstn 16 l) :: uuids n (skipn 16 l) end.
Definition hdr_rights (h : list Z) : rights :=
  MkRights (field h 8 64) (le_num (field h 72 8)) (le_num (field h 80 8)) (le_num (field h 88 8))
    (le_num (field h 96 8)) (uuids 32 (field h 104 512)).
Definition hdr_type (h : list Z) : Z := le_num (field h 616 1).
Definition hdr_params (h : list Z) : params :=
  MkParams (le_num (field h 624 4)) (field h 624 520, field h 1144 520).
Definition hdr_size (h : list Z) : Z := le_num (field h 1664 2).

(** A header made of fields, the rest zero: stored_key.c:136, 147-153. *)
Definition make_header (rights_bytes type_byte params_bytes size_bytes : list Z) : list Z :=
  MAGIC ++ repeat 0 4 ++ rights_bytes ++ type_byte ++ repeat 0 7 ++ params_bytes ++ size_bytes ++ repeat 0 6.

(** [validate_header_format], key_store.c:95-121. *)
Definition validate_header_format (h : list Z) : bool :=
  if negb (memcmp_constant (field h 0 4) MAGIC =? 0) then false
  else if negb (rights_validate_format (hdr_rights h)) then false
  else if negb (key_type_supports_any (hdr_type h) (p_curve (hdr_params h)) (hdr_size h)) then false
  else true.

(** [stored_key_t], stored_key.c:27-31. *)
Record skey := MkSkey { sk_header : list Z; sk_bytes : list Z }.
(** [stored_key_create] as called at key_store.c:234, without a parent: stored_key.c:92-165. *)
Definition create_from_header (h : list Z) (bytes : list Z) (alloc : bool) : option skey :=
  if negb (key_type_supports_any (hdr_type h) (p_curve (hdr_params h)) (hdr_size h)) then None
  else if negb (rights_validate_format (hdr_rights h)) then None
  else if negb alloc then None
  else Some (MkSkey (make_header (field h 8 608) (field h 616 1) (field h 624 1040) (field h 1664 2)) bytes).

(** ** Device functions *)
(** [key_ladder_inputs_t] three times 16 bytes; [derivation_inputs_t], key_store.c:38-41. *)
Record ladder := MkLadder { l_c1 : list Z; l_c2 : list Z; l_c3 : list Z }.
Record inputs := MkInputs { i_wrap : ladder; i_mac : ladder }.
(** [d_key]: otp_hw_key_ladder; [d_enc key iv], [d_dec key iv]: AES-CBC without padding;
    [d_hmac]: HMAC-SHA256.  porting/otp.c:740-1026. *)
Record device := MkDevice {
  d_key : ladder -> list Z;
  d_enc : list Z -> list Z -> list Z -> list Z;
  d_dec : list Z -> list Z -> list Z -> list Z;
  d_hmac : list Z -> list Z -> list Z }.

(** global_key_store.export_derivation_inputs, key_store.c:43-61. *)
Definition export_inputs : inputs :=
  MkInputs
    (MkLadder [145; 164; 90; 201; 43; 94; 215; 64; 32; 51; 110; 71; 173; 72; 86; 186]
              [130; 27; 31; 12; 82; 4; 139; 40; 190; 160; 89; 52; 180; 217; 168; 174]
              [128; 70; 216; 220; 243; 251; 205; 251; 133; 5; 48; 109; 7; 51; 91; 140])
    (MkLadder [229; 70; 185; 145; 181; 44; 121; 248; 171; 159; 52; 184; 133; 154; 236; 25]
              [119; 72; 191; 198; 33; 109; 137; 25; 124; 81; 201; 175; 82; 227; 237; 42]
              [17; 91; 184; 246; 26; 225; 190; 40; 3; 177; 152; 74; 222; 255; 87; 8]).
(** [xor], key_store.c:84-93. *)
Fixpoint xor (a b : list Z) : list Z :=
  match a, b with x :: a, y :: b => Z.lxor x y :: xor a b | _, _ => [] end.
(** key_store.c:520-526 and 766-772. *)
Definition with_mixin (d : inputs) (mixin : list Z) : inputs :=
  MkInputs (MkLadder (l_c1 (i_wrap d)) (l_c2 (i_wrap d)) (xor (l_c3 (i_wrap d)) mixin))
           (MkLadder (l_c1 (i_mac d)) (l_c2 (i_mac d)) (xor (l_c3 (i_mac d)) mixin)).

(** ** Wrapping *)
(** [cipher_parameters_t], key_store.c:63-66: the vector and the length. *)
Definition cipher_parameters (iv : list Z) (len : Z) : list Z := iv ++ le_bytes 8 len.
(** [wrapped_key_t], key_store.c:75-81. *)
Record wkey := MkWkey { w_header : list Z; w_iv : list Z; w_len : Z; w_cipher : list Z; w_mac : list Z; w_inputs : inputs }.

(** [pad], key_store.c:124-156: the padded length and, unless the allocation fails, the
    bytes. *)
Definition pad_key (key : list Z) (alloc : bool) : Z * option (list Z) :=
  let n := Z.of_nat (length key) in
  let padded := PADDED_SIZE n in
  if negb alloc then (padded, None)
  else match pad_apply_pkcs7 (repeat 0 16) (padded - n) with
       | None => (padded, None)
       | Some block => (padded, Some (key ++ skipn (Z.to_nat (16 - (padded - n))) block))
       end.

(** Answers of the calls made by [wrapped_key_create]: allocations, random vector,
    encryption, authentication code. *)
Record wrap_answers := MkWA { wa_alloc : bool; wa_pad : bool; wa_iv : option (list Z); wa_enc : bool; wa_hmac : bool }.
(** A crash is a write through a NULL pointer. *)
Inductive made (A : Type) := Made (a : A) | NotMade | Crash.
Arguments Made {A}. Arguments NotMade {A}. Arguments Crash {A}.

(** [wrapped_key_create], key_store.c:263-347, with [wrapped_key_free] 249-261 on failure:
    it clears [ciphertext_length] bytes at the ciphertext, which after a failed [pad] is
    NULL while the length has been set. *)
Definition wrapped_key_create (d : device) (di : inputs) (k : skey) (a : wrap_answers) : made wkey :=
  if negb (wa_alloc a) then NotMade
  else
    let '(len, padded) := pad_key (sk_bytes k) (wa_pad a) in
    match padded with
    | None => if len =? 0 then NotMade else Crash
    | Some clear =>
        match wa_iv a with
        | None => NotMade
        | Some iv =>
            if negb (wa_enc a) then NotMade
            else
              let cipher := d_enc d (d_key d (i_wrap di)) iv clear in
              if negb (wa_hmac a) then NotMade
              else
                let mac := d_hmac d (d_key d (i_mac di)) (sk_header k ++ cipher_parameters iv len ++ cipher) in
                Made (MkWkey (sk_header k) iv len cipher mac di)
        end
    end.

(** Answers of the calls made by [unwrap]. *)
Record unwrap_answers := MkUA { ua_hmac : bool; ua_alloc : bool; ua_dec : bool; ua_create : bool }.
(** [unwrap], key_store.c:158-247, with non-NULL pointers; the ciphertext has [len] bytes. *)
Definition unwrap (d : device) (di : inputs) (h iv : list Z) (len : Z) (cipher mac : list Z) (a : unwrap_answers) : option skey :=
  if (len <? 16) || negb (len mod 16 =? 0) then None
  else if negb (ua_hmac a) then None
  else if negb (memcmp_constant (d_hmac d (d_key d (i_mac di)) (h ++ cipher_parameters iv len ++ cipher)) mac =? 0) then None
  else if negb (ua_alloc a) then None
  else if negb (ua_dec a) then None
  else
    let clear := d_dec d (d_key d (i_wrap di)) iv cipher in
    let '(pad, ok) := pad_check_pkcs7 (skipn (Z.to_nat (len - 16)) clear) in
    if negb ok then None
    else create_from_header h (firstn (Z.to_nat (len - pad)) clear) (ua_create a).
(** [wrapped_key_unwrap], key_store.c:349-363. *)
Definition wrapped_key_unwrap (d : device) (w : wkey) (a : unwrap_answers) : option skey :=
  unwrap d (w_inputs w) (w_header w) (w_iv w) (w_len w) (w_cipher w) (w_mac w) a.

(** [key_store_import_stored_key], key_store.c:379-446, up to the call of object_store_add:
    the wrapped key to be added.  [rand] are the random derivation inputs. *)
Definition import_stored_key (d : device) (k : skey) (rand : option inputs) (a : wrap_answers) : made wkey * status :=
  if negb (validate_header_format (sk_header k)) then (NotMade, INVALID_KEY_FORMAT)
  else match rand with
  | None => (NotMade, INTERNAL_ERROR)
  | Some di =>
      match wrapped_key_create d di k a with
      | Made w => (Made w, OK)
      | NotMade => (NotMade, INTERNAL_ERROR)
      | Crash => (Crash, INTERNAL_ERROR)
      end
  end.

(** [key_store_import_exported], key_store.c:448-547: [Outside] is a read outside the bytes
    offered.  The stored key it hands to [key_store_import_stored_key]. *)
Inductive offered := Refused (st : status) | Accepted (k : skey) | Outside.
Definition MIN_EXPORTED : Z := 16 + Z.of_nat HEADER_SIZE + 24 + 16 + 32.
Definition read (l : list Z) (off n : nat) (f : list Z -> offered) : offered :=
  match slice l off n with Some b => f b | None => Outside end.
Definition read_exported (d : device) (exported : list Z) (a : unwrap_answers) : offered :=
  let n := Z.of_nat (length exported) in
  if n <? MIN_EXPORTED then Refused INVALID_KEY_FORMAT
  else
    read exported 0 16 (fun mixin =>
    read exported 16 HEADER_SIZE (fun h =>
    if negb (validate_header_format h) then Refused INVALID_KEY_FORMAT
    else
      read exported (16 + HEADER_SIZE + 16) 8 (fun len_bytes =>
      let len := le_num len_bytes in
      if (len <? 16) || negb (len mod 16 =? 0) then Refused INVALID_KEY_FORMAT
      else
        let required := wrap64 (16 + Z.of_nat HEADER_SIZE + 24 + len + 32) in
        if negb (n =? required) then Refused INVALID_KEY_FORMAT
        else
          read exported (16 + HEADER_SIZE) 16 (fun iv =>
          read exported (16 + HEADER_SIZE + 24) (Z.to_nat len) (fun cipher =>
          read exported (16 + HEADER_SIZE + 24 + Z.to_nat len) 32 (fun mac =>
          match unwrap d (with_mixin export_inputs mixin) h iv len cipher mac a with
          | None => Refused INVALID_KEY_FORMAT
          | Some k => Accepted k
          end)))))).
Definition import_exported (d : device) (exported : list Z) (a : unwrap_answers) (rand : option inputs) (wa : wrap_answers)
  : option (made wkey * status) :=
  match read_exported d exported a with
  | Outside => None
  | Refused st => Some (NotMade, st)
  | Accepted k => Some (import_stored_key d k rand wa)
  end.

(** [key_store_export], key_store.c:682-806, on the acquired key: [mixin] is [None] for NULL,
    [room] the caller's out_length, or [None] if out is NULL.  The answer is the status, the
    length reported and the bytes written. *)
Inductive exporting := Exported (st : status) (len : option Z) (bytes : option (list Z)) | ExportCrash.
Definition export (d : device) (w : wkey) (mixin : option (list Z)) (room : option Z) (ua : unwrap_answers) (wa : wrap_answers)
  : exporting :=
  let mx := match mixin with None => Some (repeat 0 16) | Some m => if (length m =? 16)%nat then Some m else None end in
  match mx with
  | None => Exported INVALID_PARAMETER None None
  | Some mixin =>
      if negb (BIT_TEST (r_usage (hdr_rights (w_header w))) F_CACHEABLE) then Exported OPERATION_NOT_ALLOWED None None
      else
        let required := wrap64 (16 + Z.of_nat HEADER_SIZE + 24 + w_len w + 32) in
        match room with
        | None => Exported OK (Some required) None
        | Some room =>
            if room <? required then Exported INVALID_PARAMETER None None
            else match wrapped_key_unwrap d w ua with
            | None => Exported INTERNAL_ERROR None None
            | Some k =>
                match wrapped_key_create d (with_mixin export_inputs mixin) k wa with
                | NotMade => Exported INTERNAL_ERROR None None
                | Crash => ExportCrash
                | Made r =>
                    Exported OK (Some required)
                      (Some (mixin ++ w_header r ++ cipher_parameters (w_iv r) (w_len r) ++ w_cipher r ++ w_mac r))
                end
            end
        end
  end.

(** [key_store_get_header], key_store.c:664-672. *)
Definition get_header (w : wkey) : list Z :=
  let h := w_header w in make_header (field h 8 608) (field h 616 1) (field h 624 1040) (field h 1664 2).
