(** Key derivation on bytes: taimpl/src/internal/kdf.c, internal/netflix.c, and the checks of
    ta_sa_key_derive.c:141-668 behind the handles (those are in M_ApiKey.v).  [answers n] tells
    whether the n-th call of OpenSSL succeeds; [mem] is what malloc delivered for the derived
    key: its old contents, or [None]. *)
From Verif Require Import Base M_Rights M_Mac.

(** [KdfNothing] is success without a key; [KdfCrash] an access outside a buffer. *)
Inductive kdf := KdfKey (k : stored_key) | KdfFails (s : status) | KdfNothing | KdfCrash.

(** memcpy of [n] bytes from the start of [src] to position [pos] of [buf]. *)
Definition copy_to (buf : list Z) (pos : Z) (src : list Z) (n : Z) : option (list Z) :=
  if (n <=? zlen src) && (pos + n <=? zlen buf)
  then Some (firstn (Z.to_nat pos) buf ++ firstn (Z.to_nat n) src ++ skipn (Z.to_nat (pos + n)) buf)
  else None.

(** [stored_key_create] at the end of each function: a symmetric key. *)
Definition make_key (rights parent : rights) (size : Z) (bytes : list Z) (alloc : bool) : kdf :=
  match stored_key_create (Some rights) (Some parent) KT_SYMMETRIC no_params size (Some bytes) alloc with
  | (OK, Some k) => KdfKey k
  | (OK, None) => KdfNothing
  | (s, _) => KdfFails s
  end.

(** The expansion loops kdf.c:121-139, 248-263, 368-383: [block i tag tag_length] computes the
    block [i] into [tag]; the last copy is shortened to the remainder. *)
Inductive expanded := Expanded (derived : list Z) | ExpandFails (s : status) | ExpandCrash.
Fixpoint expand (block : Z -> list Z -> Z -> bool -> out) (fuel : nat) (i r remainder : Z) (answers : nat -> bool)
    (tag : list Z) (tag_length : Z) (derived : list Z) (pos : Z) : expanded :=
  match fuel with
  | O => Expanded derived
  | S fuel =>
      match block i tag tag_length (answers (Z.to_nat i)) with
      | Oob => ExpandCrash
      | Ret OK tag' n =>
          let copy_length := if (i =? r) && (0 <? remainder) then remainder else n in
          match copy_to derived pos tag' copy_length with
          | None => ExpandCrash
          | Some derived' => expand block fuel (i + 1) r remainder answers tag' n derived' (pos + copy_length)
          end
      | Ret s _ _ => ExpandFails s
      end
  end.
Definition rounds (key_length hash_length : Z) : Z :=
  key_length / hash_length + (if key_length mod hash_length =? 0 then 0 else 1).

(** [kdf_hkdf_hmac], kdf.c:30-174.  [prk] and [tag] are the buffers of DIGEST_MAX_LENGTH
    bytes with their old contents.  When [r] is too large (116-119) the function is left with
    the status of the extraction, which is OK. *)
Definition kdf_hkdf_hmac (L : lib) (rights : rights) (d key_length : Z) (salt info : input) (parent : stored_key)
    (mem : option (list Z)) (prk tag : list Z) (answers : nat -> bool) (alloc : bool) : kdf :=
  if bad_input salt then KdfFails NULL_PARAMETER
  else if bad_input info then KdfFails NULL_PARAMETER
  else
    let hash_length := digest_length d in
    if 64 <? hash_length then KdfFails INVALID_PARAMETER
    else
      match mem with
      | None => KdfFails INTERNAL_ERROR
      | Some derived =>
          match hmac_internal L prk 64 d (k_bytes parent) [] [] salt (answers 0%nat) with
          | Oob => KdfCrash
          | Ret OK prk prk_length =>
              let remainder := key_length mod hash_length in
              let r := rounds key_length hash_length in
              if 255 <? r then KdfNothing
              else
                match expand (fun i tag tag_length answer =>
                          hmac_internal L tag tag_length d (if i =? 1 then [] else firstn (Z.to_nat tag_length) tag)
                            (in_bytes info) [i mod 256] (Bytes (firstn (Z.to_nat prk_length) prk)) answer)
                        (Z.to_nat r) 1 r remainder answers tag 64 derived 0 with
                | ExpandCrash => KdfCrash
                | ExpandFails s => KdfFails s
                | Expanded derived => make_key rights (k_rights parent) key_length derived alloc
                end
          | Ret s _ _ => KdfFails s
          end
      end.

(** [kdf_concat_kdf], kdf.c:176-294, and [kdf_ansi_x963], kdf.c:296-414, which differ in the
    order of counter and secret.  [hash] is the digest buffer with its old contents. *)
Definition kdf_hash (L : lib) (counter_first : bool) (rights : rights) (d key_length : Z) (info : input) (parent : stored_key)
    (mem : option (list Z)) (hash : list Z) (answers : nat -> bool) (alloc : bool) : kdf :=
  if bad_input info then KdfFails NULL_PARAMETER
  else
    let hash_length := digest_length d in
    if 64 <? hash_length then KdfFails INVALID_PARAMETER
    else
      match mem with
      | None => KdfFails INTERNAL_ERROR
      | Some derived =>
          let remainder := key_length mod hash_length in
          let r := rounds key_length hash_length in
          if 255 <? r then KdfFails INTERNAL_ERROR
          else
            match expand (fun i hash n answer =>
                      let counter := Bytes [0; 0; 0; i mod 256] in
                      let secret := Bytes (k_bytes parent) in
                      if counter_first then digest_sha L hash n d counter secret info answer
                      else digest_sha L hash n d secret counter info answer)
                    (Z.to_nat r) 1 r remainder answers hash hash_length derived 0 with
            | ExpandCrash => KdfCrash
            | ExpandFails s => KdfFails s
            | Expanded derived =>
                (* the loop leaves its own status; without a round it is still INTERNAL_ERROR,
                   but stored_key_create sets it either way *)
                make_key rights (k_rights parent) key_length derived alloc
            end
      end.
Definition kdf_concat_kdf (L : lib) := kdf_hash L true.
Definition kdf_ansi_x963 (L : lib) := kdf_hash L false.

(** The loop of [kdf_ctr_cmac], kdf.c:479-491, from block [i]. *)
Fixpoint cmac_blocks (L : lib) (fuel : nat) (i : Z) (other : input) (key : list Z) (answers : nat -> bool) (full : list Z) : expanded :=
  match fuel with
  | O => Expanded full
  | S fuel =>
      let at_ := Z.to_nat ((i - 1) * 16) in
      match cmac L (skipn at_ full) (Bytes [i]) other (Null 0) key (answers (Z.to_nat i)) with
      | Oob => ExpandCrash
      | Ret OK m _ => cmac_blocks L fuel (i + 1) other key answers (firstn at_ full ++ m)
      | Ret s _ _ => ExpandFails s
      end
  end.
(** [kdf_ctr_cmac], kdf.c:416-524.  [counter] is a uint8_t.  [full] is the buffer of 64
    bytes with its old contents. *)
Definition kdf_ctr_cmac (L : lib) (rights : rights) (key_length counter : Z) (other : input) (parent : stored_key)
    (mem : option (list Z)) (full : list Z) (answers : nat -> bool) (alloc : bool) : kdf :=
  if negb (key_length mod 16 =? 0) then KdfFails INVALID_PARAMETER
  else if bad_input other then KdfFails NULL_PARAMETER
  else if (counter <? 1) || (4 <? counter) then KdfFails INVALID_PARAMETER
  else if 5 - counter <? key_length / 16 then KdfFails INVALID_PARAMETER
  else
    match mem with
    | None => KdfFails INTERNAL_ERROR
    | Some derived =>
        match cmac_blocks L 4 1 other (k_bytes parent) answers full with
        | ExpandCrash => KdfCrash
        | ExpandFails s => KdfFails s
        | Expanded full =>
            match copy_to derived 0 (skipn (Z.to_nat ((counter - 1) * 16)) full) key_length with
            | None => KdfCrash
            | Some derived => make_key rights (k_rights parent) key_length derived alloc
            end
        end
    end.

(** The checks of ta_sa_key_derive.c before the derivation itself, behind the handles: X9.63
    174-220, CMAC 274-328, CONCAT 382-428, HKDF 482-539.  [now] is the clock. *)
Definition parent_ok (parent : stored_key) (now : Z) : option status :=
  if negb (rights_allowed_derive (k_rights parent) now) then Some OPERATION_NOT_ALLOWED
  else if negb (k_type parent =? KT_SYMMETRIC) then Some INVALID_KEY_TYPE else None.
Definition digest_known (d : Z) : bool := (d =? D_SHA1) || (d =? D_SHA256) || (d =? D_SHA384) || (d =? D_SHA512).
Definition derive_x963 L rights d key_length info parent now mem hash answers alloc : kdf :=
  if bad_input info then KdfFails NULL_PARAMETER
  else if 512 <? key_length then KdfFails INVALID_PARAMETER
  else if negb (digest_known d) then KdfFails INVALID_PARAMETER
  else match parent_ok parent now with
       | Some s => KdfFails s
       | None => kdf_ansi_x963 L rights d key_length info parent mem hash answers alloc
       end.
Definition derive_concat L rights d key_length info parent now mem hash answers alloc : kdf :=
  if bad_input info then KdfFails NULL_PARAMETER
  else if 512 <? key_length then KdfFails INVALID_PARAMETER
  else if negb (digest_known d) then KdfFails INVALID_PARAMETER
  else match parent_ok parent now with
       | Some s => KdfFails s
       | None => kdf_concat_kdf L rights d key_length info parent mem hash answers alloc
       end.
Definition derive_hkdf L rights d key_length salt info parent now mem prk tag answers alloc : kdf :=
  if bad_input info then KdfFails NULL_PARAMETER
  else if bad_input salt then KdfFails NULL_PARAMETER
  else if 512 <? key_length then KdfFails INVALID_PARAMETER
  else if negb (digest_known d) then KdfFails INVALID_PARAMETER
  else match parent_ok parent now with
       | Some s => KdfFails s
       | None =>
           if negb (key_type_supports_hmac (k_type parent) (k_size parent)) then KdfFails INVALID_KEY_TYPE
           else kdf_hkdf_hmac L rights d key_length salt info parent mem prk tag answers alloc
       end.
Definition derive_cmac L rights key_length counter other parent now mem full answers alloc : kdf :=
  if bad_input other then KdfFails NULL_PARAMETER
  else if (counter <? 1) || (4 <? counter) then KdfFails INVALID_PARAMETER
  else if negb (key_length mod 16 =? 0) then KdfFails INVALID_PARAMETER
  else if 5 - counter <? key_length / 16 then KdfFails INVALID_PARAMETER
  else match parent_ok parent now with
       | Some s => KdfFails s
       | None =>
           if negb (key_type_supports_aes (k_type parent) (k_size parent)) then KdfFails INVALID_KEY_TYPE
           else kdf_ctr_cmac L rights key_length counter other parent mem full answers alloc
       end.

(** ** Netflix *)

(** netflix.c:92-94 and 118-120. *)
Definition netflix_salt : list Z :=
  [0x02; 0x76; 0x17; 0x98; 0x4f; 0x62; 0x27; 0x53; 0x9a; 0x63; 0x0b; 0x89; 0x7c; 0x01; 0x7d; 0x69].
Definition netflix_info : list Z :=
  [0x80; 0x9f; 0x82; 0xa7; 0xad; 0xdf; 0x54; 0x8d; 0x3e; 0xa9; 0xdd; 0x06; 0x7f; 0xf9; 0xbb; 0x91].

(** [kdf_netflix_wrapping], netflix.c:27-150; [mem] are the two buffers of 32 bytes. *)
Definition kdf_netflix_wrapping (L : lib) (rights parent : rights) (enc hmac : stored_key)
    (mem : option (list Z * list Z)) (answers : nat -> bool) (alloc : bool) : kdf :=
  if negb (zlen (k_bytes enc) =? 16) then KdfFails INVALID_PARAMETER
  else if negb (zlen (k_bytes hmac) =? 32) then KdfFails INVALID_PARAMETER
  else
    match mem with
    | None => KdfFails INTERNAL_ERROR
    | Some (temp, wrap) =>
        match hmac_internal L temp 32 D_SHA256 (k_bytes enc) (k_bytes hmac) [] (Bytes netflix_salt) (answers 0%nat) with
        | Oob => KdfCrash
        | Ret OK temp n =>
            match hmac_internal L wrap 32 D_SHA256 netflix_info [] [] (Bytes (firstn (Z.to_nat n) temp)) (answers 1%nat) with
            | Oob => KdfCrash
            | Ret OK wrap _ => make_key rights parent 16 (firstn 16 wrap) alloc
            | Ret s _ _ => KdfFails s
            end
        | Ret s _ _ => KdfFails s
        end
    end.
(** ta_sa_key_derive.c:593-654. *)
Definition derive_netflix L rights enc hmac now mem answers alloc : kdf :=
  match parent_ok enc now with
  | Some s => KdfFails s
  | None =>
      match parent_ok hmac now with
      | Some s => KdfFails s
      | None => kdf_netflix_wrapping L rights (k_rights enc) enc hmac mem answers alloc
      end
  end.

(** [kdf_netflix_shared_secret], netflix.c:152-298: the encryption and the HMAC key.  [mem]
    are the two buffers of 48 bytes.  When the second key cannot be created the first is left
    to the caller, who frees it. *)
Definition kdf_netflix_shared_secret (L : lib) (rights_enc rights_hmac : rights) (inkey secret : stored_key)
    (mem : option (list Z * list Z)) (answers : nat -> bool) (alloc1 alloc2 : bool) : kdf * kdf :=
  let fails s := (KdfFails s, KdfFails s) in
  if negb (zlen (k_bytes inkey) =? 16) then fails INVALID_PARAMETER
  else
    match mem with
    | None => fails INTERNAL_ERROR
    | Some (digest, key) =>
        match digest_sha L digest 48 D_SHA384 (Bytes (k_bytes inkey)) (Null 0) (Null 0) (answers 0%nat) with
        | Oob => (KdfCrash, KdfCrash)
        | Ret OK digest n =>
            match k_bytes secret with
            | [] => (KdfNothing, KdfNothing)   (* 256-259: left with the status of the digest *)
            | b :: _ =>
                match hmac_internal L key 48 D_SHA384 (if b =? 0 then [] else [0]) (k_bytes secret) []
                        (Bytes (firstn (Z.to_nat n) digest)) (answers 1%nat) with
                | Oob => (KdfCrash, KdfCrash)
                | Ret OK key _ =>
                    (make_key rights_enc (k_rights inkey) 16 (firstn 16 key) alloc1,
                     make_key rights_hmac (k_rights inkey) 32 (firstn 32 (skipn 16 key)) alloc2)
                | Ret s _ _ => fails s
                end
            end
        | Ret s _ _ => fails s
        end
    end.
