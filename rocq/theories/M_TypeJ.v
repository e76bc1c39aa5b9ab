(** Type-J key containers: taimpl/src/internal/typej.c and the part of ta_sa_key_import.c that
    calls it.  OpenSSL, yajl, strptime/timegm and the results of malloc are parameters. *)
From Verif Require Import Base M_ObjectStore M_Memory M_Rights M_Mac M_KeyStore M_Kdf M_Unwrap M_Json.

(** How an import ends: a key, or a failure; success without a key; memory freed twice; an
    access outside an object or through NULL. *)
Inductive failure := Refused (s : status) | NoKey | DoubleFree | BadAccess.
Inductive imported := Made (k : stored_key) | Failed (i : failure).
(** A step gives a result to go on with or the end. *)
Inductive step (A : Type) := Go (a : A) | Stop (i : failure).
Arguments Go {A}. Arguments Stop {A}.
Definition bind {A B} (s : step A) (f : A -> step B) : step B := match s with Go a => f a | Stop i => Stop i end.
Notation "'let*' x := s 'in' t" := (bind s (fun x => t)) (at level 200, x name, right associativity).
Notation "'let*' ' x := s 'in' t" := (bind s (fun '(x) => t)) (at level 200, x strict pattern, right associativity).
Definition need (b : bool) (s : status) : step unit := if b then Go tt else Stop (Refused s).

(** The libraries.  [j_time]: strptime and timegm on the first 19 characters of a text that
    goes on with 'Z', [None] if it cannot be read. *)
Record jlib := MkJlib {
  j_bio : list Z -> option (list Z);
  j_yajl : list Z -> option (list event);
  j_time : list Z -> option Z;
  j_mac : lib;
  j_ulib : ulib }.
(** What the surroundings decide in one call.  [e_alloc]: the allocations of typej.c, by
    place; [e_b64]: those inside b64_decode; [e_json]: those of the parser; [e_junk]: the old
    contents of memory b64_decode allocates; [e_size]: what uninitialised variables hold;
    [e_mem], [e_answer], [e_hmac]: memory for the plaintext, success of OpenSSL. *)
Record surroundings := MkSurroundings {
  e_alloc : Z -> bool; e_b64 : Z -> bool; e_parser : bool; e_json : nat -> nat -> bool;
  e_junk : Z -> list Z; e_size : Z -> Z; e_mem : Z -> option (list Z); e_answer : bool; e_hmac : bool }.

(** memchr for '.': what is before it and what is behind it. *)
Fixpoint split_dot (l : list Z) : option (list Z * list Z) :=
  match l with
  | [] => None
  | c :: rest => if c =? 46 then Some ([], rest)
                 else match split_dot rest with None => None | Some (a, b) => Some (c :: a, b) end
  end.

Section TypeJ.
Variables (J : jlib) (e : surroundings).

(** An allocated buffer with its decoded text, typej.c:155-201 and others: if decoding fails
    the buffer is released; it stays in the variable that is released again at the end.
    [None] from malloc makes b64_decode fail without anything to release. *)
Definition decode_again (url : bool) (place : Z) (l : list Z) : step (list Z) :=
  if negb (e_alloc e place) then Stop (Refused INVALID_KEY_FORMAT)
  else match b64_decode (j_bio J) url l (e_junk e place) (e_b64 e place) with
       | Some d => Go d
       | None => Stop DoubleFree
       end.

(** [unpack_typej], typej.c:125-209, with [typej_unpacked_create], 64-73, whose result is not
    checked.  Header, payload and MAC as text, and the last two decoded. *)
Definition unpack_typej (input : list Z) : step (list Z * list Z * list Z * list Z) :=
  if negb (e_alloc e 0) then Stop BadAccess
  else match split_dot input with
  | None => Stop (Refused INVALID_KEY_FORMAT)
  | Some (header, rest) =>
      let* _ := need (0 <? zlen rest) INVALID_KEY_FORMAT in
      match split_dot rest with
      | None => Stop (Refused INVALID_KEY_FORMAT)
      | Some (payload, mac) =>
          let* _ := need (0 <? zlen mac) INVALID_KEY_FORMAT in
          let* _ := decode_again true 1 header in
          let* p := decode_again true 2 payload in
          let* m := decode_again true 3 mac in
          Go (header, payload, p, m)
      end
  end.

(** [verify_mac], typej.c:211-261. *)
Definition verify_mac (header payload mac : list Z) (w : stored_key) : status :=
  if negb (zlen mac =? 32) then INVALID_PARAMETER
  else match hmac_internal (j_mac J) (repeat 0 32) 32 D_SHA256 header [46] payload (Bytes (k_bytes w)) (e_hmac e) with
       | Ret OK computed _ => if list_eq_dec Z.eq_dec (firstn 32 computed) mac then OK else INVALID_PARAMETER
       | Ret s _ _ => s
       | Oob => INTERNAL_ERROR
       end.

(** [content_key_rights_to_usage_flags], typej.c:263-332. *)
Fixpoint rights_loop (bytes : list Z) (u : Z) (cgmsa analog : bool) : Z * status :=
  match bytes with
  | [] => (u, OK)
  | b :: rest =>
      if b =? 0 then rights_loop rest u cgmsa analog
      else if b =? 1 then rights_loop rest (BIT_CLEAR u F_SVP_OPTIONAL) cgmsa analog
      else if b =? 2 then rights_loop rest (BIT_SET u F_DTCP) cgmsa analog
      else if b =? 3 then rights_loop rest (BIT_SET u F_HDCP14) cgmsa analog
      else if b =? 4 then rights_loop rest (BIT_SET u F_HDCP22) cgmsa analog
      else if b =? 5 then
        rights_loop rest (BIT_SET (if cgmsa then BIT_CLEAR u F_ANALOG_UNPROTECTED else BIT_SET u F_ANALOG_UNPROTECTED) F_ANALOG_CGMSA) cgmsa true
      else if b =? 8 then
        rights_loop rest (if analog then BIT_SET (BIT_CLEAR u F_ANALOG_UNPROTECTED) F_ANALOG_CGMSA else u) true analog
      else (u, INVALID_KEY_FORMAT)
  end.
Definition content_key_rights_to_usage_flags (u : Z) (bytes : list Z) : Z * status :=
  rights_loop bytes (BIT_SET (Z.land u (Z.lnot OUTPUT_PROTECTIONS_MASK)) F_SVP_OPTIONAL) false false.

(** [iso8601_to_epoch_time], typej.c:87-123. *)
Definition epoch_time (l : list Z) : option Z :=
  if negb (zlen l =? 20) then None
  else match j_time J l with
       | None => None
       | Some t => if (t <? 0) && negb (t =? -1) then None else Some (wrap64 t)
       end.

(** A field, json_key_value_find and the check for NULL. *)
Definition field_of (name : string) (entries : list (option (list Z) * Z * option value)) : step (option value) :=
  match find_field (txt name) entries with
  | FoundNone => Stop (Refused INVALID_KEY_FORMAT)
  | FoundWild => Stop BadAccess
  | Found v => Go v
  end.
Definition string_of (name : string) (entries : list (option (list Z) * Z * option value)) : step (list Z) :=
  let* v := field_of name entries in
  match as_string v with None => Stop (Refused INVALID_KEY_FORMAT) | Some l => Go l end.
Definition time_of (name : string) entries : step Z :=
  let* l := string_of name entries in
  match epoch_time l with None => Stop (Refused INVALID_KEY_FORMAT) | Some t => Go t end.

(** strncpy of a string of at most 63 bytes into the 64 bytes of the id, typej.c:364. *)
Fixpoint until_nul (l : list Z) : list Z := match l with [] => [] | c :: rest => if c =? 0 then [] else c :: until_nul rest end.
Definition id_of (l : list Z) : list Z := until_nul l ++ repeat 0 (64 - List.length (until_nul l)).

(** The bytes of a UUID after [convert_uuid], rights.c:383-425, whose result is not looked at:
    on a malformed text those written before the first bad character. *)
Fixpoint convert_written (fuel : nat) (str : list Z) (len i j : nat) (id : list Z) : list Z :=
  match fuel with
  | O => id
  | S fuel =>
      if negb (i <? len)%nat then id
      else
        let i1 := if nth i str 0 =? 45 then S i else i in
        let c1 := lower (nth i1 str 0) in
        let c2 := lower (nth (S i1) str 0) in
        if (len <=? i1)%nat || (len <=? S i1)%nat || negb (is_hex c1) || negb (is_hex c2) then id
        else convert_written fuel str len (S (S i1)) (S j) (update j (hex_digit c1 * 16 + hex_digit c2) id)
  end.
(** Entry of the TA list, as a number; the list was zero before. *)
Definition ta_entry (str : list Z) : uuid := le_num (convert_written 16 str 36 0 0 (repeat 0 16)).

(** The loop over the TA list, typej.c:482-494.  A value that is not a string leaves the length
    uninitialised; a length of 36 makes convert_uuid read through NULL. *)
Fixpoint ta_loop (i : Z) (l : list (option value)) : step (list uuid) :=
  match l with
  | [] => Go []
  | v :: rest =>
      let* t := match as_string v with
                | Some s => let* _ := need (zlen s =? 36) INVALID_KEY_FORMAT in Go (ta_entry s)
                | None => if e_size e i =? 36 then Stop BadAccess else Stop (Refused INVALID_KEY_FORMAT)
                end in
      let* ts := ta_loop (i + 1) rest in
      Go (t :: ts)
  end.
(** MAX_NUM_ALLOWED_TA_IDS. *)
Definition MAX_TAS : nat := 32.
Definition fill_tas (l : list uuid) : list uuid := l ++ repeat 0 (MAX_TAS - List.length l).
(** The list as a whole, typej.c:464-498. *)
Definition ta_list (entries : list (option (list Z) * Z * option value)) : step (list uuid) :=
  match find_field (txt "entitledTaIds") entries with
  | FoundNone => Go (fill_tas [ALL_MATCH])
  | FoundWild => Stop BadAccess
  | Found v =>
      match as_array v (e_alloc e 5) with
      | ArrayWild => Stop BadAccess
      | ArrayNull => if Z.of_nat MAX_TAS <? e_size e 0 then Stop (Refused INVALID_KEY_FORMAT)
                     else if e_size e 0 =? 0 then Go (fill_tas [])
                     else Stop BadAccess
      | ArrayOf l => let* _ := need (zlen l <=? Z.of_nat MAX_TAS) INVALID_KEY_FORMAT in
                     let* ts := ta_loop 1 l in
                     Go (fill_tas ts)
      end
  end.

(** [fields_to_rights], typej.c:334-499. *)
Definition fields_to_rights (entries : list (option (list Z) * Z * option value)) : step rights :=
  let* id := string_of "contentKeyId" entries in
  let* _ := need (zlen id <=? 63) INVALID_KEY_FORMAT in
  let* l := string_of "contentKeyRights" entries in
  let* bytes := (if negb (e_alloc e 4) then Stop (Refused INVALID_KEY_FORMAT)
                 else match b64_decode (j_bio J) false l (e_junk e 4) (e_b64 e 4) with
                      | None => Stop (Refused INVALID_KEY_FORMAT)
                      | Some d => Go d
                      end) in
  let '(u, s) := content_key_rights_to_usage_flags 0 bytes in
  let* _ := need (status_eqb s OK) s in
  let* v := field_of "contentKeyUsage" entries in
  let '(u, s) := key_usage_to_usage_flags u (as_integer v) KT_SYMMETRIC 1 in
  let* _ := need (status_eqb s OK) s in
  let* before := time_of "contentKeyNotBefore" entries in
  let* after := time_of "contentKeyNotOnOrAfter" entries in
  let* v := field_of "contentKeyCacheable" entries in
  let u := if as_bool v then BIT_SET u F_CACHEABLE else u in
  let* tas := ta_list entries in
  Go (MkRights (id_of id) u 0 before after tas).

(** The result of unwrap_aes_ecb and unwrap_aes_cbc (M_Unwrap.v). *)
Definition key_of (u : unwrapped) : step stored_key :=
  match u with
  | UKey k => Go k
  | UFails s | ULeak s => Stop (Refused s)
  | UNothing => Stop NoKey
  | UCrash => Stop BadAccess
  end.
Definition unwrap_content (r : rights) (w : stored_key) (content : list Z) (pkcs7 : bool) (f : list Z -> list Z) : step stored_key :=
  key_of (unwrap_blocks (j_ulib J) r KT_SYMMETRIC None w content (e_mem e (zlen content)) (e_answer e) (e_alloc e 9) pkcs7 f).

(** [unwrap_key_v1], typej.c:501-567. *)
Definition unwrap_key_v1 (entries : list (option (list Z) * Z * option value)) (r : rights) (w : stored_key) : step stored_key :=
  let* l := string_of "contentKey" entries in
  let* content := decode_again false 6 l in
  let* _ := need (zlen content mod 16 =? 0) INVALID_KEY_FORMAT in
  unwrap_content r w content false (u_ecb (j_ulib J) (k_bytes w)).

(** [parse_cipher_algorithm], typej.c:569-594: [Some (cbc, pkcs7)]. *)
Definition parse_cipher_algorithm (l : option (list Z)) : option (bool * bool) :=
  match l with
  | None => None
  | Some l =>
      if list_eq_dec Z.eq_dec l (txt "aesEcbNone") then Some (false, false)
      else if list_eq_dec Z.eq_dec l (txt "aesEcbPkcs5") then Some (false, true)
      else if list_eq_dec Z.eq_dec l (txt "aesCbcNone") then Some (true, false)
      else if list_eq_dec Z.eq_dec l (txt "aesCbcPkcs5") then Some (true, true)
      else None
  end.

(** [unwrap_key_v2], typej.c:596-733; [unwrap_key_v3] (735-744) is the same.  An iv of the wrong
    length is released twice (703-709, 730); a failure with AES-CBC is reported as internal
    error (711-716). *)
Definition unwrap_key_v2 (entries : list (option (list Z) * Z * option value)) (r : rights) (w : stored_key) : step stored_key :=
  let* v := field_of "contentKeyTransportAlgorithm" entries in
  let algorithm := parse_cipher_algorithm (as_string v) in
  let* l := string_of "contentKey" entries in
  let* content := decode_again false 6 l in
  let* v := field_of "contentKeyLength" entries in
  let* k := match algorithm with
            | Some (false, pkcs7) => unwrap_content r w content pkcs7 (u_ecb (j_ulib J) (k_bytes w))
            | Some (true, pkcs7) =>
                let* t := string_of "contentKeyTransportIv" entries in
                let* iv := decode_again false 7 t in
                if negb (zlen iv =? 16) then Stop DoubleFree
                else match unwrap_content r w content pkcs7 (u_cbc (j_ulib J) (k_bytes w) iv) with
                     | Stop (Refused _) => Stop (Refused INTERNAL_ERROR)
                     | x => x
                     end
            | None => Stop (Refused INVALID_KEY_FORMAT)
            end in
  let* _ := need (zlen (k_bytes k) =? wrap64 (as_integer v)) INVALID_KEY_FORMAT in
  Go k.

(** [typej_unwrap], typej.c:746-850.  The array json_value_as_map fills is not checked for
    NULL; an empty map gives no fields. *)
Definition typej_unwrap (input : list Z) (wmac wenc : stored_key) : step stored_key :=
  let* '(header, payload, p, m) := unpack_typej input in
  let* _ := need (status_eqb (verify_mac header payload m wmac) OK) INVALID_KEY_FORMAT in
  match parse (j_yajl J) p (e_parser e) (e_json e) with
  | Some (VMap _ entries) =>
      if negb (e_alloc e 8) then Stop (match entries with [] => Refused INVALID_KEY_FORMAT | _ => BadAccess end)
      else
        let* r := fields_to_rights entries in
        match find_field (txt "contentKeyContainerVersion") entries with
        | FoundWild => Stop BadAccess
        | f =>
            let version := match f with Found v => as_integer v | _ => 1 end in
            if version =? 1 then unwrap_key_v1 entries r wenc
            else if (version =? 2) || (version =? 3) then unwrap_key_v2 entries r wenc
            else Stop (Refused INVALID_KEY_FORMAT)
        end
  | _ => Stop (Refused INVALID_KEY_FORMAT)
  end.

(** The checks of [ta_sa_key_import_typej], ta_sa_key_import.c:417-525, on the two keys once
    they are unwrapped, and the call. *)
Definition import_typej (input : list Z) (wmac wenc : stored_key) (now : Z) : imported :=
  match
    (let* _ := need (rights_allowed_sign (k_rights wmac) now) OPERATION_NOT_ALLOWED in
     let* _ := need (key_type_supports_hmac (k_type wmac) (k_size wmac)) INVALID_KEY_TYPE in
     let* _ := need (rights_allowed_unwrap (k_rights wenc) now) OPERATION_NOT_ALLOWED in
     let* _ := need (key_type_supports_aes (k_type wenc) (k_size wenc)) INVALID_KEY_TYPE in
     typej_unwrap input wmac wenc)
  with
  | Go k => Made k
  | Stop i => Failed i
  end.
End TypeJ.
