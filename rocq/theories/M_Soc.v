(** SoC key containers: taimpl/src/internal/soc_key_container.c, the part of ta_sa_key_import.c
    that calls it and otp_unwrap_aes_gcm of porting/otp.c.  OpenSSL, yajl, the root keys and the
    results of malloc are parameters. *)
From Verif Require Import Base M_ObjectStore M_Memory M_Rights M_Mac M_KeyStore M_Kdf M_Unwrap M_Json M_TypeJ.

(** What the surroundings decide on top of M_TypeJ.v's.  [v_root]: the root keys, 1 unique, 2
    common, [None] if they cannot be read; [v_ladder]: the memory and OpenSSL calls of the key
    ladder succeed; [v_behind]: what the memory behind a string constant holds; [v_strict]:
    reading there is an error; [v_c]: what the arrays c1, c2, c3 held; [v_header]: the
    surroundings for the header. *)
Record soc := MkSoc {
  v_root : Z -> option (list Z); v_ladder : bool; v_behind : list Z -> list Z; v_strict : bool;
  v_c : Z -> list Z; v_header : surroundings }.
(** [sa_import_parameters_soc]: size, version, object id. *)
Record soc_parameters := MkSocParameters { sp_size : Z; sp_version : Z; sp_id : Z }.

(** [soc_kc_payload_t] after parsing, soc_key_container.c:61-82.  The root key type is 0 for
    UNDEFINED, 1 UNIQUE, 2 COMMON. *)
Record soc_payload := MkPayload {
  y_version : Z; y_root : Z; y_type : list Z; y_key : list Z; y_iv : list Z;
  y_usage : Z; y_child : Z; y_tas : list (list Z); y_c1 : list Z; y_c2 : list Z; y_c3 : list Z }.

Section Soc.
Variables (J : jlib) (e : surroundings) (v : soc).

(** memory_memcmp_constant(s, literal, length of s): porting/memory.c:48-58. *)
Definition same_as (s literal : list Z) : step bool :=
  if v_strict v && (zlen literal + 1 <? zlen s) then Stop BadAccess
  else Go (if list_eq_dec Z.eq_dec s (firstn (List.length s) (literal ++ 0 :: v_behind v literal)) then true else false).

(** [unpack_soc_kc], 101-197: nothing is released twice here. *)
Definition decode_once (place : Z) (l : list Z) : step (list Z) :=
  if negb (e_alloc e place) then Stop (Refused INVALID_KEY_FORMAT)
  else match b64_decode (j_bio J) true l (e_junk e place) (e_b64 e place) with
       | Some d => Go d
       | None => Stop (Refused INVALID_KEY_FORMAT)
       end.
Definition unpack_soc (input : list Z) : step (list Z * list Z * list Z) :=
  if negb (e_alloc e 0) then Stop BadAccess
  else match split_dot input with
  | None => Stop (Refused INVALID_KEY_FORMAT)
  | Some (header, rest) =>
      let* _ := need (0 <? zlen rest) INVALID_KEY_FORMAT in
      match split_dot rest with
      | None => Stop (Refused INVALID_KEY_FORMAT)
      | Some (payload, mac) =>
          let* _ := need (0 <? zlen mac) INVALID_KEY_FORMAT in
          let* h := decode_once 1 header in
          let* p := decode_once 2 payload in
          let* m := decode_once 3 mac in
          Go (h, p, m)
      end
  end.

(** Fields of a JSON object, soc_kc_unwrap 905-947. *)
Definition fields_of (e : surroundings) (doc : list Z) : step (list (option (list Z) * Z * option value)) :=
  match parse (j_yajl J) doc (e_parser e) (e_json e) with
  | Some (VMap _ entries) =>
      if negb (e_alloc e 8) then Stop (match entries with [] => Refused INVALID_KEY_FORMAT | _ => BadAccess end)
      else Go entries
  | _ => Stop (Refused INVALID_KEY_FORMAT)
  end.

(** The integers are stored in bytes. *)
Definition byte_of (v : option value) : Z := as_integer v mod 256.
(** rootKeyType, 331-356.  A value that is not a string leaves the length uninitialised. *)
Definition root_of (version : Z) (entries : list (option (list Z) * Z * option value)) : step Z :=
  if 5 <=? version then
    match find_field (txt "rootKeyType") entries with
    | FoundNone => Go 0
    | FoundWild => Stop BadAccess
    | Found x =>
        match as_string x with
        | None => if e_size e 100 =? 0 then Go 1 else Stop BadAccess
        | Some s =>
            let* u := same_as s (txt "unique") in
            if (u : bool) then Go 1
            else let* c := same_as s (txt "common") in
                 if (c : bool) then Go 2 else Stop (Refused INVALID_KEY_FORMAT)
        end
    end
  else Go 0.
(** encryptedKey, 371-390: released twice if it cannot be decoded. *)
Definition key_text (x : option value) : step (list Z) :=
  if negb (e_alloc e 6) then Stop (Refused INVALID_KEY_FORMAT)
  else match as_string x with
       | None => Stop DoubleFree
       | Some s => match b64_decode (j_bio J) false s (e_junk e 6) (e_b64 e 6) with
                   | None => Stop DoubleFree
                   | Some d => Go d
                   end
       end.
(** Decoding into an array of [n] bytes that held [old], 399-406 and others: a failure is one
    only if the length is wrong, too; what is decoded is written whatever its length. *)
Definition decode_into (url : bool) (place n : Z) (old : list Z) (x : option value) : step (list Z) :=
  let failed len := if b64_decoded_length len =? n then Go old else Stop (Refused INVALID_KEY_FORMAT) in
  match as_string x with
  | None => failed (e_size e place)
  | Some s =>
      match b64_decode (j_bio J) url s (e_junk e place) (e_b64 e place) with
      | None => failed (zlen s)
      | Some d => if n <? zlen d then Stop BadAccess else Go (d ++ skipn (List.length d) old)
      end
  end.
(** entitledTaIds, 426-447: [i] is the index. *)
Fixpoint soc_ta_loop (i : Z) (l : list (option value)) : step (list (list Z)) :=
  match l with
  | [] => Go []
  | x :: rest =>
      let* s := match as_string x with
                | Some s => let* _ := need (zlen s =? 36) INVALID_KEY_FORMAT in
                            if Z.of_nat MAX_TAS <=? i then Stop BadAccess else Go s
                | None => if e_size e (200 + i) =? 36 then Stop BadAccess else Stop (Refused INVALID_KEY_FORMAT)
                end in
      let* ss := soc_ta_loop (i + 1) rest in
      Go (s :: ss)
  end.
Definition soc_tas (entries : list (option (list Z) * Z * option value)) : step (list (list Z)) :=
  match find_field (txt "entitledTaIds") entries with
  | FoundNone => Go []
  | FoundWild => Stop BadAccess
  | Found x =>
      match as_array x (e_alloc e 5) with
      | ArrayWild => Stop BadAccess
      | ArrayNull => Go []
      | ArrayOf l => soc_ta_loop 0 l
      end
  end.

(** [parse_payload], 307-498. *)
Definition parse_payload (entries : list (option (list Z) * Z * option value)) : step soc_payload :=
  let* x := field_of "containerVersion" entries in
  let version := byte_of x in
  let* root := root_of version entries in
  let* type := string_of "keyType" entries in
  let* x := field_of "encryptedKey" entries in
  let* key := key_text x in
  let* x := field_of "iv" entries in
  let* iv := decode_into false 7 12 (repeat 0 12) x in
  let* x := field_of "keyUsage" entries in
  let usage := byte_of x in
  let* child := (if usage =? 2 then
                   match find_field (txt "decryptedKeyUsage") entries with
                   | FoundNone => Go 0
                   | FoundWild => Stop BadAccess
                   | Found x => Go (byte_of x)
                   end
                 else Go 0) in
  let* tas := soc_tas entries in
  let* x := field_of "c1" entries in
  let* c1 := decode_into false 11 16 (v_c v 1) x in
  let* x := field_of "c2" entries in
  let* c2 := decode_into true 12 16 (v_c v 2) x in
  let* x := field_of "c3" entries in
  let* c3 := decode_into false 13 16 (v_c v 3) x in
  Go (MkPayload version root type key iv usage child tas c1 c2 c3).

(** MAX_AAD_SIZE; writing behind it is an error. *)
Definition MAX_AAD := 1300.
Definition append (aad more : list Z) : step (list Z) := if MAX_AAD <? zlen (aad ++ more) then Stop BadAccess else Go (aad ++ more).
Fixpoint append_tas (aad : list Z) (tas : list (list Z)) : step (list Z) :=
  match tas with [] => Go aad | t :: rest => let* aad := append aad (to_lower t) in append_tas aad rest end.
(** [build_aad], 500-619; the length 0 is [INVALID_KEY_FORMAT] (decrypt_key_and_verify_mac,
    778-782). *)
Definition is_one_of (s : list Z) (a b c : string) : step bool :=
  let* x := same_as s (txt a) in
  if (x : bool) then Go true else let* x := same_as s (txt b) in
  if (x : bool) then Go true else same_as s (txt c).
Definition build_aad (alg : list Z) (p : soc_payload) : step (list Z) :=
  let* _ := need (if list_eq_dec Z.eq_dec alg (txt "A128GCM") then true else false) INVALID_KEY_FORMAT in
  let* _ := need (4 <=? y_version p) INVALID_KEY_FORMAT in
  let aad := alg ++ [y_version p] ++
    (if 5 <=? y_version p then if y_root p =? 1 then txt "unique" else if y_root p =? 2 then txt "common" else [] else []) in
  let* _ := need (0 <? zlen (y_type p)) INVALID_KEY_FORMAT in
  let* aad := append aad (y_type p) in
  let* _ := need ((0 <? y_usage p) && (y_usage p <=? 3)) INVALID_KEY_FORMAT in
  let* hmac := (if y_usage p =? 2 then is_one_of (y_type p) "HMAC-128" "HMAC-160" "HMAC-256" else Go false) in
  let* _ := need (negb hmac) INVALID_KEY_FORMAT in
  let* aad := append aad [y_usage p] in
  let* aad := (if y_usage p =? 2 then
                 let* _ := need ((0 <? y_child p) && (y_child p <=? 3)) INVALID_KEY_FORMAT in
                 append aad [y_child p]
               else Go aad) in
  let* aad := append aad (y_iv p) in
  let* aad := append aad (y_c1 p) in
  let* aad := append aad (y_c2 p) in
  let* aad := append aad (y_c3 p) in
  append_tas aad (y_tas p).

(** [get_key_type_and_size], 621-744: type, size, subtype, curve. *)
Definition types : list (string * (Z * Z * Z * Z)) :=
  [("AES-128", (0, 16, 1, 0)); ("HMAC-128", (0, 16, 2, 0)); ("AES-256", (0, 32, 1, 0)); ("CHACHA20-256", (0, 32, 3, 0));
   ("HMAC-256", (0, 32, 2, 0)); ("HMAC-160", (0, 20, 2, 0));
   ("RSA-1024", (2, 128, 0, 0)); ("RSA-2048", (2, 256, 0, 0)); ("RSA-3072", (2, 384, 0, 0)); ("RSA-4096", (2, 512, 0, 0));
   ("ECC-P192", (1, 24, 0, 7)); ("ECC-P224", (1, 28, 0, 8)); ("ECC-P256", (1, 32, 0, 0)); ("ECC-P384", (1, 48, 0, 1));
   ("ECC-P521", (1, 66, 0, 2)); ("ECC-ED25519", (1, 32, 0, 3)); ("ECC-ED448", (1, 57, 0, 5)); ("ECC-X25519", (1, 32, 0, 4));
   ("ECC-X448", (1, 56, 0, 6))]%string.
Fixpoint find_type (s : list Z) (l : list (string * (Z * Z * Z * Z))) : step (Z * Z * Z * Z) :=
  match l with
  | [] => Stop (Refused INVALID_KEY_FORMAT)
  | (name, t) :: rest =>
      let* x := same_as s (txt name) in
      if (x : bool) then Go t else find_type s rest
  end.

(** [otp_hw_key_ladder], otp.c:234-330, and [otp_unwrap_aes_gcm], 874-949. *)
Definition ladder_key (U : ulib) (root c1 c2 c3 : list Z) : list Z := u_ecb U (u_ecb U (u_ecb U root c1) c2) c3.
Definition otp_gcm (buf : list Z) (root : Z) (p : soc_payload) (aad tag : list Z) : step (list Z) :=
  match v_root v root with
  | Some k =>
      if negb (v_ladder v) then Stop (Refused INTERNAL_ERROR)
      else if 16 <? zlen tag then Stop (Refused INVALID_PARAMETER)
      else match evp_decrypt buf (y_key p)
                   (u_gcm (j_ulib J) (ladder_key (j_ulib J) k (y_c1 p) (y_c2 p) (y_c3 p)) (y_iv p) aad tag) (e_answer e) with
           | None => Stop (Refused INTERNAL_ERROR)
           | Some None => Stop BadAccess
           | Some (Some bytes) => Go bytes
           end
  | None => Stop (Refused INTERNAL_ERROR)
  end.

(** [fields_to_rights], 199-274. *)
Definition SOC_PARAMETERS := 624.
Fixpoint big_endian (n : nat) (z : Z) : list Z :=
  match n with O => [] | S n => (z / 256 ^ Z.of_nat n) mod 256 :: big_endian n z end.
Definition soc_rights (t subtype : Z) (p : soc_payload) (parameters : option soc_parameters) : step rights :=
  let* id := match parameters with
             | None => Go (repeat 0 64)
             | Some q =>
                 let* _ := need (sp_size q =? SOC_PARAMETERS) INVALID_PARAMETER in
                 let* _ := need ((sp_version q =? 2) || (sp_version q =? 3)) INVALID_PARAMETER in
                 Go (big_endian 8 (sp_id q) ++ repeat 0 56)
             end in
  let '(u, s) := key_usage_to_usage_flags (Z.lor (BIT_SET 0 F_CACHEABLE) OUTPUT_PROTECTIONS_MASK) (y_usage p) t subtype in
  let* _ := need (status_eqb s OK) s in
  let* c := (if y_usage p =? 2 then
               let '(c, s) := key_usage_to_usage_flags 0 (y_child p) t subtype in
               let* _ := need (status_eqb s OK) s in Go c
             else Go 0) in
  let* _ := need (zlen (y_tas p) <=? 32) INVALID_KEY_FORMAT in
  Go (MkRights id u c 0 (W64 - 1) (match y_tas p with [] => fill_tas [ALL_MATCH] | l => fill_tas (List.map ta_entry l) end)).

(** [decrypt_key_and_verify_mac], 746-871: an EC key that is not one ends it with success and
    without a key. *)
Definition decrypt_and_verify (alg : list Z) (p : soc_payload) (tag : list Z) (parameters : option soc_parameters) : step stored_key :=
  let* aad := build_aad alg p in
  let* '(t, size, subtype, curve) := find_type (y_type p) types in
  match e_mem e (zlen (y_key p)) with
  | None => Stop (Refused INTERNAL_ERROR)
  | Some buf =>
      let* bytes := otp_gcm buf (if y_root p =? 0 then 1 else y_root p) p aad tag in
      let* r := soc_rights t subtype p parameters in
      let* _ := (if t =? KT_RSA then need (u_rsa_size (j_ulib J) bytes =? size) INVALID_KEY_FORMAT
                 else if t =? KT_EC then
                   let n := u_ec_size (j_ulib J) curve bytes in
                   if n =? 0 then Stop NoKey else need (n =? size) INVALID_KEY_FORMAT
                 else need (zlen (y_key p) =? size) INVALID_KEY_FORMAT) in
      match stored_key_create (Some r) None t (MkParams curve ([], [])) size (Some bytes) (e_alloc e 9) with
      | (OK, Some k) => Go k
      | (OK, None) => Stop NoKey
      | (s, _) => Stop (Refused s)
      end
  end.

(** [soc_kc_unwrap], 873-967. *)
Definition soc_unwrap (input : list Z) (parameters : option soc_parameters) : step stored_key :=
  let* '(h, p, tag) := unpack_soc input in
  let* entries := fields_of (v_header v) h in
  let* alg := string_of "alg" entries in
  let* entries := fields_of e p in
  let* payload := parse_payload entries in
  decrypt_and_verify alg payload tag parameters.

(** [ta_sa_key_import_soc] and [ta_sa_key_provision], ta_sa_key_import.c:301-415, up to
    key_store_import_stored_key, which refuses NULL. *)
Definition import_soc (input : list Z) (parameters : option soc_parameters) : imported :=
  match soc_unwrap input parameters with
  | Go k => Made k
  | Stop NoKey => Failed (Refused NULL_PARAMETER)
  | Stop i => Failed i
  end.
End Soc.
