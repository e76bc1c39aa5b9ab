(** What a SoC key container says, and what importing it is meant to do. *)
From Verif Require Import Base M_Rights M_KeyStore M_Kdf M_Unwrap M_Json M_TypeJ M_Soc
  S_Bytes S_Rights S_Mac S_Unwrap S_Json S_TypeJ.

(** The documented names of key types; key type (0 symmetric, 1 EC, 2 RSA), size, what a
    symmetric key is for (1 AES, 2 HMAC, 3 ChaCha20) and curve. *)
Definition key_types : list (string * (Z * Z * Z * Z)) :=
  [("AES-128", (0, 16, 1, 0)); ("AES-256", (0, 32, 1, 0)); ("CHACHA20-256", (0, 32, 3, 0));
   ("HMAC-128", (0, 16, 2, 0)); ("HMAC-160", (0, 20, 2, 0)); ("HMAC-256", (0, 32, 2, 0));
   ("RSA-1024", (2, 128, 0, 0)); ("RSA-2048", (2, 256, 0, 0)); ("RSA-3072", (2, 384, 0, 0)); ("RSA-4096", (2, 512, 0, 0));
   ("ECC-P192", (1, 24, 0, 7)); ("ECC-P224", (1, 28, 0, 8)); ("ECC-P256", (1, 32, 0, 0)); ("ECC-P384", (1, 48, 0, 1)); ("ECC-P521", (1, 66, 0, 2));
   ("ECC-ED25519", (1, 32, 0, 3)); ("ECC-ED448", (1, 57, 0, 5)); ("ECC-X25519", (1, 32, 0, 4)); ("ECC-X448", (1, 56, 0, 6))]%string.

(** A statement about a key that makes sense: key usage 1 data, 2 keys, 3 both; if it is 2, the
    usage of the keys it wraps is stated, too; the root key is 1 the device's, 2 the common one
    (0: nothing said, the device's), to be stated from version 5 on. *)
Record usable (p : soc_payload) : Prop := {
  us_version : 4 <= y_version p < 256;
  us_root : 0 <= y_root p <= 2;
  us_old : y_version p < 5 -> y_root p = 0;
  us_usage : 1 <= y_usage p <= 3;
  us_child : y_usage p = 2 /\ 1 <= y_child p <= 3 \/ y_usage p <> 2 /\ y_child p = 0;
  us_iv : zlen (y_iv p) = 12;
  us_c : zlen (y_c1 p) = 16 /\ zlen (y_c2 p) = 16 /\ zlen (y_c3 p) = 16;
  us_tas : (List.length (y_tas p) <= 32)%nat /\ Forall (fun s => zlen s = 36) (y_tas p)
}.
Definition documented (p : soc_payload) (t : Z * Z * Z * Z) : Prop :=
  usable p /\ (exists name, In (name, t) key_types /\ y_type p = txt name) /\ (y_usage p = 2 -> snd (fst t) <> 2).

(** The associated data of the encryption: the whole statement. *)
Definition root_text (p : soc_payload) : list Z :=
  match y_root p with 1 => txt "unique" | 2 => txt "common" | _ => [] end.
Definition aad_of (p : soc_payload) : list Z :=
  txt "A128GCM" ++ [y_version p] ++ root_text p ++ y_type p ++ [y_usage p] ++ (if y_usage p =? 2 then [y_child p] else []) ++
  y_iv p ++ y_c1 p ++ y_c2 p ++ y_c3 p ++ flat_map to_lower (y_tas p).
(** The key it is encrypted with: c1, c2 and c3 decrypted in turn, starting from the root key. *)
Definition device_key (J : jlib) (v : soc) (p : soc_payload) (key : list Z) : Prop :=
  exists root k1 k2, v_root v (if y_root p =? 2 then 2 else 1) = Some root /\
    k1 = u_ecb (j_ulib J) root (y_c1 p) /\ k2 = u_ecb (j_ulib J) k1 (y_c2 p) /\ key = u_ecb (j_ulib J) k2 (y_c3 p).
(** [tag] authenticates the statement, [bytes] is the key. *)
Definition authentic (J : jlib) (v : soc) (p : soc_payload) (tag bytes : list Z) : Prop :=
  exists key, device_key J v p key /\ u_gcm (j_ulib J) key (y_iv p) (aad_of p) tag (y_key p) = Some bytes.

(** The bytes are a key of that type and size. *)
Definition right_size (U : ulib) (t : Z * Z * Z * Z) (bytes : list Z) : Prop :=
  let '(t, size, _, curve) := t in
  (if t =? 2 then u_rsa_size U bytes else if t =? 1 then u_ec_size U curve bytes else zlen bytes) = size.
(** The 64 bytes of the identifier: the caller's object id, as a number. *)
Definition be_num (l : list Z) : Z := fold_left (fun n b => 256 * n + b) l 0.
Definition caller_id (parameters : option soc_parameters) (id : list Z) : Prop :=
  exists first, List.length first = 8%nat /\ id = first ++ repeat 0 56 /\ Forall (fun b => 0 <= b < 256) first /\
    be_num first = match parameters with None => 0 | Some q => sp_id q mod 2 ^ 64 end.
(** The key that is to be made of it: usage as stated, all outputs, no time limit. *)
Definition made_of (parameters : option soc_parameters) (p : soc_payload) (t : Z * Z * Z * Z) (bytes : list Z) (k : stored_key) : Prop :=
  let '(t, size, subtype, curve) := t in let r := k_rights k in
  k_type k = t /\ k_size k = size /\ p_curve (k_params k) = curve /\ k_bytes k = bytes /\ caller_id parameters (r_id r) /\
  r_not_before r = 0 /\ r_not_on_or_after r = 2 ^ 64 - 1 /\
  (forall f, 0 <= f -> Z.testbit (r_usage r) f = if f <=? 5 then usage_table (y_usage p) t subtype f else f <=? 13) /\
  (forall f, 0 <= f -> Z.testbit (r_child_usage r) f = (y_usage p =? 2) && (f <=? 5) && usage_table (y_child p) t subtype f) /\
  (y_tas p = [] /\ r_tas r = (2 ^ 128 - 1) :: repeat 0 31 \/
   y_tas p <> [] /\ exists ts, Forall2 ta_named (y_tas p) ts /\ r_tas r = ts ++ repeat 0 (32 - List.length ts)).
(** Parameters of the caller that are not well-formed are refused. *)
Definition good_parameters (parameters : option soc_parameters) : Prop :=
  match parameters with None => True | Some q => sp_size q = 624 /\ (sp_version q = 2 \/ sp_version q = 3) end.

(** How the fields of the payload state all this. *)
Section Said.
Variables (J : jlib) (v : soc) (fs : list (list Z * json)).
Notation bio := (j_bio J).
(** The documented way. *)
Record says_plainly (p : soc_payload) : Prop := {
  sp_version_is : says fs "containerVersion" (JInt (y_version p));
  sp_root_is : y_version p < 5 \/ no_field fs (txt "rootKeyType") /\ y_root p = 0 \/
    says fs "rootKeyType" (JString (txt "unique")) /\ y_root p = 1 \/ says fs "rootKeyType" (JString (txt "common")) /\ y_root p = 2;
  sp_type_is : says fs "keyType" (JString (y_type p));
  sp_key_is : exists text, says fs "encryptedKey" (JString text) /\ padded_content bio text (y_key p);
  sp_iv_is : exists text, says fs "iv" (JString text) /\ padded_content bio text (y_iv p);
  sp_usage_is : says fs "keyUsage" (JInt (y_usage p));
  sp_child_is : y_usage p = 2 -> says fs "decryptedKeyUsage" (JInt (y_child p));
  sp_tas_is : no_field fs (txt "entitledTaIds") /\ y_tas p = [] \/ says fs "entitledTaIds" (JArray (List.map JString (y_tas p)));
  sp_c1_is : exists text, says fs "c1" (JString text) /\ padded_content bio text (y_c1 p);
  sp_c2_is : exists text, says fs "c2" (JString text) /\ url_content bio text (y_c2 p);
  sp_c3_is : exists text, says fs "c3" (JString text) /\ padded_content bio text (y_c3 p)
}.

(** What is taken for it.  A text that begins a name, up to the end of the name and beyond,
    counts as that name. *)
Definition taken_for (text : list Z) (name : string) : Prop := exists more, txt name ++ 0 :: v_behind v (txt name) = text ++ more.
(** Numbers are taken modulo 256; what is not a number counts as 0. *)
Definition says_byte (name : string) (n : Z) : Prop := exists j, says fs name j /\ n = number j mod 256.
(** Arrays keep what they held where the text is too short, or altogether if it is not base64. *)
Definition says_bytes (content : list Z -> list Z -> Prop) (old : list Z) (name : string) (b : list Z) : Prop :=
  exists j, says fs name j /\
    (b = old \/ exists text d, j = JString text /\ content text d /\ zlen d <= zlen old /\ b = d ++ skipn (List.length d) old).
Record says_somehow (p : soc_payload) : Prop := {
  sm_version : says_byte "containerVersion" (y_version p);
  sm_root : y_version p < 5 /\ y_root p = 0 \/
    5 <= y_version p /\
    (no_field fs (txt "rootKeyType") /\ y_root p = 0 \/
     (exists j, says fs "rootKeyType" j /\ (forall text, j <> JString text) /\ y_root p = 1) \/
     (exists text, says fs "rootKeyType" (JString text) /\
        (taken_for text "unique" /\ y_root p = 1 \/ taken_for text "common" /\ y_root p = 2)));
  sm_type : says fs "keyType" (JString (y_type p));
  sm_key : exists text, says fs "encryptedKey" (JString text) /\ some_content bio text (y_key p);
  sm_iv : says_bytes (some_content bio) (repeat 0 12) "iv" (y_iv p);
  sm_usage : says_byte "keyUsage" (y_usage p);
  sm_child : y_usage p = 2 -> no_field fs (txt "decryptedKeyUsage") /\ y_child p = 0 \/ says_byte "decryptedKeyUsage" (y_child p);
  sm_tas : no_field fs (txt "entitledTaIds") /\ y_tas p = [] \/ says fs "entitledTaIds" (JArray (List.map JString (y_tas p))) \/
    (exists j, says fs "entitledTaIds" j /\ (forall l, j <> JArray l) /\ y_tas p = []);
  sm_c1 : says_bytes (some_content bio) (v_c v 1) "c1" (y_c1 p);
  sm_c2 : says_bytes (url_content bio) (v_c v 2) "c2" (y_c2 p);
  sm_c3 : says_bytes (some_content bio) (v_c v 3) "c3" (y_c3 p)
}.
End Said.

(** The arrays and root keys have the lengths they are declared with. *)
Definition good_soc (v : soc) : Prop := good_surroundings (v_header v) /\ (forall i, zlen (v_c v i) = 16).
(** Nothing fails; the memory behind string constants can be read. *)
Definition soc_works (v : soc) : Prop := no_failure (v_header v) /\ v_ladder v = true /\ v_strict v = false.

(** Encryption that cannot be forged: what decrypts under a key of the device has been
    encrypted by the provisioner, who states [documented] things. *)
Definition unforgeable (J : jlib) (v : soc) (sealed : soc_payload -> Z * Z * Z * Z -> list Z -> Prop) : Prop :=
  (forall q t m, sealed q t m -> documented q t) /\
  (forall p key iv aad tag c m, device_key J v p key -> u_gcm (j_ulib J) key iv aad tag c = Some m ->
     exists q t, sealed q t m /\ iv = y_iv q /\ aad = aad_of q /\ c = y_key q).

(** GCM as it is: any beginning of the tag, down to one byte, can be checked. *)
Definition cuts_tags (U : ulib) : Prop := forall k iv aad c, exists tag m, List.length tag = 16%nat /\ Forall (fun b => 0 <= b < 256) tag /\ zlen m = zlen c /\
  forall n, (1 <= n <= 16)%nat -> u_gcm U k iv aad (firstn n tag) c = Some m.

(** Containers that do no harm: texts no longer than what they are compared with (or memory
    behind constants that can be read), base64 that is base64 and fits, a list of TAs that is one. *)
Definition comparable (v : soc) (text : list Z) (n : Z) : Prop := v_strict v = false \/ zlen text <= n.
Record soc_tidy (J : jlib) (v : soc) (fs : list (list Z * json)) : Prop := {
  ty_root : forall j, says fs "rootKeyType" j -> exists text, j = JString text /\ comparable v text 7;
  ty_type : forall text, says fs "keyType" (JString text) -> comparable v text 8 /\ zlen text <= 60;
  ty_key : forall j, says fs "encryptedKey" j -> exists text d, j = JString text /\ padded_content (j_bio J) text d;
  ty_iv : forall text, says fs "iv" (JString text) -> exists d, padded_content (j_bio J) text d /\ zlen d <= 12;
  ty_c1 : forall text, says fs "c1" (JString text) -> exists d, padded_content (j_bio J) text d /\ zlen d <= 16;
  ty_c2 : forall text, says fs "c2" (JString text) -> exists d, url_content (j_bio J) text d /\ zlen d <= 16;
  ty_c3 : forall text, says fs "c3" (JString text) -> exists d, padded_content (j_bio J) text d /\ zlen d <= 16;
  ty_tas : forall l, says fs "entitledTaIds" (JArray l) -> exists texts, l = List.map JString texts /\ (List.length texts <= 32)%nat
}.
(** A container that ends in failure [i] although nothing is amiss around it and although
    nothing at all is authentic: whoever made it needed no key. *)
Definition soc_harmful (P : jlib -> list (list Z * json) -> Prop) (strict : bool) (i : failure) : Prop :=
  exists J e v input header payload mac hs fs,
    good_jlib J /\ good_surroundings e /\ no_failure e /\ good_soc v /\ no_failure (v_header v) /\ v_ladder v = true /\ v_strict v = strict /\
    (forall k iv aad tag c, u_gcm (j_ulib J) k iv aad tag c = None) /\
    three_parts input header payload mac /\ states J header hs /\ says hs "alg" (JString (txt "A128GCM")) /\ states J payload fs /\ P J fs /\
    import_soc J e v input None = Failed i.
Definition long_iv (J : jlib) fs := exists text d, says fs "iv" (JString text) /\ padded_content (j_bio J) text d /\ 12 < zlen d.
Definition long_c1 (J : jlib) fs := exists text d, says fs "c1" (JString text) /\ padded_content (j_bio J) text d /\ 16 < zlen d.
Definition many_tas (J : jlib) fs := exists texts, says fs "entitledTaIds" (JArray (List.map JString texts)) /\ (32 < List.length texts)%nat.
Definition long_type (J : jlib) fs := exists text, says fs "keyType" (JString text) /\ 1300 < zlen text.
Definition bad_key (J : jlib) fs := exists text, says fs "encryptedKey" (JString text) /\ zlen text mod 4 = 0 /\ j_bio J text = None.
Definition all_documented (J : jlib) fs := exists p t, says_plainly J fs p /\ documented p t.
