(** What a Type-J key container says, and what importing it is meant to do. *)
From Verif Require Import Base M_Rights M_Mac M_KeyStore M_Unwrap M_Json M_TypeJ S_Bytes S_Rights S_Mac S_Unwrap S_Json.

(** Base64 texts.  URL-safe ones come without padding; '-' and '_' stand for '+' and '/'. *)
Definition standard (c : Z) : Z := match c with 45 => 43 | 95 => 47 | _ => c end.
Definition url_content (bio : list Z -> option (list Z)) (l d : list Z) : Prop :=
  exists k, (k < 4)%nat /\ (zlen l + Z.of_nat k) mod 4 = 0 /\ bio (List.map standard l ++ repeat 61 k) = Some d.
(** Plain ones are padded already ... *)
Definition padded_content (bio : list Z -> option (list Z)) (l d : list Z) : Prop := zlen l mod 4 = 0 /\ bio l = Some d.
(** ... or up to three characters follow that the container does not have. *)
Definition some_content (bio : list Z -> option (list Z)) (l d : list Z) : Prop := exists more, (List.length more < 4)%nat /\ padded_content bio (l ++ more) d.
(** Four characters hold three bytes. *)
Definition good_bio (bio : list Z -> option (list Z)) : Prop := forall l d, bio l = Some d -> 4 * zlen d <= 3 * zlen l.

(** The value of a numeric field.  (A field of another type counts as 0.) *)
Definition number (j : json) : Z := match j with JInt z => z | _ => 0 end.

(** The output protection flags: 12 clear video path allowed, 11 DTCP, 10 HDCP 2.2, 9 HDCP 1.4,
    8 unprotected digital, 7 CGMS-A, 6 unprotected analogue; the content key rights are bytes
    1 secure video path required, 2 DTCP, 3 HDCP 1.4, 4 HDCP 2.2, 5 analogue, 8 CGMS-A required. *)
Definition has (b : Z) (l : list Z) : bool := existsb (Z.eqb b) l.
Definition output_allowed (bytes : list Z) (flag : Z) : bool :=
  match flag with
  | 12 => negb (has 1 bytes)
  | 11 => has 2 bytes
  | 10 => has 4 bytes
  | 9 => has 3 bytes
  | 7 => has 5 bytes
  | 6 => has 5 bytes && negb (has 8 bytes)
  | _ => false
  end.
Definition known_right (b : Z) : Prop := b = 0 \/ b = 1 \/ b = 2 \/ b = 3 \/ b = 4 \/ b = 5 \/ b = 8.

(** A time: 20 characters that can be read as one, not before 1970 (but see -1). *)
Definition stated_time (time : list Z -> option Z) (l : list Z) (t : Z) : Prop :=
  zlen l = 20 /\ exists s, time l = Some s /\ (0 <= s \/ s = -1) /\ t = s mod 2 ^ 64.

Section Stated.
Variable (J : jlib) (content : list Z -> list Z -> Prop) (fs : list (list Z * json)).
Definition says (name : string) (j : json) : Prop := first_field fs (txt name) j.

(** The 64 bytes of an identifier: the text up to its first NUL, then zeros. *)
Definition id_bytes (text id : list Z) : Prop :=
  List.length id = 64%nat /\ exists a b z, text = a ++ b /\ id = a ++ z /\ ~ In 0 a /\ Forall (eq 0) z /\ (b = [] \/ exists b', b = 0 :: b').

(** The TAs that may use the key: all, if none are listed. *)
Definition ta_named (text : list Z) (t : Z) : Prop :=
  zlen text = 36 /\ forall id, uuid_text text id -> t = le_num id.
Definition stated_tas (tas : list Z) : Prop :=
  (no_field fs (txt "entitledTaIds") /\ tas = (2 ^ 128 - 1) :: repeat 0 31) \/
  (exists texts ts, says "entitledTaIds" (JArray (List.map JString texts)) /\ (List.length texts <= 32)%nat /\
     Forall2 ta_named texts ts /\ tas = ts ++ repeat 0 (32 - List.length ts)) \/
  (exists j, says "entitledTaIds" j /\ (forall l, j <> JArray l) /\ tas = repeat 0 32).

(** The rights of the key. *)
Definition stated_rights (r : rights) : Prop :=
  (exists text, says "contentKeyId" (JString text) /\ zlen text <= 63 /\ id_bytes text (r_id r)) /\
  (exists text bytes, says "contentKeyRights" (JString text) /\ content text bytes /\ Forall known_right bytes /\
     forall f, 6 <= f <= 12 -> Z.testbit (r_usage r) f = output_allowed bytes f) /\
  (exists j, says "contentKeyUsage" j /\ 0 <= number j <= 3 /\
     forall f, 0 <= f <= 5 -> Z.testbit (r_usage r) f = usage_table (number j) 0 1 f) /\
  (exists text, says "contentKeyNotBefore" (JString text) /\ stated_time (j_time J) text (r_not_before r)) /\
  (exists text, says "contentKeyNotOnOrAfter" (JString text) /\ stated_time (j_time J) text (r_not_on_or_after r)) /\
  (exists j, says "contentKeyCacheable" j /\ (Z.testbit (r_usage r) 13 = true <-> j = JBool true)) /\
  (forall f, 14 <= f -> Z.testbit (r_usage r) f = false) /\
  r_child_usage r = 0 /\ stated_tas (r_tas r).

(** How the key was encrypted. *)
Definition stated_version (n : Z) : Prop :=
  (no_field fs (txt "contentKeyContainerVersion") /\ n = 1) \/ (exists j, says "contentKeyContainerVersion" j /\ n = number j).
Definition stated_transport (alg : ualg) : Prop :=
  (stated_version 1 /\ alg = UEcb false) \/
  ((stated_version 2 \/ stated_version 3) /\
   exists name, says "contentKeyTransportAlgorithm" (JString name) /\
     ((name = txt "aesEcbNone" /\ alg = UEcb false) \/ (name = txt "aesEcbPkcs5" /\ alg = UEcb true) \/
      exists text iv p, says "contentKeyTransportIv" (JString text) /\ content text iv /\ alg = UCbc p (Some (Bytes iv)) /\
        (name = txt "aesCbcNone" /\ p = false \/ name = txt "aesCbcPkcs5" /\ p = true))).
(** From version 2 on the length of the key is given, too. *)
Definition stated_length (n : Z) : Prop :=
  stated_version 1 \/ exists j, says "contentKeyLength" j /\ n = number j mod 2 ^ 64.
Definition stated_key (encrypted : list Z) : Prop := exists text, says "contentKey" (JString text) /\ content text encrypted.
End Stated.

(** A key that may sign at [now]. *)
Definition may_sign (w : stored_key) (now : Z) : Prop := has_flag (k_rights w) 5 /\ in_window (k_rights w) now.

(** A container: header, payload and MAC, separated by dots. *)
Definition three_parts (input header payload mac : list Z) : Prop :=
  input = header ++ [46] ++ payload ++ [46] ++ mac /\ ~ In 46 header /\ ~ In 46 payload.
(** It is genuine under the MAC key: HMAC-SHA-256 over header and payload as they stand. *)
Definition genuine (J : jlib) (header payload mac : list Z) (wmac : stored_key) : Prop :=
  url_content (j_bio J) mac (l_hmac (j_mac J) 1 (k_bytes wmac) (header ++ [46] ++ payload)).
Definition states (J : jlib) (payload : list Z) (fs : list (list Z * json)) : Prop :=
  exists doc, url_content (j_bio J) payload doc /\ j_yajl J doc = Some (events (JObject fs)).

(** The libraries keep their promises, a string is no longer than the document; memory is as long as asked for. *)
Definition good_jlib (J : jlib) : Prop :=
  good_bio (j_bio J) /\ good_yajl (j_yajl J) /\ good_lib (j_mac J) /\ good_ulib (j_ulib J) /\
  (forall l t, j_time J l = Some t -> - 2 ^ 63 <= t < 2 ^ 63) /\
  (forall l es s, j_yajl J l = Some es -> In (EString s) es -> zlen s <= zlen l).
Definition good_surroundings (e : surroundings) : Prop :=
  memory_granted (e_json e) /\ (forall n, match e_mem e n with Some m => zlen m = n | None => True end) /\
  (forall i, 4 <= List.length (e_junk e i))%nat /\ (forall i, 0 <= e_size e i).
(** Nothing fails. *)
Definition no_failure (e : surroundings) : Prop :=
  (forall i, e_alloc e i = true) /\ (forall i, e_b64 e i = true) /\ e_parser e = true /\ e_answer e = true /\ e_hmac e = true /\
  (forall n, 0 <= n -> e_mem e n <> None).

(** A container with the contents [fs] that is imported although nothing is amiss around it. *)
Definition accepted J e input wmac wenc now fs k : Prop :=
  good_jlib J /\ good_surroundings e /\ no_failure e /\ honest (j_ulib J) wenc /\
  (exists header payload mac, three_parts input header payload mac /\ genuine J header payload mac wmac /\ states J payload fs) /\
  import_typej J e input wmac wenc now = Made k.
(** The same surroundings but for what was left in memory. *)
Definition same_but_junk (e e' : surroundings) : Prop :=
  e_alloc e = e_alloc e' /\ e_b64 e = e_b64 e' /\ e_parser e = e_parser e' /\ e_json e = e_json e' /\ e_size e = e_size e' /\
  e_mem e = e_mem e' /\ e_answer e = e_answer e' /\ e_hmac e = e_hmac e'.

(** All texts that have to be base64 are, and the fields have the types they should have. *)
Definition known_tas (fs : list (list Z * json)) : Prop :=
  no_field fs (txt "entitledTaIds") \/
  exists texts, says fs "entitledTaIds" (JArray (List.map JString texts)) /\ (List.length texts <= 32)%nat /\ Forall (fun s => zlen s = 36) texts.
Record tidy (J : jlib) (header payload mac : list Z) : Prop := {
  tidy_header : exists d, url_content (j_bio J) header d;
  tidy_payload : exists d, url_content (j_bio J) payload d;
  tidy_mac : exists d, url_content (j_bio J) mac d;
  tidy_fields : forall fs, states J payload fs ->
    (forall text, says fs "contentKey" (JString text) -> exists d, padded_content (j_bio J) text d /\ d <> []) /\
    (forall text, says fs "contentKeyTransportIv" (JString text) -> exists d, padded_content (j_bio J) text d /\ zlen d = 16) /\
    (forall j, says fs "entitledTaIds" j -> exists texts, j = JArray (List.map JString texts))
}.
(** A failure that is only reported. *)
Definition harmless (s : failure) : Prop := match s with Refused _ => True | _ => False end.
(** A genuine container ends in failure [i] although nothing is amiss around it. *)
Definition harmful (i : failure) : Prop := exists J e input wmac wenc now header payload mac fs,
  good_jlib J /\ good_surroundings e /\ no_failure e /\ honest (j_ulib J) wenc /\
  three_parts input header payload mac /\ genuine J header payload mac wmac /\ states J payload fs /\ import_typej J e input wmac wenc now = Failed i.
(** The same where everything that is decoded is well-formed base64, but the initialisation
    vector is not 16 bytes long. *)
Definition harmful_iv (i : failure) : Prop := exists J e input wmac wenc now header payload mac fs text iv,
  good_jlib J /\ good_surroundings e /\ no_failure e /\ honest (j_ulib J) wenc /\
  three_parts input header payload mac /\ genuine J header payload mac wmac /\ states J payload fs /\
  (forall key, says fs "contentKey" (JString key) -> exists d, padded_content (j_bio J) key d) /\
  says fs "contentKeyTransportIv" (JString text) /\ padded_content (j_bio J) text iv /\ zlen iv <> 16 /\
  import_typej J e input wmac wenc now = Failed i.
