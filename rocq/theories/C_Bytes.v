(** C26 (PKCS#7 padding) and C36 (UUID text). *)
From Verif Require Import Base M_Memory S_Bytes P_Bytes.

(** C26: a 16-byte block passes the check, with pad value [p], exactly when it ends
    in [p] bytes of value [p] and 1 <= p <= 16. *)
Theorem C26_check_exact : forall block p, length block = 16%nat ->
  (pad_check_pkcs7 block = (p, true) <-> pkcs7_block block p).
Proof. exact pad_check_iff. Qed.
Print Assumptions C26_check_exact.

Example C26_check_case :
  pad_check_pkcs7 [1;2;3;4;5;6;7;8;9;10;11;12;4;4;4;4] = (4, true) /\
  pad_check_pkcs7 [1;2;3;4;5;6;7;8;9;10;11;12;4;5;4;4] = (4, false) /\
  pad_check_pkcs7 (repeat 17 16) = (17, false) /\ pad_check_pkcs7 (repeat 16 16) = (16, true).
Proof. vm_compute. repeat split. Qed.

(** C26: for every message, checking the last block of the padded message succeeds
    and dropping the pad gives the message back. *)
Theorem C26_pad_then_strip : forall msg, exists p,
  pad_check_pkcs7 (last16 (pkcs7_pad msg)) = (p, true) /\
  firstn (length (pkcs7_pad msg) - Z.to_nat p) (pkcs7_pad msg) = msg.
Proof. exact pad_then_strip. Qed.
Print Assumptions C26_pad_then_strip.

(** C26: the code that pads a final partial block produces PKCS#7. *)
Theorem C26_apply_is_pkcs7 : forall msg rest,
  zlen msg < 16 -> length (msg ++ rest) = 16%nat ->
  pad_apply_pkcs7 (msg ++ rest) (16 - zlen msg) = Some (pkcs7_pad msg).
Proof. exact pad_apply_spec. Qed.
Print Assumptions C26_apply_is_pkcs7.

Example C26_apply_case :
  pad_apply_pkcs7 ([7;8;9] ++ repeat 0 13) 13 = Some ([7;8;9] ++ repeat 13 13).
Proof. vm_compute. reflexivity. Qed.

(** C26: padded sizes. *)
Theorem C26_padded_length : forall msg, zlen (pkcs7_pad msg) = PADDED_SIZE (zlen msg).
Proof. exact pkcs7_pad_length. Qed.
Print Assumptions C26_padded_length.
Theorem C26_padded_size_next : forall n, 0 <= n ->
  PADDED_SIZE n mod 16 = 0 /\ n < PADDED_SIZE n <= n + 16.
Proof. exact padded_size_next. Qed.
Print Assumptions C26_padded_size_next.

Example C26_size_case : PADDED_SIZE 0 = 16 /\ PADDED_SIZE 15 = 16 /\ PADDED_SIZE 16 = 32.
Proof. vm_compute. repeat split. Qed.

(** C36 is false: text that is no UUID is accepted, and for some of it four of the
    sixteen output bytes keep their previous, possibly uninitialised, value. *)
Theorem C36_output_left_undefined_refuted : exists id1 id2,
  length hyphen_pairs = 36%nat /\
  convert_uuid hyphen_pairs 36 (repeat 0 16) = ConvTrue id1 /\
  convert_uuid hyphen_pairs 36 (repeat 255 16) = ConvTrue id2 /\ id1 <> id2.
Proof. exact hyphen_pairs_accepted. Qed.
Print Assumptions C36_output_left_undefined_refuted.
Theorem C36_garbage_accepted_refuted :
  convert_uuid trailing_garbage 36 (repeat 0 16) = ConvTrue (repeat 170 16) /\
  forall id, ~ uuid_text trailing_garbage id.
Proof. exact trailing_garbage_accepted. Qed.
Print Assumptions C36_garbage_accepted_refuted.

(** C36, the part that holds: every UUID text is converted to the bytes it denotes.
    Missing for the full property: rejection of text with hyphens elsewhere. *)
Theorem C36_uuid_text_converted_partial : forall str id old,
  uuid_text str id -> length old = 16%nat -> convert_uuid str 36 old = ConvTrue id.
Proof. exact convert_complete. Qed.
Print Assumptions C36_uuid_text_converted_partial.

(** C36, the part that holds: among texts with hyphens exactly at the four standard
    places, only UUIDs are accepted, with the bytes they denote. *)
Theorem C36_hyphenated_text_sound_partial : forall str id old,
  length str = 36%nat -> length old = 16%nat ->
  (forall i, nth_error str i = Some 45 <-> In i [8; 13; 18; 23]%nat) ->
  convert_uuid str 36 old = ConvTrue id -> uuid_text str id.
Proof. exact convert_sound. Qed.
Print Assumptions C36_hyphenated_text_sound_partial.

Example C36_case :
  convert_uuid sample_uuid 36 (repeat 0 16) =
  ConvTrue [18;62;69;103;232;155;18;211;164;86;66;102;20;23;64;10].
Proof. exact sample_uuid_converts. Qed.

(** C36: no text makes the conversion read outside the text, and text of another
    length is refused. *)
Theorem C36_reads_in_bounds : forall str old, convert_uuid str (length str) old <> ConvOut.
Proof. exact convert_in_bounds. Qed.
Print Assumptions C36_reads_in_bounds.
Theorem C36_wrong_length_refused : forall str old, length str <> 36%nat ->
  convert_uuid str (length str) old = ConvFalse.
Proof. exact convert_wrong_length. Qed.
Print Assumptions C36_wrong_length_refused.

(** C11 (and C03): the byte comparison of two identities is zero exactly when they
    are the same, so identities may be treated as the numbers they spell. *)
Theorem C11_identity_comparison_exact : forall a b,
  length a = length b -> bytes_ok a -> bytes_ok b ->
  (memcmp_constant a b = 0 <-> a = b) /\
  (memcmp_constant a b = 0 <-> number_of 0 a = number_of 0 b).
Proof. exact memcmp_exact. Qed.
Print Assumptions C11_identity_comparison_exact.
Example C11_identity_case :
  memcmp_constant [1; 2; 3] [1; 2; 3] = 0 /\ memcmp_constant [1; 2; 3] [1; 6; 3] = 4.
Proof. vm_compute. repeat split. Qed.
