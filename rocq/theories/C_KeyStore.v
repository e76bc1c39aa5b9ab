(** C13, C14 and C41: exported keys. *)
From Verif Require Import Base M_ObjectStore M_Memory M_Rights S_Bytes M_KeyStore S_KeyStore P_KeyStore.

(** C13.  Whenever a key has been stored and exported, the export has exactly the length
    reported and fits the room given; importing it, now or later, succeeds if no resource
    fails; and whatever import yields unwraps to a key with the same rights, type,
    parameters, size and bytes, and shows the same header. *)
Theorem C13_round_trip : forall d k rand wa w mixin room ua wa2 len blob,
  good_device d -> proper_key k -> vector_ok wa -> vector_ok wa2 -> mixin_ok mixin -> zlen (sk_bytes k) < 2 ^ 62 ->
  import_stored_key d k rand wa = (Made w, OK) ->
  export d w mixin (Some room) ua wa2 = Exported OK len (Some blob) ->
  len = Some (zlen blob) /\ zlen blob <= room /\ cacheable k = true /\
  (forall rand2 wa3 iv, wrapping_works wa3 iv ->
     exists w2, import_exported d blob unwrapping_works (Some rand2) wa3 = Some (Made w2, OK)) /\
  (forall ua2 rand2 wa3 w2, vector_ok wa3 -> import_exported d blob ua2 rand2 wa3 = Some (Made w2, OK) ->
     (exists k2, wrapped_key_unwrap d w2 unwrapping_works = Some k2) /\
     (forall ua3 k2, wrapped_key_unwrap d w2 ua3 = Some k2 -> key_of k2 = key_of k) /\
     get_header w2 = sk_header k).
Proof. exact round_trip. Qed.
Print Assumptions C13_round_trip.

(** C13.  Export of a cacheable key works: the length asked for beforehand is the length
    needed, that much room suffices and less is refused. *)
Theorem C13_export_works : forall d k rand wa w mixin room wa2 iv,
  good_device d -> proper_key k -> vector_ok wa -> wrapping_works wa2 iv ->
  match mixin with Some m => length m = 16%nat | None => True end ->
  import_stored_key d k rand wa = (Made w, OK) -> cacheable k = true ->
  exists n, export d w mixin None unwrapping_works wa2 = Exported OK (Some n) None /\
    (n <= room -> exists blob, export d w mixin (Some room) unwrapping_works wa2 = Exported OK (Some n) (Some blob)) /\
    (room < n -> export d w mixin (Some room) unwrapping_works wa2 = Exported INVALID_PARAMETER None None).
Proof. exact export_works. Qed.
Print Assumptions C13_export_works.

(** C13.  A key without the CACHEABLE flag is never exported, nor is its length told. *)
Theorem C13_only_cacheable : forall d k rand wa w mixin room ua wa2,
  vector_ok wa -> import_stored_key d k rand wa = (Made w, OK) -> cacheable k = false ->
  exists st, st <> OK /\ export d w mixin room ua wa2 = Exported st None None.
Proof. exact never_exported. Qed.
Print Assumptions C13_only_cacheable.

(** A device, an AES key with rights, a mixin: stored and exported. *)
Example C13_nontrivial :
  good_device toy_device /\ proper_key toy_key /\ cacheable toy_key = true /\
  r_not_on_or_after (k_rights (key_of toy_key)) = 2 ^ 64 - 1 /\ k_size (key_of toy_key) = 16 /\
  import_stored_key toy_device toy_key (Some toy_inputs) toy_wrap = (Made toy_stored, OK) /\
  export toy_device toy_stored (Some (repeat 8 16)) (Some 2000) unwrapping_works toy_wrap = Exported OK (Some 1776) (Some toy_blob).
Proof.
  split; [exact toy_good|]. split; [exact toy_proper|]. split; [vm_compute; reflexivity|]. split; [vm_compute; reflexivity|].
  split; [vm_compute; reflexivity|]. split; [exact toy_store_step|exact toy_export_step].
Qed.

(** C14.  Import of an exported key never reads outside the bytes offered. *)
Theorem C14_in_bounds : forall d exported ua rand wa, bytes_ok exported -> zlen exported < W64 ->
  import_exported d exported ua rand wa <> None.
Proof. exact import_in_bounds. Qed.
Print Assumptions C14_in_bounds.

(** C14.  If it succeeds, the bytes are authentic: the code they carry is that of the header,
    vector, length and ciphertext they carry, and the imported key is the one these
    describe. *)
Theorem C14_authentic : forall d exported ua rand wa w,
  good_device d -> bytes_ok exported -> zlen exported < 2 ^ 63 -> vector_ok wa ->
  import_exported d exported ua rand wa = Some (Made w, OK) ->
  exists K, authentic d exported K /\
    (exists k, wrapped_key_unwrap d w unwrapping_works = Some k) /\
    (forall ua2 k, wrapped_key_unwrap d w ua2 = Some k -> key_of k = K).
Proof. exact import_authentic. Qed.
Print Assumptions C14_authentic.

(** C14.  If no resource fails, exactly the authentic byte strings are accepted; and what
    they describe is determined. *)
Theorem C14_accepts_exactly : forall d exported rand wa iv,
  good_device d -> bytes_ok exported -> zlen exported < 2 ^ 63 -> wrapping_works wa iv ->
  (exists w, import_exported d exported unwrapping_works (Some rand) wa = Some (Made w, OK)) <->
  (exists K, authentic d exported K).
Proof. exact import_accepts_exactly. Qed.
Print Assumptions C14_accepts_exactly.
Theorem C14_determined : forall d exported K1 K2, authentic d exported K1 -> authentic d exported K2 -> K1 = K2.
Proof. exact authentic_unique. Qed.
Print Assumptions C14_determined.

(** An authentic export, and the same with one byte of ciphertext changed. *)
Example C14_nontrivial :
  authentic toy_device toy_blob (key_of toy_key) /\ zlen toy_blob = 1776 /\
  import_exported toy_device (update 1720 0 toy_blob) unwrapping_works (Some toy_inputs) toy_wrap =
    Some (NotMade, INVALID_KEY_FORMAT).
Proof. split; [exact toy_authentic|]. split; [vm_compute; reflexivity|exact toy_tampered]. Qed.

(** C41.  Exhausted memory crashes the implementation, whatever key is being stored: if the
    buffer for the padded key cannot be allocated, the clean-up clears it through the NULL
    pointer. *)
Theorem C41_exhausted_memory_refuted : forall d k di iv e h,
  validate_header_format (sk_header k) = true ->
  fst (import_stored_key d k (Some di) (MkWA true false iv e h)) = Crash.
Proof. exact exhausted_memory_crashes_any. Qed.
Print Assumptions C41_exhausted_memory_refuted.

(** C41.  No other failure crashes storing or exporting a key. *)
Theorem C41_storing_partial : forall d k rand wa, wa_pad wa = true -> fst (import_stored_key d k rand wa) <> Crash.
Proof. exact padding_needed_for_crash. Qed.
Print Assumptions C41_storing_partial.
Theorem C41_exporting_partial : forall d w mixin room ua wa, wa_pad wa = true -> export d w mixin room ua wa <> ExportCrash.
Proof. exact padding_needed_for_crash_export. Qed.
Print Assumptions C41_exporting_partial.
Example C41_nontrivial :
  validate_header_format (sk_header toy_key) = true /\
  fst (import_stored_key toy_device toy_key (Some toy_inputs) (MkWA true true None true true)) = NotMade.
Proof. split; vm_compute; reflexivity. Qed.
