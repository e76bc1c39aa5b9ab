(** Properties C57 (messages through the OpenSSL provider's ciphers), C58 (authenticated ones),
    C59 (contexts that are used again) and C60 (the keys of contexts). *)
From Verif Require Import Base S_Bytes M_Mac M_Unwrap P_Unwrap M_Cipher S_Cipher P_Cipher P_Cipher2 M_Provider S_Provider P_Provider P_Provider2 P_Provider3 P_Provider4 P_Provider5.

(** ** C57 *)

(** An update with the room that the manual asks for succeeds. *)
Theorem C57_accepts : forall L ks p a encrypt key aad p1 ds p2 outs d out, good_clib L -> k_ahead L = false -> ready ks p a encrypt key -> p_rem p = [] ->
  aad_short aad -> begins L ks p aad p1 -> Forall (fun d => zlen d < 2 ^ 31) ds -> updates L ks p1 ds p2 outs ->
  zlen d < 2 ^ 31 -> zlen out = update_room a (zlen d) ->
  exists p3 out3 n, update L ks p2 out d = Done true p3 out3 (Some n) /\ length out3 = length out /\ 0 <= n <= zlen out.
Proof. exact provider_accepts. Qed.
Print Assumptions C57_accepts.
Example C57_accepts_case : good_clib (toy_lib false) /\
  init toy_keys (newctx CBC7 16) None true (Some (repeat 1 16)) own_key true = (true, toy_keys, toy_p CBC7 true) /\
  ready toy_keys (toy_p CBC7 true) CBC7 true toy_key /\
  exists p2 outs, updates (toy_lib false) toy_keys (toy_p CBC7 true) [repeat 2 5; repeat 3 20; []] p2 outs /\ length outs = 16%nat /\ p_rem p2 = repeat 3 9.
Proof.
  split; [apply toy_good|]. split; [reflexivity|]. split; [apply toy_ready; discriminate|]. do 2 eexists. split.
  - eapply updates_cons with (out := repeat 0 21); [reflexivity|vm_compute; reflexivity|].
    eapply updates_cons with (out := repeat 0 36); [reflexivity|vm_compute; reflexivity|].
    eapply updates_cons with (out := repeat 0 16); [reflexivity|vm_compute; reflexivity|]. apply updates_nil.
  - split; vm_compute; reflexivity.
Qed.

(** Encryption: the output of the updates and of the final call is the encryption of the
    message, provided that no piece leaves a block incomplete that the piece before it had left
    incomplete, too. *)
Theorem C57_encrypts_partial : forall L ks p a key aad p1 ds p2 outs out, good_clib L -> k_ahead L = false -> ready ks p a true key -> p_rem p = [] ->
  aad_short aad -> begins L ks p aad p1 -> Forall (fun d => zlen d < 2 ^ 31) ds -> updates L ks p1 ds p2 outs ->
  (is_block a = true -> completes 0 ds) -> zlen out = final_room a ->
  let msg := concat ds in
  if complete a msg
  then exists p3 out3 n, final L ks p2 (Some out) = Done true p3 out3 (Some n) /\ length out3 = length out /\
         let text := outs ++ firstn (Z.to_nat n) out3 in
         encryption L a key (vector p) msg text /\
         (is_aead a = true -> p_tag p3 = tag_of L a key (vector p) (associated a aad) text 16)
  else exists p3, final L ks p2 (Some out) = Done false p3 out (Some 0).
Proof. exact provider_encrypts. Qed.
Print Assumptions C57_encrypts_partial.
Example C57_encrypts_case : completes 0 [repeat 2 5; repeat 3 20; []; repeat 4 7] /\ ~ completes 0 [repeat 2 5; repeat 3 5].
Proof.
  split.
  - split; [left; reflexivity|]. split; [right; right; vm_compute; discriminate|]. split; [right; left; reflexivity|].
    split; [right; right; vm_compute; discriminate|exact I].
  - intros (_ & [H|[H|H] ] & _); [discriminate H|discriminate H|vm_compute in H; now apply H].
Qed.

(** Decryption succeeds exactly for what is an encryption and, if it is authenticated, has the
    tag; then the output is the message. *)
Theorem C57_decrypts_partial : forall L ks p a key aad p1 ds p2 outs out, good_clib L -> k_ahead L = false -> ready ks p a false key -> p_rem p = [] ->
  aad_short aad -> begins L ks p aad p1 -> Forall (fun d => zlen d < 2 ^ 31) ds -> updates L ks p1 ds p2 outs ->
  (is_block a = true -> completes 0 ds) -> zlen out = final_room a ->
  let text := concat ds in
  exists b p3 out3 n, final L ks p2 (Some out) = Done b p3 out3 (Some n) /\ length out3 = length out /\
    (b = true <-> (exists msg, decryption L a key (vector p) text msg) /\
       (is_aead a = true -> p_tag p = tag_of L a key (vector p) (associated a aad) text 16)) /\
    (b = true -> decryption L a key (vector p) text (outs ++ firstn (Z.to_nat n) out3)).
Proof. exact provider_decrypts. Qed.
Print Assumptions C57_decrypts_partial.
Example C57_decrypts_case : exists p2 outs p3 out3, ready toy_keys (toy_p ECB7 false) ECB7 false toy_key /\
  updates (toy_lib false) toy_keys (toy_p ECB7 false) [rev (repeat 2 16); rev ([1; 2; 3] ++ repeat 13 13)] p2 outs /\
  final (toy_lib false) toy_keys p2 (Some (repeat 0 16)) = Done true p3 out3 (Some 3) /\ outs ++ firstn 3 out3 = repeat 2 16 ++ [1; 2; 3].
Proof.
  do 4 eexists. split; [apply toy_ready; discriminate|]. split.
  - eapply updates_cons with (out := repeat 0 32); [reflexivity|vm_compute; reflexivity|].
    eapply updates_cons with (out := repeat 0 32); [reflexivity|vm_compute; reflexivity|]. apply updates_nil.
  - split; vm_compute; reflexivity.
Qed.

(** What one context has encrypted another one decrypts. *)
Theorem C57_round_trip_partial : forall L ks p q a key aad p1 ds p2 outs out p3 out3 n q1 es q2 outs2 out4, good_clib L -> k_ahead L = false ->
  ready ks p a true key -> p_rem p = [] -> aad_short aad -> begins L ks p aad p1 -> Forall (fun d => zlen d < 2 ^ 31) ds ->
  updates L ks p1 ds p2 outs -> (is_block a = true -> completes 0 ds) -> zlen out = final_room a ->
  final L ks p2 (Some out) = Done true p3 out3 (Some n) ->
  bytes_ok (concat ds) -> bytes_ok (vector p) ->
  ready ks q a false key -> p_rem q = [] -> vector q = vector p -> (is_aead a = true -> p_tag q = p_tag p3) ->
  begins L ks q aad q1 -> Forall (fun d => zlen d < 2 ^ 31) es -> updates L ks q1 es q2 outs2 -> (is_block a = true -> completes 0 es) ->
  zlen out4 = final_room a -> concat es = outs ++ firstn (Z.to_nat n) out3 ->
  exists q3 out5 m, final L ks q2 (Some out4) = Done true q3 out5 (Some m) /\ outs2 ++ firstn (Z.to_nat m) out5 = concat ds.
Proof. exact provider_round_trip. Qed.
Print Assumptions C57_round_trip_partial.
Example C57_round_trip_case : exists p2 outs p3 out3 q2 outs2 q3 out5,
  updates (toy_lib false) toy_keys (toy_p CBC7 true) [repeat 2 5; repeat 3 20] p2 outs /\
  final (toy_lib false) toy_keys p2 (Some (repeat 0 16)) = Done true p3 out3 (Some 16) /\
  updates (toy_lib false) toy_keys (toy_p CBC7 false) [firstn 3 (outs ++ out3); skipn 3 (outs ++ out3)] q2 outs2 /\
  final (toy_lib false) toy_keys q2 (Some (repeat 0 16)) = Done true q3 out5 (Some 9) /\ outs2 ++ firstn 9 out5 = repeat 2 5 ++ repeat 3 20.
Proof.
  do 8 eexists. split.
  { eapply updates_cons with (out := repeat 0 21); [reflexivity|vm_compute; reflexivity|].
    eapply updates_cons with (out := repeat 0 36); [reflexivity|vm_compute; reflexivity|]. apply updates_nil. }
  split; [vm_compute; reflexivity|]. split.
  { eapply updates_cons with (out := repeat 0 19); [reflexivity|vm_compute; reflexivity|].
    eapply updates_cons with (out := repeat 0 45); [reflexivity|vm_compute; reflexivity|]. apply updates_nil. }
  split; vm_compute; reflexivity.
Qed.

(** Without that proviso the message is not what has been given: of two pieces that together do
    not fill a block, the first is lost, and no call reports it. *)
Theorem C57_lost : forall L ks p a key x y p2 outs out, good_clib L -> k_ahead L = false -> ready ks p a true key -> p_rem p = [] ->
  is_padded a = true -> x <> [] -> y <> [] -> zlen x + zlen y < 16 -> updates L ks p [x; y] p2 outs -> zlen out = final_room a ->
  exists p3 out3 n, final L ks p2 (Some out) = Done true p3 out3 (Some n) /\
    let text := outs ++ firstn (Z.to_nat n) out3 in
    encryption L a key (vector p) y text /\
    (bytes_ok x -> bytes_ok y -> bytes_ok (p_iv p) -> ~ encryption L a key (vector p) (x ++ y) text).
Proof. exact provider_lost. Qed.
Print Assumptions C57_lost.
Theorem C57_lost_refuted : exists L ks p p2 outs p3 out3 n, good_clib L /\ k_ahead L = false /\
  init ks (newctx CBC7 16) None true (Some (repeat 1 16)) own_key true = (true, ks, p) /\
  updates L ks p [repeat 2 5; repeat 3 5] p2 outs /\ final L ks p2 (Some (repeat 0 16)) = Done true p3 out3 (Some n) /\
  ~ encryption L CBC7 toy_key (vector p) (repeat 2 5 ++ repeat 3 5) (outs ++ firstn (Z.to_nat n) out3).
Proof. exact toy_lost. Qed.
Print Assumptions C57_lost_refuted.

(** An update that fails below is reported, if no bytes were waiting; otherwise not always. *)
Theorem C57_failure_partial : forall L ks p out d v pf lf p2 out2 n h c, p_key p = Some h -> p_cipher p = Some c -> p_rem p = [] ->
  cipher_cipher L ks p (Some out) (Some d) false (Some v :: pf) lf = Done true p2 out2 (Some n) -> zlen d < block_size (p_alg p).
Proof. exact provider_failure. Qed.
Print Assumptions C57_failure_partial.
Example C57_failure_case : exists p1 out1, cipher_cipher (toy_lib false) toy_keys (set_cipher (toy_p CBC7 true) (Some (toy_ctx CBC7 true (repeat 1 16))))
  (Some (repeat 0 32)) (Some (repeat 2 16)) false [Some (fresh (repeat 1 16) [])] no_faults = Done false p1 out1 (Some 0).
Proof. do 2 eexists. vm_compute. reflexivity. Qed.
Theorem C57_failure_refuted : exists L ks p p1 out1 n1 v p2 out2, good_clib L /\ k_ahead L = false /\
  init ks (newctx CBC7 16) None true (Some (repeat 1 16)) own_key true = (true, ks, p) /\
  update L ks p (repeat 0 21) (repeat 2 5) = Done true p1 out1 n1 /\
  cipher_cipher L ks p1 (Some (repeat 0 48)) (Some (repeat 3 32)) false [Some v] no_faults = Done true p2 out2 (Some 32) /\
  skipn 16 out2 = repeat 0 32.
Proof. exact toy_failure. Qed.
Print Assumptions C57_failure_refuted.

(** ** C58 *)

(** The tag of an authenticated encryption. *)
Theorem C58_seals_partial : forall L ks p a key aad p1 ds p2 outs, good_clib L -> k_ahead L = false -> ready ks p a true key -> p_rem p = [] ->
  aad_short aad -> begins L ks p aad p1 -> Forall (fun d => zlen d < 2 ^ 31) ds -> updates L ks p1 ds p2 outs -> is_aead a = true ->
  exists p3 n, final L ks p2 (Some []) = Done true p3 [] (Some n) /\ encryption L a key (vector p) (concat ds) outs /\
    p_tag p3 = tag_of L a key (vector p) (associated a aad) outs 16.
Proof. exact provider_seals. Qed.
Print Assumptions C58_seals_partial.
Example C58_seals_case : exists p1 p2 outs p3, ready toy_keys (toy_p GCM true) GCM true toy_key /\
  begins (toy_lib false) toy_keys (toy_p GCM true) (Some [4; 5]) p1 /\ updates (toy_lib false) toy_keys p1 [[8; 9]; [1]] p2 outs /\
  final (toy_lib false) toy_keys p2 (Some []) = Done true p3 [] (Some 0) /\ p_tag p3 = outs ++ [4; 5] ++ repeat 1 11.
Proof.
  do 4 eexists. split; [apply toy_ready; discriminate|]. split; [eapply begins_aad; vm_compute; reflexivity|]. split.
  { eapply updates_cons with (out := repeat 0 2); [reflexivity|vm_compute; reflexivity|].
    eapply updates_cons with (out := repeat 0 1); [reflexivity|vm_compute; reflexivity|]. apply updates_nil. }
  split; vm_compute; reflexivity.
Qed.

(** An authenticated decryption succeeds exactly if the tag is that of the text and the
    associated data. *)
Theorem C58_opens_partial : forall L ks p a key aad p1 ds p2 outs, good_clib L -> k_ahead L = false -> ready ks p a false key -> p_rem p = [] ->
  aad_short aad -> begins L ks p aad p1 -> Forall (fun d => zlen d < 2 ^ 31) ds -> updates L ks p1 ds p2 outs -> is_aead a = true ->
  exists b p3 n, final L ks p2 (Some []) = Done b p3 [] (Some n) /\
    (b = true <-> p_tag p = tag_of L a key (vector p) (associated a aad) (concat ds) 16).
Proof. exact provider_opens. Qed.
Print Assumptions C58_opens_partial.
Example C58_opens_case : exists p p2 outs p3,
  init toy_keys (newctx GCM 16) None true (Some (repeat 1 12)) (MkParams None (Some ([8; 9] ++ repeat 1 14)) (Some 5) None) false = (true, toy_keys, p) /\
  updates (toy_lib false) toy_keys p [[8; 9]] p2 outs /\ final (toy_lib false) toy_keys p2 (Some []) = Done true p3 [] (Some 0).
Proof.
  do 4 eexists. split; [vm_compute; reflexivity|].
  split; [eapply updates_cons with (out := repeat 0 2); [reflexivity|vm_compute; reflexivity|apply updates_nil]|].
  vm_compute. reflexivity.
Qed.

(** Only the first call with associated data counts; further ones succeed and change nothing. *)
Theorem C58_more_aad_ignored : forall L ks p a encrypt key d1 p1 d2 n, ready ks p a encrypt key -> aad_short (Some d1) ->
  update_aad L ks p d1 = Done true p1 [] n -> update_aad L ks p1 d2 = Done true p1 [] (Some 0).
Proof. exact provider_aad_ignored. Qed.
Print Assumptions C58_more_aad_ignored.
Theorem C58_more_aad_refuted : exists L ks p p1 p2 p3 outs p4 n, good_clib L /\ k_ahead L = false /\
  init ks (newctx GCM 16) None true (Some (repeat 1 12)) own_key true = (true, ks, p) /\
  update_aad L ks p [4; 5] = Done true p1 [] (Some 0) /\ update_aad L ks p1 [6] = Done true p2 [] (Some 0) /\
  updates L ks p2 [[8; 9]] p3 outs /\ final L ks p3 (Some []) = Done true p4 [] n /\
  p_tag p4 <> tag_of L GCM toy_key (repeat 1 12) [4; 5; 6] outs 16.
Proof. exact toy_aad. Qed.
Print Assumptions C58_more_aad_refuted.

(** A final call without an output buffer succeeds whatever the tag is. *)
Theorem C58_null_final : forall L ks p a encrypt key aad p1 ds p2 outs, good_clib L -> k_ahead L = false -> ready ks p a encrypt key -> p_rem p = [] ->
  aad_short aad -> begins L ks p aad p1 -> Forall (fun d => zlen d < 2 ^ 31) ds -> updates L ks p1 ds p2 outs ->
  exists p3, final L ks p2 None = Done true p3 [] (Some 0).
Proof. exact provider_null_final. Qed.
Print Assumptions C58_null_final.
Theorem C58_null_final_refuted : exists L ks p p1 outs p2, good_clib L /\ k_ahead L = false /\
  init ks (newctx GCM 16) None true (Some (repeat 1 12)) (MkParams None (Some (repeat 9 16)) (Some 5) None) false = (true, ks, p) /\
  updates L ks p [[8; 9]] p1 outs /\ final L ks p1 None = Done true p2 [] (Some 0) /\
  p_tag p <> tag_of L GCM toy_key (repeat 1 12) [] [8; 9] 16.
Proof. exact toy_null_final. Qed.
Print Assumptions C58_null_final_refuted.

(** A right tag of fewer than sixteen bytes is refused. *)
Theorem C58_short_tag_refuted : exists L ks p p1 outs p2, good_clib L /\ k_ahead L = false /\
  init ks (newctx GCM 16) None true (Some (repeat 1 12))
    (MkParams None (Some (tag_of L GCM toy_key (repeat 1 12) [] [8; 9] 12)) (Some 5) None) false = (true, ks, p) /\
  updates L ks p [[8; 9]] p1 outs /\ final L ks p1 (Some []) = Done false p2 [] (Some 0).
Proof. exact toy_short_tag. Qed.
Print Assumptions C58_short_tag_refuted.

(** ** C59 *)

(** Initialising a context again makes it ready for a new message with the new vector and the
    key it has; the bytes that wait are those of before. *)
Theorem C59_ready_partial : forall ks p a key iv encrypt, has_key ks p a key -> length iv = vector_length a ->
  exists p2, init ks p None true (Some iv) no_params encrypt = (true, ks, p2) /\ ready ks p2 a encrypt key /\
    vector p2 = new_vector a iv /\ p_rem p2 = p_rem p /\ p_tag p2 = p_tag p.
Proof. exact reinit_ready. Qed.
Print Assumptions C59_ready_partial.
Example C59_ready_case : exists p1 outs p2 out2, updates (toy_lib false) toy_keys (toy_p CBC true) [repeat 2 16] p1 outs /\
  final (toy_lib false) toy_keys p1 (Some (repeat 0 16)) = Done true p2 out2 (Some 0) /\ has_key toy_keys p2 CBC toy_key /\ p_rem p2 = [].
Proof.
  do 4 eexists. split; [eapply updates_cons with (out := repeat 0 32); [reflexivity|vm_compute; reflexivity|apply updates_nil]|].
  split; [vm_compute; reflexivity|]. split; [|reflexivity]. split; [reflexivity|]. split; [reflexivity|]. split; [reflexivity|].
  split; [left; reflexivity|]. exists 5. split; reflexivity.
Qed.
(** The cipher of a context is the one it was made for; of a block mode, the form with padding if
    the last call that spoke of padding asked for it, the one without if that call refused it. *)
Theorem C57_padding_as_asked : forall L ks a n us ks1 p1 o b ks2 p2 vs ks3 p3, uses L ks (newctx a n) us ks1 p1 -> o_padding o = Some b ->
  (set_ctx_params ks1 p1 o = (true, ks2, p2) \/ exists key header iv e, init ks1 p1 key header iv o e = (true, ks2, p2)) ->
  uses L ks2 p2 vs ks3 p3 -> Forall no_padding vs -> p_alg p3 = if b then padded a else unpadded a.
Proof. exact padding_as_asked. Qed.
Print Assumptions C57_padding_as_asked.
Theorem C57_padding_never_asked : forall L ks a n us ks1 p1, uses L ks (newctx a n) us ks1 p1 -> Forall no_padding us -> p_alg p1 = a.
Proof. exact padding_never_asked. Qed.
Print Assumptions C57_padding_never_asked.
Example C57_padding_case : exists ks1 p1 ks2 p2 ks3 p3, uses (toy_lib false) toy_keys (newctx CBC7 16)
    [Init None true (Some (repeat 1 16)) own_key true; Cipher (Some (repeat 0 21)) (Some (repeat 2 5)) false [] no_faults] ks1 p1 /\
  set_ctx_params ks1 p1 (MkParams (Some false) None None None) = (true, ks2, p2) /\
  uses (toy_lib false) ks2 p2 [Init None true (Some (repeat 3 16)) no_params true] ks3 p3 /\
  p_alg p1 = CBC7 /\ p_alg p3 = CBC.
Proof.
  do 6 eexists. split.
  - eapply uses_cons; [split; [exact I|eexists; vm_compute; reflexivity]|].
    eapply uses_cons; [split; [reflexivity|do 3 eexists; vm_compute; reflexivity]|apply uses_nil].
  - split; [vm_compute; reflexivity|]. split.
    + eapply uses_cons; [split; [exact I|eexists; vm_compute; reflexivity]|apply uses_nil].
    + split; reflexivity.
Qed.

(** None wait in a context of a stream cipher, whatever has been done with it. *)
Theorem C59_stream_ciphers : forall L ks a n us ks2 p2, is_block a = false -> uses L ks (newctx a n) us ks2 p2 -> p_rem p2 = [].
Proof. exact stream_new. Qed.
Print Assumptions C59_stream_ciphers.
Example C59_stream_ciphers_case : exists ks2 p2, uses (toy_lib false) toy_keys (newctx CTR 16)
  [Init None true (Some (repeat 1 16)) own_key true; Cipher (Some (repeat 0 5)) (Some (repeat 2 5)) false [] no_faults] ks2 p2 /\ p_cipher p2 <> None.
Proof.
  do 2 eexists. split.
  - eapply uses_cons; [split; [exact I|eexists; vm_compute; reflexivity]|].
    eapply uses_cons; [split; [reflexivity|do 3 eexists; vm_compute; reflexivity]|apply uses_nil].
  - cbn. discriminate.
Qed.
(** What waits comes before the next message. *)
Theorem C59_leftover : forall L ks p a key r ds p2 outs out, good_clib L -> k_ahead L = false -> ready ks p a true key -> p_rem p = r ->
  is_padded a = true -> r <> [] -> zlen r < 16 -> Forall (fun d => zlen d < 2 ^ 31) ds -> completes (zlen r) ds ->
  updates L ks p ds p2 outs -> zlen out = final_room a ->
  exists p3 out3 n, final L ks p2 (Some out) = Done true p3 out3 (Some n) /\
    let text := outs ++ firstn (Z.to_nat n) out3 in
    encryption L a key (vector p) (r ++ concat ds) text /\
    (bytes_ok r -> bytes_ok (concat ds) -> bytes_ok (p_iv p) -> ~ encryption L a key (vector p) (concat ds) text).
Proof. exact leftover_prepended. Qed.
Print Assumptions C59_leftover.
(** That is so even if the message before has been completed. *)
Theorem C59_leftover_refuted : exists L ks p p1 outs1 p2 out2 n2 p3 p4 outs4 p5 out5 n5, good_clib L /\ k_ahead L = false /\
  init ks (newctx CBC7 16) None true (Some (repeat 1 16)) own_key true = (true, ks, p) /\
  updates L ks p [repeat 2 5] p1 outs1 /\ final L ks p1 (Some (repeat 0 16)) = Done true p2 out2 (Some n2) /\
  init ks p2 None true (Some (repeat 1 16)) no_params true = (true, ks, p3) /\
  updates L ks p3 [repeat 3 16] p4 outs4 /\ final L ks p4 (Some (repeat 0 16)) = Done true p5 out5 (Some n5) /\
  ~ encryption L CBC7 toy_key (repeat 1 16) (repeat 3 16) (outs4 ++ firstn (Z.to_nat n5) out5).
Proof. exact toy_reuse. Qed.
Print Assumptions C59_leftover_refuted.

(** ** C60 *)

(** Keys that a context has never been given remain what they are. *)
Theorem C60_others : forall L ks p us ks2 p2 h k, uses L ks p us ks2 p2 -> lookup ks h = Some k -> p_key p <> Some h ->
  Forall (fun u => ~ gives u h) us -> lookup ks2 h = Some k /\ lookup (freectx ks2 p2) h = Some k.
Proof. exact provider_others. Qed.
Print Assumptions C60_others.
Example C60_others_case : exists ks2 p2, uses (toy_lib false) toy_keys (newctx CTR 16)
  [Init (Some (repeat 8 16, Some 7)) true (Some (repeat 1 16)) no_params true; Cipher (Some (repeat 0 5)) (Some (repeat 2 5)) false [] no_faults] ks2 p2 /\
  lookup ks2 7 = Some (repeat 8 16) /\ lookup (freectx ks2 p2) 7 = None.
Proof.
  do 2 eexists. split.
  - eapply uses_cons; [split; [reflexivity|eexists; vm_compute; reflexivity]|].
    eapply uses_cons; [split; [reflexivity|do 3 eexists; vm_compute; reflexivity]|apply uses_nil].
  - split; vm_compute; reflexivity.
Qed.
(** A key that the application has given a new context and not given away is still there when
    the context is freed, if the context has got no other key. *)
Theorem C60_kept_partial : forall L ks a n iv o e ks1 p1 us ks2 p2 h k, o_key o = Some h -> o_delete o <> Some true -> lookup ks h = Some k ->
  init ks (newctx a n) None true iv o e = (true, ks1, p1) -> uses L ks1 p1 us ks2 p2 -> Forall same_key us ->
  ks1 = ks /\ ks2 = ks /\ freectx ks2 p2 = ks.
Proof. exact provider_kept. Qed.
Print Assumptions C60_kept_partial.
Example C60_kept_case : exists ks2 p2, uses (toy_lib false) toy_keys (toy_p CTR true)
  [Cipher (Some (repeat 0 5)) (Some (repeat 2 5)) false [] no_faults; Init None true (Some (repeat 2 16)) no_params false] ks2 p2 /\
  init toy_keys (newctx CTR 16) None true (Some (repeat 1 16)) own_key true = (true, toy_keys, toy_p CTR true).
Proof.
  do 2 eexists. split; [|reflexivity].
  eapply uses_cons; [split; [reflexivity|do 3 eexists; vm_compute; reflexivity]|].
  eapply uses_cons; [split; [exact I|eexists; vm_compute; reflexivity]|apply uses_nil].
Qed.
(** A key that a new context has imported is gone with it, and all other keys are as before. *)
Theorem C60_released_partial : forall L ks a n k h iv e ks1 p1 us ks2 p2, lookup ks h = None ->
  init ks (newctx a n) (Some (k, Some h)) true iv no_params e = (true, ks1, p1) -> uses L ks1 p1 us ks2 p2 -> Forall same_key us ->
  lookup ks2 h = Some k /\ forall h2, lookup (freectx ks2 p2) h2 = lookup ks h2.
Proof. exact provider_released. Qed.
Print Assumptions C60_released_partial.
Example C60_released_case : exists ks1 p1, init toy_keys (newctx CTR 16) (Some (repeat 8 16, Some 7)) true (Some (repeat 1 16)) no_params true = (true, ks1, p1) /\
  lookup ks1 7 = Some (repeat 8 16) /\ lookup toy_keys 7 = None /\ lookup (freectx ks1 p1) 5 = Some toy_key.
Proof. do 2 eexists. split; [vm_compute; reflexivity|]. split; [vm_compute; reflexivity|]. split; vm_compute; reflexivity. Qed.
(** A key set once more is released, and the context fails from then on. *)
Theorem C60_same_key_lost : forall L ks p h k, p_key p = Some h -> lookup ks h = Some k -> zlen k = p_ksize p ->
  exists ks2 p2, set_ctx_params ks p (MkParams None None (Some h) None) = (true, ks2, p2) /\ lookup ks2 h = None /\ p_key p2 = Some h /\
    (p_cipher p = None -> forall out inp refused pf lf, exists p3 o n, cipher_cipher L ks2 p2 out inp refused pf lf = Done false p3 o n).
Proof. exact provider_same_key_lost. Qed.
Print Assumptions C60_same_key_lost.
(** So a key that the application has not given away can be gone: *)
Theorem C60_twice_refuted : exists ks p ks2 p2, lookup ks 5 = Some toy_key /\
  init ks (newctx CBC 16) None true (Some (repeat 1 16)) own_key true = (true, ks, p) /\
  init ks p None true (Some (repeat 2 16)) own_key true = (true, ks2, p2) /\ lookup ks2 5 = None.
Proof. exact toy_twice. Qed.
Print Assumptions C60_twice_refuted.
Theorem C60_replaced_refuted : exists ks p ks2 p2, lookup ks 5 = Some toy_key /\
  init ks (newctx CBC 16) None true (Some (repeat 1 16)) own_key true = (true, ks, p) /\
  init ks p (Some (repeat 8 16, Some 7)) true (Some (repeat 1 16)) no_params true = (true, ks2, p2) /\ lookup ks2 5 = None.
Proof. exact toy_replaced. Qed.
Print Assumptions C60_replaced_refuted.
Theorem C60_inherited_refuted : exists ks ks1 p1 ks2 p2, lookup ks 5 = Some toy_key /\
  init ks (newctx CBC 16) (Some (repeat 8 16, Some 7)) true (Some (repeat 1 16)) no_params true = (true, ks1, p1) /\
  set_ctx_params ks1 p1 own_key = (true, ks2, p2) /\ lookup ks2 5 = Some toy_key /\ lookup (freectx ks2 p2) 5 = None.
Proof. exact toy_inherited. Qed.
Print Assumptions C60_inherited_refuted.
(** or one that it has never given to the context but that has got the handle of one: *)
Theorem C60_stale_refuted : exists ks ks1 p1 ks2 p2,
  init ks (newctx CBC 16) (Some (repeat 8 16, Some 7)) true (Some (repeat 1 16)) no_params true = (true, ks1, p1) /\
  init ks1 p1 (Some (repeat 9 16, None)) true (Some (repeat 1 16)) no_params true = (false, ks2, p2) /\
  lookup ks2 7 = None /\ lookup (freectx ((7, repeat 6 16) :: ks2) p2) 7 = None.
Proof. exact toy_stale. Qed.
Print Assumptions C60_stale_refuted.
(** and a key that a failing initialisation has imported stays. *)
Theorem C60_leak_refuted : exists ks ks1 p1, lookup ks 7 = None /\
  init ks (newctx CBC 16) (Some (repeat 8 16, Some 7)) false (Some (repeat 1 16)) no_params true = (false, ks1, p1) /\
  lookup (freectx ks1 p1) 7 = Some (repeat 8 16).
Proof. exact toy_leak. Qed.
Print Assumptions C60_leak_refuted.

(** The same for contexts of MACs. *)
Theorem C60_mac_others : forall ks m us ks2 m2 h k, mac_uses ks m us ks2 m2 -> lookup ks h = Some k -> m_key m <> Some h ->
  Forall (fun u => ~ mac_gives u h) us -> lookup ks2 h = Some k /\ lookup (mac_freectx ks2 m2) h = Some k.
Proof. exact mac_others. Qed.
Print Assumptions C60_mac_others.
Theorem C60_mac_kept_partial : forall ks d refused b ks1 m1 us ks2 m2 h k, d <> Some true -> lookup ks h = Some k ->
  mac_init ks mac_newctx None true (Some h) d refused = (b, ks1, m1) -> mac_uses ks1 m1 us ks2 m2 -> Forall mac_same_key us ->
  b = negb refused /\ ks2 = ks /\ mac_freectx ks2 m2 = ks.
Proof. exact mac_kept. Qed.
Print Assumptions C60_mac_kept_partial.
Theorem C60_mac_released_partial : forall ks k h refused b ks1 m1 us ks2 m2, lookup ks h = None ->
  mac_init ks mac_newctx (Some (k, Some h)) true None None refused = (b, ks1, m1) -> mac_uses ks1 m1 us ks2 m2 -> Forall mac_same_key us ->
  b = negb refused /\ lookup ks2 h = Some k /\ forall h2, lookup (mac_freectx ks2 m2) h2 = lookup ks h2.
Proof. exact mac_released. Qed.
Print Assumptions C60_mac_released_partial.
Example C60_mac_case : exists m1 ks2 m2, mac_init toy_keys mac_newctx None true (Some 5) None false = (true, toy_keys, m1) /\
  mac_uses toy_keys m1 [Mac_init None true None None false] ks2 m2 /\ m_running m2 = true /\
  exists ks3 m3, mac_init toy_keys mac_newctx (Some (repeat 8 16, Some 7)) true None None false = (true, ks3, m3) /\ lookup ks3 7 = Some (repeat 8 16).
Proof.
  do 3 eexists. split; [vm_compute; reflexivity|]. split; [eapply mac_uses_cons; [split; [exact I|eexists; vm_compute; reflexivity]|apply mac_uses_nil]|].
  split; [reflexivity|]. do 2 eexists. split; vm_compute; reflexivity.
Qed.
Theorem C60_mac_same_key_lost : forall ks m h d, m_key m = Some h ->
  exists m2, mac_init ks m None true (Some h) d false = (false, release ks h, m2) /\ lookup (release ks h) h = None.
Proof. exact mac_same_key_lost. Qed.
Print Assumptions C60_mac_same_key_lost.
Theorem C60_mac_twice_refuted : exists ks m ks2 m2, lookup ks 5 = Some toy_key /\
  mac_init ks mac_newctx None true (Some 5) None false = (true, ks, m) /\
  mac_init ks m None true (Some 5) None false = (false, ks2, m2) /\ lookup ks2 5 = None.
Proof. exact toy_mac_twice. Qed.
Print Assumptions C60_mac_twice_refuted.
