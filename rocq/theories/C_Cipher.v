(** C46, C47, C48: cipher contexts on bytes.  [L] is OpenSSL; a context is created with a key,
    a vector [p1] and associated data [p2], then used by a run of calls [calls] of any lengths
    and in any buffers, some refused, some only asking for a size; [ins] and [outs] are the
    bytes the successful ones took and reported. *)
From Verif Require Import Base S_Bytes M_Mac M_Cipher S_Cipher P_Cipher P_Cipher2.

(** Encryption: whatever the pieces, the last call succeeds when it is given what it needs,
    and all output together is the encryption of all input together, with its padding or its
    tag.  Missing, here and in what follows: pieces and associated data from 2 GiB (see
    [C46_long_refuted]). *)
Theorem C46_encrypts_partial : forall L a key p1 p2 c calls c1 ins outs buf inb n params, good_clib L ->
  create a true key p1 p2 = Some c -> short_aad a p2 -> runs L c calls c1 ins outs -> Forall short calls ->
  0 <= n < 2 ^ 31 -> last_args a true n params -> last_room a n <= zlen buf -> n <= zlen inb ->
  exists c2 buf2 n2 tag2, process_last L c1 (Some buf) inb n params no_faults = Result OK c2 buf2 n2 n tag2 /\
    let msg := ins ++ firstn (Z.to_nat n) inb in
    let text := outs ++ firstn (Z.to_nat n2) buf2 in
    encryption L a key (vector_of a p1 p2) msg text /\
    (is_aead a = true -> exists t, params = Some (Bytes t) /\
       tag2 = Bytes (tag_of L a key (vector_of a p1 p2) (associated_of a p2) text (length t))).
Proof. exact encrypts_history. Qed.
Print Assumptions C46_encrypts_partial.
Example C46_encrypts_case : good_clib (toy_lib true) /\
  create CBC7 true (repeat 7 16) (Bytes (repeat 1 16)) (Null 0) = Some (toy_ctx CBC7 true (repeat 1 16)) /\
  (exists c1 ins outs, runs (toy_lib true) (toy_ctx CBC7 true (repeat 1 16)) toy_pieces c1 ins outs /\ ins = repeat 9 16 /\ length outs = 16%nat) /\
  Forall short toy_pieces /\ last_args CBC7 true 5 None /\ last_room CBC7 5 = 16.
Proof.
  split; [apply toy_good|]. split; [reflexivity|]. split; [exact toy_runs|].
  split; [repeat constructor; cbn; lia|]. split; [unfold last_args; cbn; repeat split; (discriminate || lia)|reflexivity].
Qed.

(** Decryption: the last call succeeds exactly if the text is the encryption of something,
    properly padded, and the tag belongs to it; and then all output together is the message. *)
Theorem C46_decrypts_partial : forall L a key p1 p2 c calls c1 ins outs buf inb n params, good_clib L ->
  create a false key p1 p2 = Some c -> short_aad a p2 -> runs L c calls c1 ins outs -> Forall short calls ->
  0 <= n < 2 ^ 31 -> last_args a false n params -> last_room a n <= zlen buf -> n <= zlen inb ->
  let text := ins ++ firstn (Z.to_nat n) inb in
  let iv := vector_of a p1 p2 in
  exists st c2 buf2 n2 k2 tag2, process_last L c1 (Some buf) inb n params no_faults = Result st c2 buf2 n2 k2 tag2 /\
    (st = OK <-> (exists msg, decryption L a key iv text msg) /\ tag_matches L a key iv (associated_of a p2) text params) /\
    (st = OK -> k2 = n /\ decryption L a key iv text (outs ++ firstn (Z.to_nat n2) buf2)).
Proof. exact decrypts_history. Qed.
Print Assumptions C46_decrypts_partial.
Example C46_decrypts_case :
  process_last (toy_lib true) (toy_ctx ECB7 false []) (Some (repeat 0 32)) (rev ([1; 2; 3] ++ repeat 13 13)) 16 None no_faults =
    Result OK (with_evp (toy_ctx ECB7 false []) (finished (hold (fresh [] []) (Some ([1; 2; 3] ++ repeat 13 13))) None))
           ([1; 2; 3] ++ repeat 13 13 ++ repeat 0 16) 3 16 (Null 0) /\
  (exists c2 buf2 t2, process_last (toy_lib true) (toy_ctx ECB7 false []) (Some (repeat 0 32)) (rev ([1; 2; 4] ++ 12 :: repeat 13 12)) 16 None no_faults =
    Result INTERNAL_ERROR c2 buf2 16 0 t2).
Proof. split; [vm_compute; reflexivity|]. do 3 eexists. vm_compute. reflexivity. Qed.

(** Before the last call: the output so far is the encryption or decryption of the input so
    far, except that a padded decryption holds back exactly one block. *)
Theorem C46_running_partial : forall L a encrypt key p1 p2 c calls c1 ins outs, good_clib L ->
  create a encrypt key p1 p2 = Some c -> short_aad a p2 -> runs L c calls c1 ins outs -> Forall short calls ->
  if encrypt then encrypts L a key (vector_of a p1 p2) ins outs
  else exists held, decrypts L a key (vector_of a p1 p2) ins (outs ++ held) /\
         length held = (if is_padded a && negb (length ins =? 0)%nat then 16%nat else 0%nat).
Proof. exact running_history. Qed.
Print Assumptions C46_running_partial.
Example C46_running_case : exists c1 ins outs, runs (toy_lib true) (toy_ctx CBC7 true (repeat 1 16)) toy_pieces c1 ins outs /\
  ins = repeat 9 16 /\ length outs = 16%nat.
Proof. exact toy_runs. Qed.

(** A piece is refused only if the room or the input is too short or a block cipher does not
    get whole blocks; then nothing has changed. *)
Theorem C46_refused_partial : forall L a encrypt key p1 p2 c calls c1 ins outs buf inb n, good_clib L ->
  create a encrypt key p1 p2 = Some c -> short_aad a p2 -> runs L c calls c1 ins outs -> Forall short calls ->
  0 <= n < 2 ^ 31 -> ~ fits a n buf inb ->
  process L c1 (Some buf) inb n None = Result INVALID_PARAMETER c1 buf n 0 (Null 0).
Proof. exact refused_history. Qed.
Print Assumptions C46_refused_partial.
Example C46_refused_case : ~ fits CBC 17 (repeat 0 32) (repeat 0 32) /\ ~ fits CTR 17 (repeat 0 16) (repeat 0 32).
Proof. split; intros (H1 & _ & H2); [discriminate (H2 eq_refl)|apply H1; reflexivity]. Qed.

(** What one context has encrypted, another one with the same key and parameters decrypts to
    the message, in pieces of any other sizes. *)
Theorem C46_round_trip_partial : forall L a key p1 p2 ce calls1 ce1 ins1 outs1 buf1 inb1 n1 params1 ce2 buf1' m1 k1 tag1
    cd calls2 cd1 ins2 outs2 buf2 inb2 n2 params2, good_clib L -> short_aad a p2 -> bytes_ok (vector_of a p1 p2) ->
  create a true key p1 p2 = Some ce -> runs L ce calls1 ce1 ins1 outs1 -> Forall short calls1 -> 0 <= n1 < 2 ^ 31 ->
  process_last L ce1 (Some buf1) inb1 n1 params1 no_faults = Result OK ce2 buf1' m1 k1 tag1 ->
  bytes_ok (ins1 ++ firstn (Z.to_nat n1) inb1) ->
  create a false key p1 p2 = Some cd -> runs L cd calls2 cd1 ins2 outs2 -> Forall short calls2 -> 0 <= n2 < 2 ^ 31 ->
  ins2 ++ firstn (Z.to_nat n2) inb2 = outs1 ++ firstn (Z.to_nat m1) buf1' ->
  (is_aead a = true -> params2 = Some tag1) ->
  last_args a false n2 params2 -> last_room a n2 <= zlen buf2 -> n2 <= zlen inb2 ->
  exists cd2 buf2' m2 k2 tag2, process_last L cd1 (Some buf2) inb2 n2 params2 no_faults = Result OK cd2 buf2' m2 k2 tag2 /\
    outs2 ++ firstn (Z.to_nat m2) buf2' = ins1 ++ firstn (Z.to_nat n1) inb1.
Proof. exact round_trip_history. Qed.
Print Assumptions C46_round_trip_partial.
Example C46_round_trip_case : exists c2 b2 t2 c3 b3 t3,
  process_last (toy_lib true) (toy_ctx GCM true (repeat 1 12)) (Some [0; 0; 0]) [7; 8; 9] 3 (Some (Bytes (repeat 0 12))) no_faults = Result OK c2 b2 3 3 t2 /\
  process_last (toy_lib true) (toy_ctx GCM false (repeat 1 12)) (Some [0; 0; 0]) b2 3 (Some t2) no_faults = Result OK c3 b3 3 3 t3 /\ b3 = [7; 8; 9].
Proof. do 6 eexists. split; [vm_compute; reflexivity|]. split; vm_compute; reflexivity. Qed.

(** The same without a last call, where there is no padding. *)
Theorem C46_round_trip_running_partial : forall L a key p1 p2 ce calls1 ce1 ins1 outs1 cd calls2 cd1 ins2 outs2, good_clib L -> short_aad a p2 ->
  bytes_ok (vector_of a p1 p2) -> is_padded a = false ->
  create a true key p1 p2 = Some ce -> runs L ce calls1 ce1 ins1 outs1 -> Forall short calls1 -> bytes_ok ins1 ->
  create a false key p1 p2 = Some cd -> runs L cd calls2 cd1 ins2 outs2 -> Forall short calls2 -> ins2 = outs1 -> outs2 = ins1.
Proof. exact round_trip_running. Qed.
Print Assumptions C46_round_trip_running_partial.
Example C46_round_trip_running_case : exists c2 b2 c3 b3,
  process (toy_lib true) (toy_ctx CBC true (repeat 1 16)) (Some (repeat 0 16)) (repeat 3 15 ++ [4]) 16 None = Result OK c2 b2 16 16 (Null 0) /\
  process (toy_lib true) (toy_ctx CBC false (repeat 1 16)) (Some (repeat 0 16)) b2 16 None = Result OK c3 b3 16 16 (Null 0) /\ b3 = repeat 3 15 ++ [4].
Proof. do 4 eexists. split; [vm_compute; reflexivity|]. split; vm_compute; reflexivity. Qed.

(** A new vector makes the context what it would be had it been created with that vector,
    whatever it has processed, even a last piece. *)
Theorem C46_update_iv_partial : forall L a encrypt key p1 p2 c calls c1 ins outs c2 iv c3, good_clib L ->
  create a encrypt key p1 p2 = Some c -> short_aad a p2 -> runs L c calls c1 ins outs -> Forall short calls ->
  c2 = c1 \/ (exists out inb n p f st b m k t, process_last L c1 out inb n p f = Result st c2 b m k t) ->
  update_iv c2 iv None = (OK, c3) -> create a encrypt key iv p2 = Some c3.
Proof. exact update_iv_history. Qed.
Print Assumptions C46_update_iv_partial.
Example C46_update_iv_case : update_iv (toy_ctx CBC7 false (repeat 1 16)) (Bytes (repeat 2 16)) None = (OK, toy_ctx CBC7 false (repeat 2 16)).
Proof. reflexivity. Qed.

(** A failing call of OpenSSL is never reported as success. *)
Theorem C46_failure_reported : forall L c buf inb n v,
  exists st c2 n2, process L c (Some buf) inb n (Some v) = Result st c2 buf n2 0 (Null 0) /\ st <> OK.
Proof. exact process_fault. Qed.
Print Assumptions C46_failure_reported.
Theorem C46_last_failure_reported : forall L c buf inb n p f st c2 b n2 k2 t,
  f_update f <> None \/ f_final f <> None \/ f_tag f = true /\ is_aead (c_alg c) = true ->
  process_last L c (Some buf) inb n p f = Result st c2 b n2 k2 t -> st <> OK.
Proof. exact process_last_fault. Qed.
Print Assumptions C46_last_failure_reported.
Example C46_failure_case : exists c2 b2 n2 t2, process_last (toy_lib true) (toy_ctx GCM true (repeat 1 12)) (Some [0; 0; 0]) [7; 8; 9] 3
  (Some (Bytes (repeat 0 12))) (MkFaults None None true) = Result INTERNAL_ERROR c2 b2 n2 0 t2.
Proof. do 4 eexists. vm_compute. reflexivity. Qed.

(** Lengths are passed to OpenSSL as an int: 4 GiB and 16 bytes in counter mode are all
    consumed and reported as success, but 16 bytes come out. *)
Theorem C46_long_refuted : exists L c buf inb c2 buf2, good_clib L /\
  create CTR true (repeat 7 16) (Bytes (repeat 1 16)) (Null 0) = Some c /\
  zlen inb = 2 ^ 32 + 16 /\ zlen buf = 2 ^ 32 + 16 /\
  process L c (Some buf) inb (2 ^ 32 + 16) None = Result OK c2 buf2 16 (2 ^ 32 + 16) (Null 0).
Proof. exact long_exists. Qed.
Print Assumptions C46_long_refuted.

(** Between 2 and 4 GiB a piece is refused, and nothing is written. *)
Theorem C46_large_refused : forall L c buf inb n fails, 2 ^ 31 <= n < 2 ^ 32 ->
  exists st c2, process L c (Some buf) inb n fails = Result st c2 buf n 0 (Null 0) /\ st <> OK.
Proof. exact large_process. Qed.
Print Assumptions C46_large_refused.
Theorem C46_large_last_refused : forall L c buf inb n params f, 2 ^ 31 <= n < 2 ^ 32 ->
  exists st c2 tag, process_last L c (Some buf) inb n params f = Result st c2 buf n 0 tag /\ st <> OK.
Proof. exact large_last. Qed.
Print Assumptions C46_large_last_refused.
(** The room and the input may well be there. *)
Example C46_large_case : exists inb buf : list Z, zlen inb = 2 ^ 31 /\ zlen buf = 2 ^ 31.
Proof. exists (repeat 1 (Z.to_nat (2 ^ 31))), (repeat 0 (Z.to_nat (2 ^ 31))). unfold zlen. rewrite !repeat_length, Z2Nat.id by lia. split; reflexivity. Qed.

(** C47.  A piece that fits is accepted and the call writes nothing behind the bytes it was
    to process, unless OpenSSL writes the block that a padded decryption holds back; then the
    buffer needs 16 bytes that the documented size does not contain. *)
Theorem C47_writes_inside_partial : forall L a encrypt key p1 p2 c calls c1 ins outs buf inb n, good_clib L ->
  create a encrypt key p1 p2 = Some c -> short_aad a p2 -> runs L c calls c1 ins outs -> Forall short calls ->
  0 <= n < 2 ^ 31 -> fits a n buf inb ->
  k_ahead L = false \/ holds_back a encrypt = false \/ n + 16 <= zlen buf ->
  exists c2 buf2 n2, process L c1 (Some buf) inb n None = Result OK c2 buf2 n2 n (Null 0) /\
    0 <= n2 <= n /\ length buf2 = length buf /\
    untouched (if k_ahead L && holds_back a encrypt then n + 16 else n) buf buf2.
Proof. exact process_history. Qed.
Print Assumptions C47_writes_inside_partial.
Example C47_writes_case : exists c2 b2, process (toy_lib true) (toy_ctx CTR true (repeat 1 16)) (Some [5; 5; 5; 5]) [1; 2; 3; 4] 3 None =
  Result OK c2 b2 3 3 (Null 0) /\ nth 3 b2 0 = 5.
Proof. do 2 eexists. split; vm_compute; reflexivity. Qed.

(** The last call never writes outside the size it asks for, with any OpenSSL; if it refuses
    its arguments it has changed nothing.  Missing: a context that has already had its last
    call (see [C47_after_last_refuted]). *)
Theorem C47_last_writes_inside_partial : forall L a encrypt key p1 p2 c calls c1 ins outs buf inb n params, good_clib L ->
  create a encrypt key p1 p2 = Some c -> short_aad a p2 -> runs L c calls c1 ins outs -> Forall short calls ->
  0 <= n < 2 ^ 31 ->
  exists st c2 buf2 n2 k2 tag2, process_last L c1 (Some buf) inb n params no_faults = Result st c2 buf2 n2 k2 tag2 /\
    length buf2 = length buf /\ untouched (last_room a n) buf buf2 /\
    (last_args a encrypt n params /\ last_room a n <= zlen buf /\ n <= zlen inb \/ st <> OK /\ c2 = c1 /\ buf2 = buf /\ n2 = n /\ k2 = 0).
Proof. exact process_last_history. Qed.
Print Assumptions C47_last_writes_inside_partial.
Example C47_last_writes_case : exists c2 b2 t2, process_last (toy_lib true) (toy_ctx ECB7 true []) (Some (repeat 5 17)) (repeat 9 15) 15 None no_faults =
  Result OK c2 b2 16 15 t2 /\ nth 16 b2 0 = 5.
Proof. do 3 eexists. split; vm_compute; reflexivity. Qed.

(** With an OpenSSL that writes the held block: once a padded decryption has taken a piece,
    every further piece in a buffer of the documented size overruns it. *)
Theorem C47_padded_decrypt_corrupts : forall L a key p1 p2 c calls c1 ins outs buf inb n, good_clib L -> k_ahead L = true ->
  create a false key p1 p2 = Some c -> runs L c calls c1 ins outs -> Forall short calls ->
  is_padded a = true -> ins <> [] ->
  0 < n < 2 ^ 31 -> fits a n buf inb -> zlen buf < n + 16 ->
  process L c1 (Some buf) inb n None = Corrupts.
Proof. exact corrupts_history. Qed.
Print Assumptions C47_padded_decrypt_corrupts.
Theorem C47_writes_inside_refuted : exists L c c1 ins outs buf, good_clib L /\
  create CBC7 false (repeat 7 16) (Bytes (repeat 1 16)) (Null 0) = Some c /\
  runs L c [Process (repeat 0 16) (repeat 9 16) 16] c1 ins outs /\
  fits CBC7 16 buf (repeat 9 16) /\ process L c1 (Some buf) (repeat 9 16) 16 None = Corrupts.
Proof. exact corrupts_exists. Qed.
Print Assumptions C47_writes_inside_refuted.

(** A second last call finds the bytes of the first one's incomplete block and overruns a
    buffer of the size asked for, with an OpenSSL that allows it. *)
Theorem C47_after_last_refuted : exists L c c2 buf2 n2 k2 t2, good_clib L /\
  create ECB7 true (repeat 7 16) (Null 0) (Null 0) = Some c /\
  process_last L c (Some (repeat 0 16)) (repeat 9 15) 15 None no_faults = Result OK c2 buf2 n2 k2 t2 /\
  last_args ECB7 true 1 None /\ last_room ECB7 1 = 16 /\
  process_last L c2 (Some (repeat 0 16)) [5] 1 None no_faults = Corrupts.
Proof. exact after_last_exists. Qed.
Print Assumptions C47_after_last_refuted.

(** C48.  Documented for the last call: wrong padding or a wrong tag is answered with
    VERIFICATION_FAILED, a second last call with INVALID_PARAMETER, and what encryption
    accepts decryption accepts.  What holds: wrong padding and wrong tags are always refused
    (also [C46_decrypts_partial]). *)
Theorem C48_bad_text_refused_partial : forall L a key p1 p2 c calls c1 ins outs buf inb n params, good_clib L ->
  create a false key p1 p2 = Some c -> short_aad a p2 -> runs L c calls c1 ins outs -> Forall short calls ->
  0 <= n < 2 ^ 31 -> last_args a false n params -> last_room a n <= zlen buf -> n <= zlen inb ->
  let text := ins ++ firstn (Z.to_nat n) inb in
  let iv := vector_of a p1 p2 in
  ~ ((exists msg, decryption L a key iv text msg) /\ tag_matches L a key iv (associated_of a p2) text params) ->
  exists c2 buf2 tag2, process_last L c1 (Some buf) inb n params no_faults = Result INTERNAL_ERROR c2 buf2 n 0 tag2.
Proof. exact bad_last_history. Qed.
Print Assumptions C48_bad_text_refused_partial.
(** The documented status is never returned. *)
Theorem C48_never_verification_failed : forall L c out inb n p f st c2 b n2 k2 t,
  process_last L c out inb n p f = Result st c2 b n2 k2 t -> st <> VERIFICATION_FAILED.
Proof. exact process_last_status. Qed.
Print Assumptions C48_never_verification_failed.
Theorem C48_verification_status_refuted : exists L c buf, good_clib L /\
  create GCM false (repeat 7 16) (Bytes (repeat 1 12)) (Null 0) = Some c /\
  last_args GCM false 0 (Some (Bytes (repeat 0 16))) /\
  ~ tag_matches L GCM (repeat 7 16) (repeat 1 12) [] [] (Some (Bytes (repeat 0 16))) /\
  exists c2 buf2 n2 k2 t2, process_last L c (Some buf) [] 0 (Some (Bytes (repeat 0 16))) no_faults = Result INTERNAL_ERROR c2 buf2 n2 k2 t2.
Proof. exact bad_tag_exists. Qed.
Print Assumptions C48_verification_status_refuted.
(** A stream cipher takes any number of last calls, with every OpenSSL. *)
Theorem C48_second_last_accepted : forall L a key p1 p2 c calls c1 ins outs out inb n params c2 buf2 n2 k2 t2, a = CTR \/ a = CHACHA20 ->
  good_clib L -> create a true key p1 p2 = Some c -> runs L c calls c1 ins outs -> Forall short calls -> 0 <= n < 2 ^ 31 ->
  process_last L c1 (Some out) inb n params no_faults = Result OK c2 buf2 n2 k2 t2 ->
  forall buf inb3 n3 p3, 0 <= n3 < 2 ^ 31 -> n3 <= zlen buf -> n3 <= zlen inb3 ->
  exists c4 buf4 n4 t4, process_last L c2 (Some buf) inb3 n3 p3 no_faults = Result OK c4 buf4 n4 n3 t4.
Proof. exact stream_last_twice. Qed.
Print Assumptions C48_second_last_accepted.
Theorem C48_second_last_refuted : exists L c c2 buf2 n2 k2 t2 c3 buf3 n3 k3 t3, good_clib L /\
  create CTR true (repeat 7 16) (Bytes (repeat 1 16)) (Null 0) = Some c /\
  process_last L c (Some (repeat 0 16)) (repeat 9 16) 16 None no_faults = Result OK c2 buf2 n2 k2 t2 /\
  process_last L c2 (Some (repeat 0 16)) (repeat 9 16) 16 None no_faults = Result OK c3 buf3 n3 k3 t3.
Proof. exact second_last_exists. Qed.
Print Assumptions C48_second_last_refuted.
(** A last piece of more than 16 bytes is encrypted by a stream cipher but not decrypted. *)
Theorem C48_stream_last_lengths : forall L a encrypt key p1 p2 c calls c1 ins outs buf inb n params, a = CTR \/ a = CHACHA20 ->
  good_clib L -> create a encrypt key p1 p2 = Some c -> runs L c calls c1 ins outs -> Forall short calls ->
  16 < n < 2 ^ 31 -> n <= zlen buf -> n <= zlen inb ->
  exists st c2 buf2 n2 k2 t2, process_last L c1 (Some buf) inb n params no_faults = Result st c2 buf2 n2 k2 t2 /\
    st = (if encrypt then OK else INVALID_PARAMETER).
Proof. exact stream_last_lengths. Qed.
Print Assumptions C48_stream_last_lengths.
Theorem C48_last_symmetric_refuted : exists L ce cd, good_clib L /\
  create CTR true (repeat 7 16) (Bytes (repeat 1 16)) (Null 0) = Some ce /\
  create CTR false (repeat 7 16) (Bytes (repeat 1 16)) (Null 0) = Some cd /\
  forall msg, zlen msg = 17 ->
  (exists c2 buf2 n2 k2 t2, process_last L ce (Some (repeat 0 17)) msg 17 None no_faults = Result OK c2 buf2 n2 k2 t2) /\
  (exists c2 buf2 n2 k2 t2, process_last L cd (Some (repeat 0 17)) msg 17 None no_faults = Result INVALID_PARAMETER c2 buf2 n2 k2 t2).
Proof. exact ctr_last_exists. Qed.
Print Assumptions C48_last_symmetric_refuted.
