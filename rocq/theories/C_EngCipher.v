(** C70: ciphers through the OpenSSL engine. *)
From Verif Require Import Base M_EngCipher S_EngCipher P_EngCipher5.

(** The output of a context used with care is that of its key, vector and data.  Missing: contexts
    initialised again after data, whose vector's memory is used again before the data, whose
    associated data come in pieces, or that are copied (see below). *)
Theorem C70_output_partial : forall crypt mac key_size l c j d ok1 ok2 b,
  careful (history crypt mac key_size l) c = true -> job_of (history crypt mac key_size l) c = Some j ->
  answer_to crypt mac key_size l (Data c d ok1 ok2) (Bytes b) ->
  exists key iv enc, the_key j = Some key /\ vector j = Some iv /\ j_enc j = Some enc /\ j_ended j = false /\
    b = crypt (j_alg j) enc key iv (j_aad j) (j_data j) d.
Proof. exact output. Qed.
Print Assumptions C70_output_partial.

(** Such a context is served. *)
Theorem C70_output_given : forall crypt mac key_size l c j d key iv enc,
  careful (history crypt mac key_size l) c = true -> job_of (history crypt mac key_size l) c = Some j ->
  the_key j = Some key -> vector j = Some iv -> j_enc j = Some enc -> j_ended j = false -> authenticated (j_alg j) = true \/ d <> [] ->
  answer_to crypt mac key_size l (Data c d true true) (Bytes (crypt (j_alg j) enc key iv (j_aad j) (j_data j) d)).
Proof. exact output_given. Qed.
Print Assumptions C70_output_given.

(** The tag read after an encryption is the message's. *)
Theorem C70_tag : forall crypt mac key_size l c j key iv n,
  careful (history crypt mac key_size l) c = true -> job_of (history crypt mac key_size l) c = Some j -> authenticated (j_alg j) = true ->
  j_ended j = true -> j_enc j = Some true -> the_key j = Some key -> vector j = Some iv -> 0 <= n <= TAG ->
  answer_to crypt mac key_size l (GetTag c n) (Bytes (firstn (Z.to_nat n) (mac (j_alg j) key iv (j_aad j) (j_data j)))).
Proof. exact tag_of_encryption. Qed.
Print Assumptions C70_tag.

(** A decryption finishes well only with the right tag: one of full length is the message's; a shorter
    one is it after zeros are appended. *)
Theorem C70_verified : forall crypt mac key_size l c j ok1 ok2,
  careful (history crypt mac key_size l) c = true -> job_of (history crypt mac key_size l) c = Some j -> authenticated (j_alg j) = true ->
  j_enc j = Some false -> answer_to crypt mac key_size l (Final c ok1 ok2) Done ->
  exists key iv t, the_key j = Some key /\ vector j = Some iv /\ j_tag j = Some t /\
    t ++ repeat 0 (16 - length t) = mac (j_alg j) key iv (j_aad j) (j_data j).
Proof. exact verified. Qed.
Print Assumptions C70_verified.
Theorem C70_verified_full : forall crypt mac key_size l c j ok1 ok2 t,
  careful (history crypt mac key_size l) c = true -> job_of (history crypt mac key_size l) c = Some j -> authenticated (j_alg j) = true ->
  j_enc j = Some false -> j_tag j = Some t -> zlen t = TAG -> answer_to crypt mac key_size l (Final c ok1 ok2) Done ->
  exists key iv, the_key j = Some key /\ vector j = Some iv /\ t = mac (j_alg j) key iv (j_aad j) (j_data j).
Proof. exact verified_full. Qed.
Print Assumptions C70_verified_full.
(** A message with its full tag, and any encryption, is finished. *)
Theorem C70_final_given : forall crypt mac key_size l c j key iv enc,
  careful (history crypt mac key_size l) c = true -> job_of (history crypt mac key_size l) c = Some j -> authenticated (j_alg j) = true ->
  the_key j = Some key -> vector j = Some iv -> j_enc j = Some enc -> j_ended j = false ->
  (enc = false -> j_tag j = Some (mac (j_alg j) key iv (j_aad j) (j_data j)) /\ zlen (mac (j_alg j) key iv (j_aad j) (j_data j)) = TAG) ->
  answer_to crypt mac key_size l (Final c true true) Done.
Proof. exact final_accepts. Qed.
Print Assumptions C70_final_given.

(** A key is accepted if and only if it exists and has the cipher's size. *)
Theorem C70_key_checked : forall crypt mac key_size l c j k iv enc memory,
  careful (history crypt mac key_size l) c = true -> job_of (history crypt mac key_size l) c = Some j ->
  answer_to crypt mac key_size l (Init c (Some k) iv enc memory) Done ->
  exists key, key_memory (history crypt mac key_size l) k = Some key /\ key_size key = Some (j_len j).
Proof. exact key_checked. Qed.
Print Assumptions C70_key_checked.
Theorem C70_init_given : forall crypt mac key_size l c j key iv enc,
  careful (history crypt mac key_size l) c = true -> job_of (history crypt mac key_size l) c = Some j ->
  (forall k, key = Some k -> exists x, key_memory (history crypt mac key_size l) k = Some x /\ key_size x = Some (j_len j)) ->
  answer_to crypt mac key_size l (Init c key iv enc true) Done.
Proof. exact init_given. Qed.
Print Assumptions C70_init_given.

(** Whatever is called, nothing is held once every context is closed. *)
Theorem C70_nothing_left : forall crypt mac key_size l,
  (forall c, is_open (history crypt mac key_size l) c = false) -> holds_nothing (after crypt mac key_size l).
Proof. exact nothing_left. Qed.
Print Assumptions C70_nothing_left.

(** With what they need, calls on a context used with care stay within the language.  Missing: the
    conditions themselves. *)
Theorem C70_no_crash_partial : forall crypt mac key_size l c j o,
  careful (history crypt mac key_size l) c = true -> job_of (history crypt mac key_size l) c = Some j ->
  supplied (history crypt mac key_size l) c o -> ~ answer_to crypt mac key_size l o Crash.
Proof. exact no_crash. Qed.
Print Assumptions C70_no_crash_partial.

(** A context at work that gets a new vector goes on with the old one. *)
Theorem C70_again_with_a_vector_refuted : wrong_output show_crypt show_mac show_size again_with_a_vector 0 [2].
Proof. exact again_with_a_vector_wrong. Qed.
Print Assumptions C70_again_with_a_vector_refuted.
(** One set to encrypt and then to decrypt encrypts. *)
Theorem C70_again_the_other_way_refuted : wrong_output show_crypt show_mac show_size again_the_other_way 0 [2].
Proof. exact again_the_other_way_wrong. Qed.
Print Assumptions C70_again_the_other_way_refuted.
(** The vector is read from the caller's memory when the first data come. *)
Theorem C70_vector_kept_refuted : wrong_output show_crypt show_mac show_size vector_reused 0 [2].
Proof. exact vector_reused_wrong. Qed.
Print Assumptions C70_vector_kept_refuted.
Theorem C70_vector_gone_refuted : answer_to show_crypt show_mac show_size vector_gone (Data 0 [2] true true) Crash.
Proof. exact vector_gone_crash. Qed.
Print Assumptions C70_vector_gone_refuted.
(** A second piece of associated data is accepted and ignored. *)
Theorem C70_pieces_refuted : wrong_output show_crypt show_mac show_size two_pieces 0 [2].
Proof. exact two_pieces_wrong. Qed.
Print Assumptions C70_pieces_refuted.
(** A failure with CBC, ECB, CTR or ChaCha20 looks like success. *)
Theorem C70_failure_told_refuted :
  answer_to show_crypt show_mac show_size (prepared ++ [Open 0 CBC 16; Init 0 (Some 100) (Some 200) true true]) (Data 0 [2] true false) Nothing.
Proof. exact failure_as_success. Qed.
Print Assumptions C70_failure_told_refuted.
(** The tag of an encryption not yet finished is memory nobody wrote. *)
Theorem C70_tag_too_early_refuted :
  answer_to show_crypt show_mac show_size (prepared ++ [Open 0 GCM 16; Init 0 (Some 100) (Some 200) true true]) (GetTag 0 16) Unset.
Proof. exact tag_too_early. Qed.
Print Assumptions C70_tag_too_early_refuted.
(** Reading a tag of negative length writes far beyond the memory given. *)
Theorem C70_tag_negative_refuted :
  answer_to show_crypt show_mac show_size (prepared ++ [Open 0 GCM 16; Init 0 (Some 100) (Some 200) true true]) (GetTag 0 (-1)) Crash.
Proof. exact tag_negative. Qed.
Print Assumptions C70_tag_negative_refuted.
(** So is setting one: a negative length passes the check and is copied as a huge one. *)
Theorem C70_tag_set_negative_refuted :
  answer_to show_crypt show_mac show_size (prepared ++ [Open 0 GCM 16; Init 0 (Some 100) (Some 200) false true]) (SetTag 0 (-1) [5]) Crash.
Proof. exact tag_set_negative. Qed.
Print Assumptions C70_tag_set_negative_refuted.
(** A genuine tag of 12 bytes is refused. *)
Theorem C70_short_tag_refuted : answer_to show_crypt show_mac show_size short_tag (Final 0 true true) Refused.
Proof. exact short_tag_refused. Qed.
Print Assumptions C70_short_tag_refuted.
(** A copied context shares its resources: the second to be closed uses what was freed. *)
Theorem C70_copied_refuted : answer_to show_crypt show_mac show_size copied (Reset 0) Crash.
Proof. exact copied_crash. Qed.
Print Assumptions C70_copied_refuted.
(** Without memory, or without a tag to compare with. *)
Theorem C70_no_memory_refuted : answer_to show_crypt show_mac show_size (prepared ++ [Open 0 CBC 16]) (Init 0 (Some 100) (Some 200) true false) Crash.
Proof. exact no_memory_crash. Qed.
Print Assumptions C70_no_memory_refuted.
Theorem C70_no_tag_refuted :
  answer_to show_crypt show_mac show_size (prepared ++ [Open 0 GCM 16; Init 0 (Some 100) (Some 200) false true; Data 0 [5] true true]) (Final 0 true true) Crash.
Proof. exact no_tag_crash. Qed.
Print Assumptions C70_no_tag_refuted.

(** Two contexts in turns, both used with care: their messages, the tag, the end. *)
Example C70_example :
  careful (history show_crypt show_mac show_size both_ways) 0 = true /\ careful (history show_crypt show_mac show_size both_ways) 1 = true /\
  (exists j, job_of (history show_crypt show_mac show_size both_ways) 1 = Some j /\ the_key j = Some 7 /\ vector j = Some [21; 22] /\
     j_aad j = [51; 52] /\ j_data j = [1; 2; 3] /\ j_ended j = false) /\
  answer_to show_crypt show_mac show_size both_ways (GetTag 0 12) (Bytes (firstn 12 (show_mac GCM 7 [21; 22] [51; 52] [1; 2; 3]))) /\
  answer_to show_crypt show_mac show_size both_ways (Final 1 true true) Done /\
  (forall c, is_open (history show_crypt show_mac show_size (both_ways ++ [Final 1 true true; Reset 0; Reset 1])) c = false).
Proof.
  split; [vm_compute; reflexivity|]. split; [vm_compute; reflexivity|].
  split; [eexists; split; [vm_compute; reflexivity|]; vm_compute; auto 10|].
  split; [vm_compute; reflexivity|]. split; [vm_compute; reflexivity|].
  intros [|[|c]]; vm_compute; reflexivity.
Qed.
