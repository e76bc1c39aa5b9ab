(** C78: MACs through the provider. *)
From Verif Require Import Base M_Mac M_ProvMac S_ProvMac P_ProvMac P_ProvMac2.

(** For every history in which the secure API does not use handles of keys again: what is read from a context is the MAC
    of all data given since it was initialised, under the key it was told and with the digest it was told, whatever other
    contexts did and whatever calls failed before; it is read whenever there is room for it; and more data is taken. *)
Theorem C78_tag_partial : forall L l c q r v room ok junk, handles_new (snd (run L l start)) nothing ->
  s_ctx (heard (snd (run L l start))) c = Some q -> q_run q = Some r -> tag L r = Some v ->
  (forall t, snd (step L (Final c room ok junk) (fst (run L l start))) = Tag t -> t = v) /\
  (q_md q = r_md r -> snd (step L (Final c room true junk) (fst (run L l start))) =
     if room <? match r_md r with Some m => bits m / 8 | None => 16 end then Refused else Tag v) /\
  (forall more, snd (step L (Update c more true) (fst (run L l start))) = Fine).
Proof. exact tag_value. Qed.
Print Assumptions C78_tag_partial.
Example C78_tag_case : let '(w, events) := run toy two_parts start in
  handles_new events nothing /\
  option_map q_run (s_ctx (heard events) 0) = Some (Some (Run (Some Sha256) [1; 2] [7; 8])) /\
  option_map q_run (s_ctx (heard events) 1) = Some (Some (Run None [9; 9] [3])) /\
  snd (step toy (Final 0 32 true []) w) = Tag (l_hmac toy D_SHA256 [1; 2] [7; 8]) /\ snd (step toy (Final 1 16 true []) w) = Tag [9; 9; 3].
Proof. exact two_parts_right. Qed.

(** The size announced is that of the digest the context was told last. *)
Theorem C78_size_partial : forall L l c q, handles_new (snd (run L l start)) nothing -> s_ctx (heard (snd (run L l start))) c = Some q ->
  (q_hmac q = false -> snd (step L (Size c) (fst (run L l start))) = Told 16) /\
  (forall m, q_hmac q = true -> q_md q = Some m -> snd (step L (Size c) (fst (run L l start))) = Told (bits m / 8)).
Proof. exact size_told. Qed.
Print Assumptions C78_size_partial.

(** A MAC is read once: until the context is initialised again neither data nor another reading is accepted. *)
Theorem C78_read_once : forall L l c room ok junk t l2, snd (step L (Final c room ok junk) (fst (run L l start))) = Tag t -> Forall (not_anew c) l2 ->
  let w := fst (run L l2 (fst (step L (Final c room ok junk) (fst (run L l start))))) in
  forall more room2 ok2 junk2, snd (step L (Update c more ok2) w) = Refused /\ snd (step L (Final c room2 ok2 junk2) w) = Refused.
Proof. exact read_once. Qed.
Print Assumptions C78_read_once.

(** When all contexts are freed, no MAC is left in the secure API. *)
Theorem C78_nothing_left : forall L l, all_freed (fst (run L l start)) -> forall h, w_macs (fst (run L l start)) h = None.
Proof. exact nothing_left. Qed.
Print Assumptions C78_nothing_left.

(** A key set by its handle goes with the context if that was asked for, and otherwise stays; no other key is touched. *)
Theorem C78_own_key_partial : forall L w c h d, snd (step L (SetParams c (Params None (Some (Some h)) (Some (Some d)))) w) = Fine ->
  let w1 := fst (step L (SetParams c (Params None (Some (Some h)) (Some (Some d)))) w) in
  w_keys w1 h <> None /\ (forall k, w_keys (fst (step L (Free c) w1)) k = if d && (k =? h) then None else w_keys w1 k).
Proof. exact own_key. Qed.
Print Assumptions C78_own_key_partial.
Example C78_own_key_example :
  snd (step toy (SetParams 0 (Params None (Some (Some 5)) (Some (Some true)))) (fst (run toy [NewKey 5 [1]; New 0 true] start))) = Fine.
Proof. reflexivity. Qed.

(** Initialisation with bytes and a digest succeeds when the secure API agrees; with digests it does not have it is refused. *)
Theorem C78_init_accepted : forall L w c x b k p h, w_ctxs w c = Some x -> w_keys w k = None -> c_key x <> Some k -> c_mac x <> Some h -> w_macs w h = None ->
  p_key p = None -> p_delete p <> Some None ->
  (if c_hmac x then exists m, p_md p = Some (Fetched m) /\ listed m <> None else p_md p = None) ->
  snd (step L (Init c (Some (b, Some k)) true p h true) w) = Fine.
Proof. exact init_accepted. Qed.
Print Assumptions C78_init_accepted.
Theorem C78_unlisted_refused_partial : forall L w c key header m k d h ok, listed m = None -> cut_512 m = false ->
  (forall x, w_ctxs w c = Some x -> c_hmac x = true) ->
  snd (step L (Init c key header (Params (Some (Fetched m)) k d) h ok) w) <> Fine.
Proof. exact unlisted_refused. Qed.
Print Assumptions C78_unlisted_refused_partial.

(** False: the same for SHA-512/256 (and SHA-512/224). Every call succeeds, and the MAC is one with SHA-512; in the room
    announced it cannot be read. *)
Theorem C78_truncated_refuted : forall L, let '(w, events) := run L truncated start in
  Forall (fun e => snd e = Fine) events /\ option_map q_run (s_ctx (heard events) 0) = Some (Some (Run (Some Sha512_256) [1] [7])) /\
  snd (step L (Size 0) w) = Told 32 /\ snd (step L (Final 0 32 true []) w) = Refused /\
  snd (step L (Final 0 64 true []) w) = Tag (l_hmac L D_SHA512 [1] [7]).
Proof. exact truncated_wrong. Qed.
Print Assumptions C78_truncated_refuted.

(** False: that initialising never harms the process. HMAC without a digest reads a NULL pointer, in every state; a refused
    setting leads there as well. *)
Theorem C78_no_digest_refuted : forall L w c x k p h ok, w_ctxs w c = Some x -> c_hmac x = true -> c_md x = None -> c_key x = Some k -> p = none ->
  snd (step L (Init c None true p h ok) w) = Crash.
Proof. exact digest_missing. Qed.
Print Assumptions C78_no_digest_refuted.
Theorem C78_refused_setting_refuted : map snd (snd (run toy refused_digest start)) = [Fine; Fine; Refused; Crash].
Proof. exact refused_wrong. Qed.
Print Assumptions C78_refused_setting_refuted.

(** False: that the size announced is the size of the MAC that goes on. *)
Theorem C78_later_digest_refuted : forall L, let '(w, events) := run L later_digest start in
  Forall (fun e => snd e = Fine) events /\ handles_new events nothing /\
  snd (step L (Size 0) w) = Told 20 /\ snd (step L (Final 0 20 true []) w) = Refused /\ snd (step L (Final 0 32 true []) w) = Tag (l_hmac L D_SHA256 [1] [7]).
Proof. exact later_wrong. Qed.
Print Assumptions C78_later_digest_refuted.

(** False: that a key can be in two contexts, or be set twice. Another key for the second context takes the application's
    key out of the secure API, and the first can no longer be initialised; if the handle is used again, its MACs are
    under another key. *)
Theorem C78_shared_key_refuted : let '(w, events) := run toy shared start in
  Forall (fun e => snd e = Fine) events /\ handles_new events nothing /\ option_map q_key (s_ctx (heard events) 0) = Some (Some [1]) /\ w_keys w 5 = None /\
  snd (step toy (Init 0 None true none 31 true) w) = Refused.
Proof. exact shared_wrong. Qed.
Print Assumptions C78_shared_key_refuted.
Theorem C78_other_key_refuted : let '(w, events) := run toy shared_reused start in
  Forall (fun e => snd e = Fine) events /\ option_map q_run (s_ctx (heard events) 0) = Some (Some (Run (Some Sha256) [1] [7])) /\
  snd (step toy (Final 0 32 true []) w) = Tag (l_hmac toy D_SHA256 [3] [7]) /\ l_hmac toy D_SHA256 [3] [7] <> l_hmac toy D_SHA256 [1] [7].
Proof. exact reused_wrong. Qed.
Print Assumptions C78_other_key_refuted.
Theorem C78_same_key_refuted : let '(w, events) := run toy again start in
  map snd events = [Fine; Fine; Fine; Refused] /\ w_keys w 5 = None.
Proof. exact again_wrong. Qed.
Print Assumptions C78_same_key_refuted.

(** False: that the digests fetched are freed with the context. *)
Theorem C78_digests_freed_refuted : let '(w, events) := run toy two_digests start in
  Forall (fun e => snd e = Fine) events /\ all_freed w /\ w_mds w = 1%nat.
Proof. exact digests_wrong. Qed.
Print Assumptions C78_digests_freed_refuted.
