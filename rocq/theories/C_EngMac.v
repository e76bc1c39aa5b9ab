(** C72: MACs through the engine. *)
From Verif Require Import Base M_Mac M_EngMac S_EngMac P_EngMac P_EngMac2.

(** For every history without copies in which no new MAC gets a handle that another context still holds: what is
    read from a context is the MAC, under its key, of the data given to it since it was initialised, whatever other
    contexts did; it fits the size announced, and more data is accepted. *)
Theorem C72_value_partial : forall L b l c key m msg room junk, unshared L b l start ->
  let '(w, events) := run L b l start in
  heard c events = MkKnown (Some key) (Some (m, msg)) ->
  snd (step L b (Final c room true junk) w) = (if room <? mac_size m then Refused else Tag (mac_of L b key m msg)) /\
  snd (step L b (Length c) w) = Size (mac_size m) /\ (forall more, snd (step L b (Update c more true) w) = Fine).
Proof. exact final_value. Qed.
Print Assumptions C72_value_partial.

(** Callers keep handles apart by marking contexts before reading them or by freeing them as soon as they are read;
    a secure API that does not use handles again does it for them. *)
Theorem C72_kept_apart : forall L b l, new_handles l [] \/ marked l (fun _ => false) \/ prompt l -> unshared L b l start.
Proof. exact three_ways. Qed.
Print Assumptions C72_kept_apart.

(** Contexts are initialised when the secure API agrees, with the digests there are. *)
Theorem C72_init_accepted : forall L b w c key m h, w_ctxs w c <> None -> m <> MdOther -> w_macs w h = None ->
  snd (step L b (Init c key m h true) w) = Fine.
Proof. exact init_accepted. Qed.
Print Assumptions C72_init_accepted.
Theorem C72_other_digests_refused : forall L b w c key h ok, snd (step L b (Init c key MdOther h ok) w) <> Fine.
Proof. exact other_digests_refused. Qed.
Print Assumptions C72_other_digests_refused.

(** When each context is initialised once between resets, nothing is left in the secure API once all are freed. *)
Theorem C72_nothing_left_partial : forall L b l, unshared L b l start -> once L b l start -> all_freed (fst (run L b l start)) ->
  forall h, w_macs (fst (run L b l start)) h = None.
Proof. exact nothing_left. Qed.
Print Assumptions C72_nothing_left_partial.

(** False: that contexts in use at the same time do not disturb each other. Every call is answered with success, and
    what is read from the second context is a MAC under the key of the third, of the data of both. *)
Theorem C72_crossed_refuted : let '(w, events) := run toy_lib toy_key crossed start in
  Forall (fun e => snd e = Fine \/ exists t, snd e = Tag t) events /\
  heard 1 events = MkKnown (Some 8) (Some (MdNone, [2])) /\ heard 2 events = MkKnown (Some 9) (Some (MdNone, [3])) /\
  snd (step toy_lib toy_key (Final 1 16 true []) w) = Tag (mac_of toy_lib toy_key 9 MdNone [2; 3]) /\
  snd (step toy_lib toy_key (Final 2 16 true []) w) = Tag (mac_of toy_lib toy_key 9 MdNone [2; 3]).
Proof. exact crossed_wrong. Qed.
Print Assumptions C72_crossed_refuted.

(** False: that a copy is a context of its own. *)
Theorem C72_copy_refuted : let '(w, events) := run toy_lib toy_key copied start in
  Forall (fun e => snd e = Fine) events /\ heard 0 events = MkKnown (Some 7) (Some (MdNone, [1])) /\
  snd (step toy_lib toy_key (Final 0 16 true []) w) = Tag (mac_of toy_lib toy_key 7 MdNone [1; 2]) /\
  snd (step toy_lib toy_key (Final 1 16 true []) (fst (step toy_lib toy_key (Final 0 16 true []) w))) = Refused.
Proof. exact copied_wrong. Qed.
Print Assumptions C72_copy_refuted.

(** False: that data can be added after the value was read, as OpenSSL allows. *)
Theorem C72_read_once_refuted : forall L b w c room junk, snd (step L b (Final c room true junk) w) <> Misuse ->
  (forall l ok, snd (step L b (Update c l ok) (fst (step L b (Final c room true junk) w))) <> Fine) \/
  snd (step L b (Final c room true junk) w) = Refused.
Proof. exact read_once. Qed.
Print Assumptions C72_read_once_refuted.

(** False: that freeing contexts frees their MACs, if one was initialised twice. *)
Theorem C72_initialised_again_refuted : forall L b, let '(w, events) := run L b again start in
  Forall (fun e => snd e = Fine) events /\ all_freed w /\ w_macs w 5 <> None.
Proof. exact again_left. Qed.
Print Assumptions C72_initialised_again_refuted.

(** Two contexts at work at the same time, HMAC and CMAC, each marked: the conditions are met. *)
Example C72_example : forall L b,
  marked two_at_once (fun _ => false) /\
  heard 0 (snd (run L b two_at_once start)) = MkKnown (Some 7) (Some (MdSha 1, [1; 3])) /\
  snd (step L b (Final 0 32 true []) (fst (run L b two_at_once start))) = Tag (l_hmac L 1 (b 7) [1; 3]) /\
  snd (step L b (Final 1 15 true []) (fst (run L b two_at_once start))) = Refused.
Proof.
  intros L b. assert (M : marked two_at_once (fun _ => false)) by (vm_compute; tauto). split; [exact M|]. split; [vm_compute; reflexivity|]. split; [|vm_compute; reflexivity].
  cbn -[l_hmac l_cmac Z.ltb digest_length]. change (32 <? digest_length 1) with false. reflexivity.
Qed.
