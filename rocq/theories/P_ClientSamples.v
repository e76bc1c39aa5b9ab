(** Proofs: several samples in one call. *)
From Verif Require Import Base M_KeyStore M_Marshal S_Marshal M_Client S_Client P_Client7 M_ClientSamples S_ClientSamples.

Section Proofs.
Variable buffers : nat -> place.
Variable imp : nat -> app -> reply.
Variable contents : nat -> Z -> Z -> Z -> bytes.
Variable junk : nat -> nat -> nat -> bytes.
Variable initial : nat -> Z.
Hypothesis Himp : forall i, word_sized (imp i).
Hypothesis Hjunk : forall i, allocator (junk i).
Hypothesis Hinitial : forall i, is_u64 (initial i).
Hypothesis Hbuffers : forall b, wf_place (buffers b).
Hypothesis Hsized : sized contents buffers.

Let call i o iv s lengths out inp : app :=
  CommonEncryption (MkSample iv (ts_crypt s) (ts_skip s) lengths (ts_context s)
    (as_out buffers out (o out)) (as_in buffers contents i inp (o inp))).

Lemma call_proper i (o : offsets) iv s lengths out inp : (forall b, is_u64 (o b)) ->
  wf_tsample s -> ts_iv s = Some iv -> ts_lengths s = Some lengths -> proper (call i o iv s lengths out inp).
Proof.
  intros O (W1 & W2 & W3 & W4 & W5) E1 E2. rewrite E1 in W1. rewrite E2 in W5. destruct W5 as (W5 & W6). cbn [opt] in W1.
  unfold call. cbn [proper sm_iv sm_crypt sm_skip sm_context sm_lengths sm_out sm_in].
  split; [exact W1|]. split; [exact W2|]. split; [exact W3|]. split; [exact W4|]. split; [exact W5|]. split; [exact W6|].
  split.
  - pose proof (Hbuffers out) as B. unfold as_out. destruct (buffers out); cbn [wf_buf wf_out wf_place] in *; auto.
    destruct B as (B1 & B2 & B3). auto.
  - pose proof (Hbuffers inp) as B. unfold as_in. destruct (buffers inp) eqn:E; cbn [wf_buf wf_in wf_place] in *; auto.
    + split; [|auto]. unfold fits. rewrite (Hsized i inp _ _ _ E). apply B.
    + destruct B as (B1 & B2 & B3). auto.
Qed.

Lemma call_complete i (o : offsets) iv s lengths out inp :
  ts_iv s = Some iv -> ts_lengths s = Some lengths -> ts_out s = Some out -> ts_in s = Some inp ->
  complete (call i o iv s lengths out inp) = usable buffers o s.
Proof.
  intros E1 E2 E3 E4. unfold usable, call. rewrite E1, E2, E3, E4. cbn [complete sm_iv sm_lengths sm_out sm_in].
  destruct lengths as [|x lengths]; cbn [nonempty]; [rewrite andb_false_r; reflexivity|]. rewrite andb_true_r.
  f_equal; [f_equal|].
  - unfold as_out, room. destruct (buffers out); reflexivity.
  - unfold as_in, room. destruct (buffers inp) eqn:E; try reflexivity. cbn [in_room]. rewrite (Hsized i inp _ _ _ E). reflexivity.
Qed.

Lemma call_meaning i (o : offsets) iv s lengths out inp :
  ts_iv s = Some iv -> ts_lengths s = Some lengths -> ts_out s = Some out -> ts_in s = Some inp ->
  usable buffers o s = true -> meaning (call i o iv s lengths out inp) = request buffers contents i o s.
Proof.
  intros E1 E2 E3 E4 U. unfold usable in U. unfold request, call. rewrite E1, E2, E3, E4 in *. cbn [meaning sm_iv sm_crypt sm_skip sm_lengths sm_context sm_out sm_in].
  destruct lengths; [discriminate|].
  apply andb_prop in U. destruct U as (U1 & U2). apply andb_prop in U1. destruct U1 as (_ & U1).
  f_equal. f_equal.
  - unfold as_out, target. unfold room in U1. destruct (buffers out); [discriminate| |]; reflexivity.
  - unfold as_in, source. unfold room in U2. destruct (buffers inp); [discriminate| |]; reflexivity.
Qed.

Lemma word_u64 i a n : is_u64 (word (imp i a) n).
Proof.
  unfold word. pose proof (Himp i a) as H. rewrite Forall_forall in H.
  destruct (Nat.lt_ge_cases n (length (r_words (imp i a)))) as [L|L].
  - apply H. apply nth_In. exact L.
  - rewrite nth_overflow by exact L. split; [lia|reflexivity].
Qed.
Lemma wrap_u64 x : is_u64 (wrap64 x).
Proof. unfold is_u64, wrap64. apply Z.mod_pos_bound. reflexivity. Qed.

Lemma advanced_out b off n : advanced (as_out buffers b off) n = moved buffers b off n.
Proof. unfold as_out, moved. destruct (buffers b); reflexivity. Qed.
Lemma advanced_in i b off n : advanced (as_in buffers contents i b off) n = moved buffers b off n.
Proof. unfold as_in, moved. destruct (buffers b); reflexivity. Qed.
Lemma advance_moved b before now n : advance_clear buffers b before now (moved buffers b before n) = moved buffers b now n.
Proof.
  unfold advance_clear, moved. destruct (buffers b); try reflexivity.
  - unfold wrap64. replace (now + ((before + n) mod W64 - before)) with ((now - before) + (before + n) mod W64) by lia.
    rewrite Zplus_mod_idemp_r. f_equal. lia.
  - unfold wrap64. replace (now + ((before + n) mod W64 - before)) with ((now - before) + (before + n) mod W64) by lia.
    rewrite Zplus_mod_idemp_r. f_equal. lia.
Qed.

Lemma written_back i (o : offsets) s out inp a : ts_out s = Some out -> ts_in s = Some inp ->
  write_back buffers o out inp [advanced (as_out buffers out (o out)) (word (imp i a) 0);
                                advanced (as_in buffers contents i inp (o inp)) (word (imp i a) 1)]
  = moved_on buffers o s (imp i a).
Proof.
  intros E1 E2. unfold write_back, moved_on. rewrite E1, E2. cbn [nth]. rewrite advanced_out, advanced_in, !advance_moved. reflexivity.
Qed.

Lemma moved_u64 b off i a n : is_u64 (moved buffers b off (word (imp i a) n)).
Proof. unfold moved. destruct (buffers b); try apply wrap_u64. apply word_u64. Qed.
Lemma moved_on_u64 (o : offsets) s i a : (forall b, is_u64 (o b)) -> forall b, is_u64 (moved_on buffers o s (imp i a) b).
Proof.
  intros O b. unfold moved_on. destruct (ts_out s) as [out|]; [|apply O]. destruct (ts_in s) as [inp|]; [|apply O].
  cbn zeta. unfold set_offset. destruct (Nat.eqb b inp); [apply moved_u64|]. destruct (Nat.eqb b out); [apply moved_u64|apply O].
Qed.

Lemma samples_in_order l : forall i (o : offsets), (forall b, is_u64 (o b)) -> Forall wf_tsample l ->
  exists st calls o', lib_samples buffers imp contents junk initial i o l = Some (st, calls, o') /\
                      in_order buffers imp contents i o l st calls o'.
Proof.
  induction l as [|s l IH]; intros i o O W.
  { exists OK, [], o. split; [reflexivity|]. constructor. reflexivity. }
  inversion W as [|x y Ws Wl]; subst x y. cbn [lib_samples].
  assert (N : forall st, usable buffers o s = false -> st = NULL_PARAMETER \/ st = INVALID_PARAMETER ->
     exists st' calls o', Some (st, @nil app, o) = Some (st', calls, o') /\ in_order buffers imp contents i o (s :: l) st' calls o').
  { intros st U V. exists st, [], o. split; [reflexivity|]. apply not_usable; auto. }
  destruct (ts_iv s) as [iv|] eqn:E1; [|apply N; [unfold usable; rewrite E1|]; auto].
  destruct (zlen iv =? 16) eqn:L; cbn [negb];
    [|apply N; [unfold usable; rewrite E1, L; destruct (ts_lengths s) as [[|? ?]|], (ts_out s), (ts_in s)|]; auto].
  destruct (ts_lengths s) as [lengths|] eqn:E2; [|apply N; [unfold usable; rewrite E1, E2|]; auto].
  destruct (ts_out s) as [out|] eqn:E3; [|apply N; [unfold usable; rewrite E1, E2, E3; destruct lengths|]; auto].
  destruct (ts_in s) as [inp|] eqn:E4; [|apply N; [unfold usable; rewrite E1, E2, E3, E4; destruct lengths|]; auto].
  pose proof (call_proper i o iv s lengths out inp O Ws E1 E2) as P.
  pose proof (call_complete i o iv s lengths out inp E1 E2 E3 E4) as C.
  fold (call i o iv s lengths out inp).
  destruct (usable buffers o s) eqn:U.
  - destruct (all_reach (imp i) (junk i) (initial i) _ (Himp i) (Hjunk i) (Hinitial i) P C Logic.I) as (r & E & A1 & A2).
    rewrite E. pose proof (call_meaning i o iv s lengths out inp E1 E2 E3 E4 U) as M. rewrite M in *. rewrite A1.
    destruct (status_eqb (r_status (imp i (request buffers contents i o s))) OK) eqn:S; cbn [negb].
    + assert (S' : r_status (imp i (request buffers contents i o s)) = OK)
        by (destruct (r_status (imp i (request buffers contents i o s))); try discriminate; reflexivity).
      destruct (A2 S') as (A3 & _). rewrite A3. unfold call. cbn [results sm_out sm_in]. rewrite (written_back i o s out inp _ E3 E4).
      destruct (IH (Datatypes.S i) _ (moved_on_u64 o s i (request buffers contents i o s) O) Wl) as (st & calls & o' & R & I).
      rewrite R. exists st, (request buffers contents i o s :: calls), o'. split; [reflexivity|]. apply one_more; auto.
    + do 3 eexists. split; [reflexivity|]. apply not_done; auto. intros Q. rewrite Q in S. discriminate.
  - destruct (all_refused (imp i) (junk i) (initial i) _ (Hjunk i) (Hinitial i) P C) as (st & E & V). rewrite E. cbn [r_status].
    destruct V as [V|V]; rewrite V; cbn [status_eqb negb]; apply N; auto.
Qed.
End Proofs.

Lemma process_in_order buffers imp contents junk initial l o :
  (forall i, word_sized (imp i)) -> (forall i, allocator (junk i)) -> (forall i, is_u64 (initial i)) ->
  (forall b, wf_place (buffers b)) -> sized contents buffers -> (forall b, is_u64 (o b)) -> Forall wf_tsample l -> l <> [] ->
  exists st calls o', lib_process buffers imp contents junk initial (Some l) o = Some (st, calls, o') /\
                      in_order buffers imp contents 0 o l st calls o'.
Proof.
  intros H1 H2 H3 H4 H5 H6 H7 H8. destruct l as [|s l]; [destruct (H8 eq_refl)|]. unfold lib_process. apply samples_in_order; auto.
Qed.

(** What follows for every order. *)
Lemma ordered_calls buffers imp contents i o l st calls o' : in_order buffers imp contents i o l st calls o' ->
  (st = OK -> length calls = length l) /\ (length calls <= length l)%nat /\
  (forall n c, nth_error calls n = Some c -> (S n < length calls)%nat -> r_status (imp (i + n)%nat c) = OK).
Proof.
  induction 1 as [i o o' E|i o o' s rest st U V E|i o o' s rest U V E|i o o' s rest st calls U V O (IH1 & IH2 & IH3)].
  - cbn [length]. split; [reflexivity|]. split; [lia|]. intros n c _ L. lia.
  - cbn [length]. split; [intros ->; destruct V; discriminate|]. split; [lia|]. intros n c _ L. lia.
  - cbn [length]. split; [intros Q; destruct (V Q)|]. split; [lia|]. intros n c _ L. lia.
  - cbn [length]. split; [intros Q; rewrite IH1; auto|]. split; [lia|]. intros [|n] c Q L.
    + injection Q as <-. rewrite Nat.add_0_r. exact V.
    + replace (i + S n)%nat with (S i + n)%nat by lia. apply IH3; [exact Q|lia].
Qed.

Lemma wrap_wrap x y : wrap64 (wrap64 x + y) = wrap64 (x + y).
Proof. unfold wrap64. apply Zplus_mod_idemp_l. Qed.

Lemma ordered_moves buffers imp contents i o l st calls o' : in_order buffers imp contents i o l st calls o' -> st = OK ->
  forall b, (match buffers b with Protected _ _ => False | _ => True end) ->
  wrap64 (o' b) = wrap64 (o b + movement imp i b l calls).
Proof.
  induction 1 as [i o o' E|i o o' s rest st U V E|i o o' s rest U V E|i o o' s rest st calls U V O IH]; intros Q b B.
  - cbn [movement]. rewrite E, Z.add_0_r. reflexivity.
  - subst st. destruct V; discriminate.
  - destruct (V Q).
  - rewrite (IH Q b B). cbn [movement]. unfold moved_on. unfold usable in U.
    destruct (ts_iv s); [|discriminate]. destruct (ts_lengths s) as [[|? ?]|]; try discriminate.
    destruct (ts_out s) as [out|]; [|discriminate]. destruct (ts_in s) as [inp|]; [|discriminate].
    cbn zeta. unfold set_offset. rewrite (Nat.eqb_sym out b), (Nat.eqb_sym inp b).
    destruct (Nat.eqb b inp) eqn:E1, (Nat.eqb b out) eqn:E2; try (apply Nat.eqb_eq in E1; subst b); try (apply Nat.eqb_eq in E2; subst inp);
      try (apply Nat.eqb_eq in E2; subst out).
    + rewrite Nat.eqb_refl. unfold moved. destruct (buffers out); try (destruct B);
      rewrite wrap_wrap, <- Z.add_assoc, wrap_wrap; f_equal; lia.
    + rewrite E2. unfold moved. destruct (buffers inp); try (destruct B); rewrite wrap_wrap; f_equal; lia.
    + unfold moved. destruct (buffers b); try (destruct B); rewrite wrap_wrap; f_equal; lia.
    + reflexivity.
Qed.

Lemma process_ok buffers imp contents junk initial l o calls o' :
  (forall i, word_sized (imp i)) -> (forall i, allocator (junk i)) -> (forall i, is_u64 (initial i)) ->
  (forall b, wf_place (buffers b)) -> sized contents buffers -> (forall b, is_u64 (o b)) -> Forall wf_tsample l ->
  lib_process buffers imp contents junk initial (Some l) o = Some (OK, calls, o') ->
  length calls = length l /\
  forall b, (match buffers b with Protected _ _ => False | _ => True end) ->
  wrap64 (o' b) = wrap64 (o b + movement imp 0 b l calls).
Proof.
  intros H1 H2 H3 H4 H5 H6 H7 E. destruct l as [|s l]; [discriminate|].
  destruct (process_in_order buffers imp contents junk initial (s :: l) o H1 H2 H3 H4 H5 H6 H7 ltac:(discriminate)) as (st & c & o1 & E1 & O).
  rewrite E in E1. injection E1 as <- <- <-. split.
  - apply (proj1 (ordered_calls _ _ _ _ _ _ _ _ _ O)). reflexivity.
  - intros b B. eapply ordered_moves; eauto.
Qed.

(** A later sample that is refused: the earlier ones have been done. *)
Lemma process_undone buffers imp contents junk initial o s s' :
  (forall i, word_sized (imp i)) -> (forall i, allocator (junk i)) -> (forall i, is_u64 (initial i)) ->
  (forall b, wf_place (buffers b)) -> sized contents buffers -> (forall b, is_u64 (o b)) -> wf_tsample s -> wf_tsample s' ->
  usable buffers o s = true -> r_status (imp 0%nat (request buffers contents 0 o s)) = OK -> ts_iv s' = None ->
  exists st o', lib_process buffers imp contents junk initial (Some [s; s']) o = Some (st, [request buffers contents 0 o s], o') /\
    (st = NULL_PARAMETER \/ st = INVALID_PARAMETER) /\
    forall b, o' b = moved_on buffers o s (imp 0%nat (request buffers contents 0 o s)) b.
Proof.
  intros H1 H2 H3 H4 H5 H6 W W' U V N.
  destruct (process_in_order buffers imp contents junk initial [s; s'] o H1 H2 H3 H4 H5 H6 ltac:(auto) ltac:(discriminate)) as (st & c & o1 & E1 & O).
  inversion O as [|? ? ? ? ? ? U' ? ?|? ? ? ? ? ? V' ?|? ? ? ? ? ? calls ? ? O']; subst; try congruence.
  assert (UU : forall p, usable buffers p s' = false) by (intros p; unfold usable; rewrite N; reflexivity).
  inversion O' as [|? ? ? ? ? ? U' ST OO|? ? ? ? ? U' V' ?|? ? ? ? ? ? ? U' ? ?]; subst; try (rewrite UU in U'; discriminate).
  exists st, o1. auto.
Qed.
