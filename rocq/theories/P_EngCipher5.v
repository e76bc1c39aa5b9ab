(** Proofs: the engine's ciphers; what follows for the caller. *)
From Verif Require Import Base M_EngCipher S_EngCipher P_EngCipher P_EngCipher2 P_EngCipher3 P_EngCipher4.

Section Engine.
Variable crypt : alg -> bool -> Z -> bytes -> bytes -> bytes -> bytes -> bytes.
Variable mac : alg -> Z -> bytes -> bytes -> bytes -> bytes.
Variable key_size : Z -> option Z.
Notation step := (step crypt mac key_size).
Notation do_cipher := (do_cipher crypt mac).
Notation history := (history crypt mac key_size).
Notation after := (after crypt mac key_size).
Notation answer_to := (answer_to crypt mac key_size).
Notation carries := (carries mac).

Lemma answer_step l o a : answer_to l o a <-> snd (step o (after l)) = a.
Proof. unfold S_EngCipher.answer_to. rewrite history_snoc. split; [intros Q; injection Q; auto|intros ->; reflexivity]. Qed.

Lemma at_hand l c j : careful (history l) c = true -> job_of (history l) c = Some j -> carries j (after l) c.
Proof. intros C J. destruct (holds crypt mac key_size l) as (_ & _ & H). exact (H c C j J). Qed.

Lemma output l c j d ok1 ok2 b : careful (history l) c = true -> job_of (history l) c = Some j ->
  answer_to l (Data c d ok1 ok2) (Bytes b) ->
  exists key iv enc, the_key j = Some key /\ vector j = Some iv /\ j_enc j = Some enc /\ j_ended j = false /\
    b = crypt (j_alg j) enc key iv (j_aad j) (j_data j) d.
Proof.
  intros CF J A. apply answer_step in A. pose proof (at_hand l c j CF J) as CR. destruct CR as (e & E & CR').
  cbn [M_EngCipher.step] in A. rewrite E in A. destruct (do_cipher e (InData d) ok1 ok2 (after l)) as (w', r) eqn:D. cbn [snd] in A.
  rewrite (data_bytes crypt mac _ _ _ _ _ _ _ _ D A) in D.
  destruct (data_call crypt mac j (after l) c e d ok1 ok2 b w' (at_hand l c j CF J) E D) as (X & _). exact X.
Qed.

(** The context of the secure API is there, or can be opened. *)
Lemma opens j w c aad key iv : carries j w c -> the_key j = Some key -> vector j = Some iv ->
  exists e i a w1 n, w_evp w c = Some e /\ e_alg e = j_alg j /\ e_app e = Some i /\ w_app w i = Some a /\ a_key a <> None /\
    open_sa i a aad true w = (w1, Some n, false) /\
    exists a1, P_EngCipher3.working mac j (if j_started j then j_aad j else if custom (j_alg j) then aad else []) w1 i n a1 key iv /\ a_tag a1 = a_tag a.
Proof.
  intros (e & E & E1 & E2 & R) K V. destruct (e_app e) as [i|] eqn:EA.
  2: { rewrite R in K. discriminate. }
  destruct R as (P & a & A & R1 & R2 & R3 & R4 & R5).
  assert (O : exists w1 n, open_sa i a aad true w = (w1, Some n, false)).
  { unfold open_sa. unfold P_EngCipher2.at_work in R5. destruct (a_ctx a) as [n|] eqn:C; [eauto|]. destruct R5 as (_ & _ & _ & _ & R5 & R6 & _).
    unfold the_key in K. destruct (j_key j) as [(k, x)|] eqn:JK; [|discriminate]. rewrite R3. cbn [option_map fst]. rewrite (R5 k x eq_refl), K.
    unfold vector in V. change has_vector with needs_iv in V. rewrite R1. destruct (needs_iv (j_alg j)); [|cbn [negb]; eauto].
    destruct (j_iv j) as [(v, y)|] eqn:JV; [|discriminate]. rewrite R4. cbn [option_map fst]. rewrite (R6 v y eq_refl), V. cbn [negb]. eauto. }
  destruct O as (w1 & n & O). exists e, i, a, w1, n. split; [exact E|]. split; [exact E1|]. split; [exact EA|]. split; [exact A|]. split.
  { rewrite R3. unfold the_key in K. destruct (j_key j) as [(k, x)|]; [discriminate|discriminate]. }
  split; [exact O|].
  destruct (opened mac j w i a aad true w1 n false A R1 R2 R3 R4 R5 O) as (a1 & key' & iv' & W & T & _).
  exists a1. split; [|exact T]. destruct W as (W1 & W2 & W3 & W4 & W5 & W6 & W7 & W8 & W). unfold P_EngCipher3.working.
  rewrite K in W7. rewrite V in W8. injection W7 as <-. injection W8 as <-. auto 12.
Qed.
Lemma same_aad j w c : carries j w c -> (if j_started j then j_aad j else if custom (j_alg j) then [] else []) = j_aad j.
Proof.
  intros (e & E & E1 & E2 & R). destruct (j_started j) eqn:S; [reflexivity|]. destruct (e_app e) as [i|].
  - destruct R as (P & a & A & R1 & R2 & R3 & R4 & R5). unfold P_EngCipher2.at_work in R5. destruct (a_ctx a).
    + destruct R5 as (R5 & _). congruence.
    + destruct R5 as (_ & _ & R5 & _). rewrite R5. destruct (custom (j_alg j)); reflexivity.
  - rewrite R. cbn. destruct (custom (j_alg j)); reflexivity.
Qed.

Lemma output_given l c j d key iv enc : careful (history l) c = true -> job_of (history l) c = Some j ->
  the_key j = Some key -> vector j = Some iv -> j_enc j = Some enc -> j_ended j = false -> custom (j_alg j) = true \/ d <> [] ->
  answer_to l (Data c d true true) (Bytes (crypt (j_alg j) enc key iv (j_aad j) (j_data j) d)).
Proof.
  intros CF J K V EN ND NE. apply answer_step. pose proof (at_hand l c j CF J) as CR.
  destruct (opens j (after l) c [] key iv CR K V) as (e & i & a & w1 & n & E & E1 & EA & A & AK & O & a1 & (W1 & W2 & W3 & W4 & W5 & W6 & W7 & W8 & W9 & W10) & T).
  rewrite (same_aad _ _ _ CR) in W9. cbn [M_EngCipher.step]. rewrite E. unfold M_EngCipher.do_cipher. rewrite EA, A.
  destruct (a_key a); [|destruct (AK eq_refl)]. rewrite O. unfold sa_process. rewrite W9. cbn [s_done s_alg s_enc s_key s_iv s_aad s_data negb orb]. rewrite ND.
  cbn [snd reading]. rewrite E1. replace enc with (a_enc a1) by congruence.
  destruct (custom (j_alg j)).
  - destruct (zlen d <? 0) eqn:Q; [|reflexivity]. apply Z.ltb_lt in Q. unfold zlen in Q. lia.
  - destruct NE as [NE|NE]; [discriminate|]. destruct (zlen d =? 0) eqn:Q; [|reflexivity]. apply Z.eqb_eq in Q. unfold zlen in Q. destruct d; [destruct (NE eq_refl)|cbn in Q; lia].
Qed.

Lemma tag_of_encryption l c j key iv n : careful (history l) c = true -> job_of (history l) c = Some j -> custom (j_alg j) = true ->
  j_ended j = true -> j_enc j = Some true -> the_key j = Some key -> vector j = Some iv -> 0 <= n <= TAG ->
  answer_to l (GetTag c n) (Bytes (firstn (Z.to_nat n) (mac (j_alg j) key iv (j_aad j) (j_data j)))).
Proof.
  intros CF J CU EN EE K V N. apply answer_step. destruct (at_hand l c j CF J) as (e & E & E1 & E2 & R). unfold TAG in N.
  cbn [M_EngCipher.step]. rewrite E, E1, CU. cbn [snd]. unfold get_tag.
  destruct (16 <? n) eqn:Q1; [apply Z.ltb_lt in Q1; lia|]. destruct (e_app e) as [i|] eqn:EA; [|rewrite R in EE; discriminate].
  destruct R as (P & a & A & R1 & R2 & R3 & R4 & R5). rewrite A. destruct (n <? 0) eqn:Q2; [apply Z.ltb_lt in Q2; lia|].
  unfold P_EngCipher2.at_work in R5. destruct (a_ctx a); [|destruct R5 as (_ & R5 & _); congruence].
  destruct R5 as (_ & key' & iv' & K' & V' & _ & T). rewrite T, EN. replace (a_enc a) with true by congruence. cbn [andb].
  rewrite K in K'. rewrite V in V'. injection K' as <-. injection V' as <-. reflexivity.
Qed.

Lemma verified l c j ok1 ok2 : careful (history l) c = true -> job_of (history l) c = Some j -> custom (j_alg j) = true -> j_enc j = Some false ->
  answer_to l (Final c ok1 ok2) Done ->
  exists key iv t, the_key j = Some key /\ vector j = Some iv /\ j_tag j = Some t /\
    t ++ repeat 0 (16 - length t) = mac (j_alg j) key iv (j_aad j) (j_data j).
Proof.
  intros CF J CU EE A. apply answer_step in A. pose proof (at_hand l c j CF J) as CR. destruct CR as (e & E & E1 & _).
  cbn [M_EngCipher.step] in A. rewrite E in A. assert (CE : custom (e_alg e) = true) by congruence. rewrite CE in A.
  destruct (do_cipher e InEnd ok1 ok2 (after l)) as (w', r) eqn:D. cbn [snd] in A. rewrite (end_done crypt mac _ _ _ _ _ _ D CE A) in D.
  destruct (final_call crypt mac j (after l) c e ok1 ok2 w' (at_hand l c j CF J) E CU D) as ((key & iv & enc & K & V & EN & _ & T) & _).
  destruct (T ltac:(congruence)) as (t & T1 & T2). exists key, iv, t. auto.
Qed.
Lemma full_tag (t m : bytes) : zlen t = TAG -> t ++ repeat 0 (16 - length t) = m -> t = m.
Proof. unfold zlen, TAG. intros Z0 <-. replace (16 - length t)%nat with O by lia. cbn. symmetry. apply app_nil_r. Qed.
Lemma verified_full l c j ok1 ok2 t : careful (history l) c = true -> job_of (history l) c = Some j -> custom (j_alg j) = true -> j_enc j = Some false ->
  j_tag j = Some t -> zlen t = TAG -> answer_to l (Final c ok1 ok2) Done ->
  exists key iv, the_key j = Some key /\ vector j = Some iv /\ t = mac (j_alg j) key iv (j_aad j) (j_data j).
Proof.
  intros CF J CU EE T Z0 A. destruct (verified l c j ok1 ok2 CF J CU EE A) as (key & iv & t' & K & V & T' & M). rewrite T in T'. injection T' as <-.
  exists key, iv. split; [exact K|]. split; [exact V|]. apply full_tag; assumption.
Qed.

Lemma final_accepts l c j key iv enc : careful (history l) c = true -> job_of (history l) c = Some j -> custom (j_alg j) = true ->
  the_key j = Some key -> vector j = Some iv -> j_enc j = Some enc -> j_ended j = false ->
  (enc = false -> j_tag j = Some (mac (j_alg j) key iv (j_aad j) (j_data j)) /\ zlen (mac (j_alg j) key iv (j_aad j) (j_data j)) = TAG) ->
  answer_to l (Final c true true) Done.
Proof.
  intros CF J CU K V EN ND TG. apply answer_step. pose proof (at_hand l c j CF J) as CR.
  destruct (opens j (after l) c [] key iv CR K V) as (e & i & a & w1 & n & E & E1 & EA & A & AK & O & a1 & (W1 & W2 & W3 & W4 & W5 & W6 & W7 & W8 & W9 & W10) & T).
  rewrite (same_aad _ _ _ CR) in W9. cbn [M_EngCipher.step]. rewrite E, E1, CU. unfold M_EngCipher.do_cipher. rewrite EA, A.
  destruct (a_key a); [|destruct (AK eq_refl)]. rewrite O. rewrite W9. cbn [s_enc]. rewrite <- T. rewrite ND in W10. cbn [andb] in W10.
  assert (AE : a_enc a1 = enc) by congruence. rewrite AE in *.
  destruct enc.
  - assert (Q : forall t, snd (let (w, r) := match sa_last mac n t true w1 with
        | (w, Some (Some tag)) => (match w_app w i with
                               | Some a => set_app w i (Some (MkApp (a_key a) (a_iv a) (a_enc a) (a_alg a) (a_ctx a) (Some tag)))
                               | None => w end, DRes 0 None)
        | (w, Some None) => (w, DRes 0 None)
        | (w, None) => (w, DRes (-1) None) end in (w, reading e r)) = Done).
    { intros t. unfold sa_last. rewrite W9. cbn [s_done s_alg s_enc s_key s_iv s_aad s_data negb orb]. rewrite ND.
      cbn [snd reading]. rewrite E1, CU. reflexivity. }
    destruct (a_tag a1); apply Q.
  - destruct (TG eq_refl) as (JT & Z0). rewrite W10, JT. cbn [option_map]. unfold sa_last. rewrite W9.
    cbn [s_done s_alg s_enc s_key s_iv s_aad s_data negb orb]. rewrite ND.
    assert (PT : pad (mac (j_alg j) key iv (j_aad j) (j_data j)) = mac (j_alg j) key iv (j_aad j) (j_data j)).
    { symmetry. eapply full_tag; [exact Z0|reflexivity]. }
    rewrite PT. unfold same. destruct (list_eq_dec Z.eq_dec (mac (j_alg j) key iv (j_aad j) (j_data j)) (mac (j_alg j) key iv (j_aad j) (j_data j))) as [_|N]; [|destruct (N eq_refl)].
    cbn [snd reading]. rewrite E1, CU. reflexivity.
Qed.

(** Contexts open, resources held. *)
Lemma is_open_spec l c : is_open (history l) c = true <-> w_evp (after l) c <> None.
Proof.
  induction l as [|o l IH] using rev_ind; [cbn; split; [discriminate|intros Q; destruct (Q eq_refl)]|].
  rewrite history_snoc, after_snoc. destruct (holds crypt mac key_size l) as (g & _ & _).
  assert (DC : forall c1 e inp ok1 ok2 w' r, w_evp (after l) c1 = Some e -> do_cipher e inp ok1 ok2 (after l) = (w', r) -> w_evp w' c = w_evp (after l) c).
  { intros c1 e inp ok1 ok2 w' r E D. destruct (e_app e) as [i|] eqn:EA.
    - destruct (do_cipher_world crypt mac key_size e inp ok1 ok2 _ w' r c1 i g E EA D) as (_ & F). destruct F as [k1 _ _ _ _ _ _]. rewrite k1. reflexivity.
    - rewrite do_cipher_none in D by exact EA. injection D as <- _. reflexivity. }
  destruct o as [b x|b x|c1 al len|c1 key iv enc memory|c1 data ok|c1 data ok1 ok2|c1 ok1 ok2|c1 n|c1 n tag|c1 c2|c1]; cbn [M_EngCipher.step].
  - exact IH.
  - exact IH.
  - destruct (w_evp (after l) c1) as [e|] eqn:E; cbn [fst snd is_open]; [exact IH|]. proj. unfold here, upd.
    rewrite (Nat.eqb_sym c1 c). destruct (Nat.eqb c c1); cbn [orb]; [split; [discriminate|reflexivity]|exact IH].
  - destruct (w_evp (after l) c1) as [e|] eqn:E; [|exact IH]. cbn [is_open].
    assert (X : (w_evp (fst (cipher_init key_size e c1 key iv enc memory (after l))) c <> None) <-> (w_evp (after l) c <> None)).
    { destruct (e_app e) as [i|] eqn:EA.
      - destruct (cipher_init key_size e c1 key iv enc memory (after l)) as (w', r) eqn:I. destruct (init_world key_size _ _ _ _ _ _ _ _ _ _ g E EA I) as (_ & [k1 _ _ _ _ _ _]).
        cbn [fst]. rewrite k1. reflexivity.
      - unfold cipher_init. rewrite EA. destruct memory; [|reflexivity].
        assert (Y : forall w', w_evp w' = upd (w_evp (after l)) c1 (Some (MkEvp (e_alg e) (e_len e) (Some (w_apps (after l))))) ->
           (w_evp w' c <> None) <-> (w_evp (after l) c <> None)).
        { intros w' ->. destruct (upd_cases (w_evp (after l)) c1 (Some (MkEvp (e_alg e) (e_len e) (Some (w_apps (after l))))) c) as [(-> & ->)|(N & ->)]; [|reflexivity].
          rewrite E. split; discriminate. }
        apply Y. destruct key as [k|]; [match goal with |- context [w_keys ?u k] => destruct (w_keys u k) as [y|] end; [destruct (key_size y) as [n|]; [destruct (n =? e_len e)|]|]|]; destruct iv; reflexivity. }
    rewrite X. exact IH.
  - destruct (w_evp (after l) c1) as [e|] eqn:E; [|exact IH]. destruct (custom (e_alg e)); [|exact IH].
    destruct (do_cipher e (InAad data) ok true (after l)) as (w', r) eqn:D. cbn [fst snd is_open]. rewrite (DC _ _ _ _ _ _ _ E D). exact IH.
  - destruct (w_evp (after l) c1) as [e|] eqn:E; [|exact IH].
    destruct (do_cipher e (InData data) ok1 ok2 (after l)) as (w', r) eqn:D. cbn [fst snd is_open]. rewrite (DC _ _ _ _ _ _ _ E D). exact IH.
  - destruct (w_evp (after l) c1) as [e|] eqn:E; [|exact IH]. destruct (custom (e_alg e)); [|exact IH].
    destruct (do_cipher e InEnd ok1 ok2 (after l)) as (w', r) eqn:D. cbn [fst snd is_open]. rewrite (DC _ _ _ _ _ _ _ E D). exact IH.
  - destruct (w_evp (after l) c1) as [e|] eqn:E; [|exact IH]. destruct (custom (e_alg e)); exact IH.
  - destruct (w_evp (after l) c1) as [e|] eqn:E; [|exact IH]. destruct (custom (e_alg e)); [|exact IH]. unfold set_tag.
    destruct (16 <? n); [exact IH|]. destruct (e_app e); [|exact IH]. destruct (w_app (after l) n0); [|exact IH]. destruct (n <? 0); exact IH.
  - destruct (w_evp (after l) c1) as [e|] eqn:E; [|exact IH]. destruct (w_evp (after l) c2) as [e2|] eqn:E2; [exact IH|]. cbn [fst snd is_open]. proj. unfold here, upd.
    rewrite (Nat.eqb_sym c2 c). destruct (Nat.eqb c c2); cbn [orb]; [split; [discriminate|reflexivity]|exact IH].
  - assert (Y : forall w' a, w_evp w' = upd (w_evp (after l)) c1 None -> is_open ((Reset c1, a) :: history l) c = true <-> w_evp w' c <> None).
    { intros w' a ->. cbn [is_open]. unfold here, upd. rewrite (Nat.eqb_sym c1 c). destruct (Nat.eqb c c1); [|exact IH]. split; [discriminate|intros Q; destruct (Q eq_refl)]. }
    destruct (w_evp (after l) c1) as [e|] eqn:E.
    + unfold cleanup. destruct (e_app e) as [i|]; [destruct (w_app (after l) i) as [a|]|]; cbn [fst snd]; apply Y; try reflexivity. destruct (a_ctx a); reflexivity.
    + cbn [fst snd is_open]. destruct (here c c1) eqn:H; [|exact IH]. apply here_same in H. subst c1. rewrite E. split; [discriminate|intros Q; destruct (Q eq_refl)].
Qed.

Lemma nothing_left l : (forall c, is_open (history l) c = false) -> holds_nothing (after l).
Proof.
  intros N. destruct (holds crypt mac key_size l) as (g & _ & _).
  assert (A : forall i, w_app (after l) i = None).
  { intros i. destruct (w_app (after l) i) as [a|] eqn:A; [|reflexivity]. destruct (g_ref _ g i a A) as (c & e & E & _).
    assert (X : is_open (history l) c = true) by (apply is_open_spec; congruence). rewrite N in X. discriminate. }
  split; [exact A|]. intros n. destruct (w_sa (after l) n) as [s|] eqn:S; [|reflexivity]. destruct (g_sa _ g n s S) as (i & a & B & _). rewrite A in B. discriminate.
Qed.

(** No undefined behaviour. *)
Lemma no_crash_open j w c aad ok e i a : carries j w c -> w_evp w c = Some e -> e_app e = Some i -> w_app w i = Some a ->
  (forall k, j_key j <> Some (k, None)) -> (forall v, j_iv j <> Some (v, None)) -> snd (open_sa i a aad ok w) = false.
Proof.
  intros (e' & E & E1 & E2 & R) Ee EA A HK HV. rewrite Ee in E. injection E as <-. rewrite EA in R. destruct R as (P & a' & A' & R1 & R2 & R3 & R4 & R5).
  rewrite A in A'. injection A' as <-. unfold open_sa. unfold P_EngCipher2.at_work in R5. destruct (a_ctx a) eqn:C; [reflexivity|].
  destruct R5 as (_ & _ & _ & _ & R5 & R6 & _). destruct (a_key a) as [k|] eqn:AK; [|reflexivity].
  destruct (j_key j) as [(k1, x)|] eqn:JK; [|discriminate]. cbn in R3. injection R3 as ->. rewrite (R5 k1 x eq_refl).
  destruct x as [x|]; [|destruct (HK k1 eq_refl)]. destruct (needs_iv (a_alg a)); [|destruct (negb ok); reflexivity].
  destruct (a_iv a) as [v|] eqn:AV; [|reflexivity]. destruct (j_iv j) as [(v1, y)|] eqn:JV; [|discriminate]. cbn in R4. injection R4 as ->. rewrite (R6 v1 y eq_refl).
  destruct y as [y|]; [|destruct (HV v1 eq_refl)]. destruct (negb ok); reflexivity.
Qed.
(** A key noted was there. *)
Lemma key_was_there l c j k : careful (history l) c = true -> job_of (history l) c = Some j -> j_key j <> Some (k, None).
Proof.
  revert c j. induction l as [|o l IH] using rev_ind; [discriminate|]. intros c j.
  rewrite history_snoc. destruct (about o c) eqn:AB.
  2: { intros CF. rewrite job_other by exact AB. intros J. apply (IH c); [eapply careful_other; eauto|exact J]. }
  destruct (holds crypt mac key_size l) as (_ & (MK & _) & _).
  destruct o as [b x|b x|c1 al len|c1 key iv enc memory|c1 data ok|c1 data ok1 ok2|c1 ok1 ok2|c1 n|c1 n tag|c1 c2|c1]; cbn [about] in AB; try discriminate.
  - cbn [careful job_of]. rewrite AB. match goal with |- context [snd ?x] => destruct (snd x) end; try (intros CF J; exact (IH c j CF J)). intros _ Q. injection Q as <-. discriminate.
  - pose proof (here_same _ _ AB) as ->. cbn [careful]. rewrite AB. match goal with |- context [snd ?x] => destruct (snd x) eqn:S end; try discriminate. intros CF. apply andb_prop in CF. destruct CF as (_ & CF).
    cbn [job_of]. rewrite AB. destruct (job_of (history l) c) as [j0|] eqn:J0; [|discriminate]. intros Q. injection Q as <-. cbn [j_key].
    destruct key as [k1|]; cbn [option_map instead]; [|exact (IH c j0 CF J0)]. intros Q. assert (X : k1 = k /\ key_memory (history l) k1 = None) by (split; congruence).
    destruct X as (<- & X). rewrite <- MK in X. cbn [M_EngCipher.step] in S. destruct (w_evp (after l) c) as [e|]; [|discriminate]. unfold cipher_init in S.
    destruct (e_app e) as [i|]; [destruct (w_app (after l) i) as [a|]; [|discriminate]|destruct memory; [|discriminate]]; cbv zeta in S; proj; rewrite X in S; discriminate.
  - cbn [careful]. rewrite AB. match goal with |- context [snd ?x] => destruct (snd x) end; try discriminate. intros CF. apply andb_prop in CF. destruct CF as (_ & CF). cbn [job_of]. rewrite AB.
    destruct (job_of (history l) c) as [j0|] eqn:J0; [|discriminate]. intros Q. injection Q as <-. exact (IH c j0 CF J0).
  - cbn [careful]. rewrite AB. match goal with |- context [snd ?x] => destruct (snd x) end; try discriminate. intros CF. cbn [job_of]. rewrite AB.
    destruct (job_of (history l) c) as [j0|] eqn:J0; [|discriminate]. intros Q. injection Q as <-. exact (IH c j0 CF J0).
  - cbn [careful]. rewrite AB. match goal with |- context [snd ?x] => destruct (snd x) end; try discriminate. intros CF. cbn [job_of]. rewrite AB.
    destruct (job_of (history l) c) as [j0|] eqn:J0; [|discriminate]. intros Q. injection Q as <-. destruct (authenticated (j_alg j0)); exact (IH c j0 CF J0).
  - cbn [careful job_of]. intros CF J. exact (IH c j CF J).
  - cbn [careful job_of]. rewrite AB. intros CF. apply andb_prop in CF. destruct CF as (_ & CF). match goal with |- context [snd ?x] => destruct (snd x) end; try (intros J; exact (IH c j CF J)).
    destruct (job_of (history l) c) as [j0|] eqn:J0; [|discriminate]. intros Q. injection Q as <-. exact (IH c j0 CF J0).
  - cbn [careful]. rewrite AB. discriminate.
  - cbn [job_of]. rewrite AB. discriminate.
Qed.

Lemma no_crash l c j o : careful (history l) c = true -> job_of (history l) c = Some j -> supplied (history l) c o -> ~ answer_to l o Crash.
Proof.
  intros CF J SU A. apply answer_step in A. pose proof (at_hand l c j CF J) as CR.
  assert (HK : forall k, j_key j <> Some (k, None)) by (intros k; apply (key_was_there l c j k CF J)).
  destruct (holds crypt mac key_size l) as (_ & (MK & _) & _). set (w := after l) in *.
  assert (CA : exists e, w_evp w c = Some e /\ forall i, e_app e = Some i -> exists a, w_app w i = Some a /\
     (forall n, a_ctx a = Some n -> exists s, w_sa w n = Some s /\ s_enc s = a_enc a) /\ j_enc j = Some (a_enc a) /\ (j_enc j = Some false -> j_tag j <> None -> a_tag a <> None)).
  { destruct CR as (e & E & _ & _ & R). exists e. split; [exact E|]. intros i EA. rewrite EA in R. destruct R as (_ & a & AA & _ & R2 & _ & _ & R5). exists a. split; [exact AA|].
    unfold P_EngCipher2.at_work in R5. destruct (a_ctx a) as [n|].
    - destruct R5 as (_ & key & iv & _ & _ & S & T). split; [intros n0 Q; injection Q as <-; eexists; split; [exact S|reflexivity]|]. split; [exact R2|].
      intros Q1 Q2. rewrite T. replace (a_enc a) with false by congruence. rewrite andb_false_r. destruct (j_tag j); [discriminate|destruct (Q2 eq_refl)].
    - destruct R5 as (_ & _ & _ & _ & _ & _ & T). split; [discriminate|]. split; [exact R2|]. intros _ Q2. rewrite T. destruct (j_tag j); [discriminate|destruct (Q2 eq_refl)]. }
  destruct CA as (e & E & CA).
  destruct o as [b x|b x|c1 al len|c1 key iv enc memory|c1 data ok|c1 data ok1 ok2|c1 ok1 ok2|c1 n|c1 n tag|c1 c2|c1]; cbn [M_EngCipher.step supplied] in *; try discriminate.
  - destruct (w_evp w c1); discriminate.
  - destruct SU as (-> & -> & KM). rewrite E in A. unfold cipher_init in A.
    assert (K : forall w1, w_keys w1 = w_keys w -> forall k, key = Some k -> w_keys w1 k <> None) by (intros w1 -> k Q; rewrite MK; exact (KM k Q)).
    destruct (e_app e) as [i|].
    + destruct (CA i eq_refl) as (a & AA & _). rewrite AA in A. destruct key as [k|].
      * specialize (K w eq_refl k eq_refl). destruct (w_keys w k) as [y|]; [|destruct (K eq_refl)]. destruct (key_size y) as [n|]; [destruct (n =? e_len e)|]; destruct iv; discriminate.
      * destruct iv; discriminate.
    + cbv zeta in A. destruct key as [k|].
      * match type of A with context [w_keys ?u k] => specialize (K u eq_refl k eq_refl); destruct (w_keys u k) as [y|]; [|destruct (K eq_refl)] end.
        destruct (key_size y) as [n|]; [destruct (n =? e_len e)|]; destruct iv; discriminate.
      * destruct iv; discriminate.
  - destruct SU as (-> & HV). specialize (HV j J). rewrite E in A. destruct (custom (e_alg e)) eqn:CU; [|discriminate]. unfold M_EngCipher.do_cipher in A.
    destruct (e_app e) as [i|] eqn:EA; [|cbn [snd reading] in A; rewrite CU in A; discriminate]. destruct (CA i eq_refl) as (a & AA & _). rewrite AA in A.
    destruct (a_key a); [|cbn [snd reading] in A; rewrite CU in A; discriminate].
    pose proof (no_crash_open j w c data ok e i a CR E EA AA HK HV) as NC. destruct (open_sa i a data ok w) as ((w1 & h) & crash). cbn [snd] in NC. subst crash.
    destruct h; cbn [snd reading] in A; rewrite CU in A; discriminate.
  - destruct SU as (-> & HV). specialize (HV j J). rewrite E in A. unfold M_EngCipher.do_cipher in A.
    assert (NR : forall w2 n out, snd (let (w, r) := (w2 : world, DRes n out) in (w, reading e r)) <> Crash).
    { intros w2 n out. cbn [snd reading]. destruct (custom (e_alg e)); [destruct (n <? 0)|destruct (n =? 0)]; destruct out; discriminate. }
    destruct (e_app e) as [i|] eqn:EA; [|exact (NR _ _ _ A)]. destruct (CA i eq_refl) as (a & AA & _). rewrite AA in A.
    destruct (a_key a); [|exact (NR _ _ _ A)].
    pose proof (no_crash_open j w c [] ok1 e i a CR E EA AA HK HV) as NC. destruct (open_sa i a [] ok1 w) as ((w1 & h) & crash). cbn [snd] in NC. subst crash.
    destruct h as [h|]; [|exact (NR _ _ _ A)]. destruct (sa_process crypt h data ok2 w1) as (w2, [out|]); exact (NR _ _ _ A).
  - destruct SU as (-> & SU). destruct (SU j J) as (HV & HT). rewrite E in A. destruct (custom (e_alg e)) eqn:CU; [|discriminate]. unfold M_EngCipher.do_cipher in A.
    assert (NR : forall w2 n out, snd (let (w, r) := (w2 : world, DRes n out) in (w, reading e r)) <> Crash).
    { intros w2 n out. cbn [snd reading]. destruct (custom (e_alg e)); [destruct (n <? 0)|destruct (n =? 0)]; destruct out; discriminate. }
    destruct (e_app e) as [i|] eqn:EA; [|exact (NR _ _ _ A)]. destruct (CA i eq_refl) as (a & AA & CS & EN & TG). rewrite AA in A.
    destruct (a_key a) eqn:AK; [|exact (NR _ _ _ A)].
    pose proof (no_crash_open j w c [] ok1 e i a CR E EA AA HK HV) as NC. destruct (open_sa i a [] ok1 w) as ((w1 & h) & crash) eqn:O. cbn [snd] in NC. subst crash.
    destruct h as [h|]; [|exact (NR _ _ _ A)].
    assert (SE : match w_sa w1 h with Some s => s_enc s | None => true end = a_enc a).
    { destruct (open_sa_spec i a [] ok1 w w1 (Some h) false AA O) as [(-> & [H|H])|(C & H & _ & k & key & iv & K & KV & I & ->)]; [|discriminate|].
      - destruct (CS h (eq_sym H)) as (s & -> & ->). reflexivity.
      - injection H as ->. proj. rewrite upd_same. reflexivity. }
    rewrite SE in A.
    assert (NL : forall t, snd (let (w, r) := match sa_last mac h t ok2 w1 with
        | (w, Some (Some tag)) => (match w_app w i with
                               | Some a => set_app w i (Some (MkApp (a_key a) (a_iv a) (a_enc a) (a_alg a) (a_ctx a) (Some tag)))
                               | None => w end, DRes 0 None)
        | (w, Some None) => (w, DRes 0 None)
        | (w, None) => (w, DRes (-1) None) end in (w, reading e r)) <> Crash).
    { intros t. destruct (sa_last mac h t ok2 w1) as (w2, [[tag|]|]); apply NR. }
    destruct (a_tag a) as [t|] eqn:AT; [exact (NL _ A)|]. destruct (a_enc a) eqn:AE; [exact (NL _ A)|]. apply (TG EN (HT EN)). reflexivity.
  - destruct SU as (-> & N). rewrite E in A. destruct (custom (e_alg e)); [|discriminate]. cbn [snd] in A. unfold get_tag in A. destruct (16 <? n); [discriminate|].
    destruct (e_app e) as [i|]; [|discriminate]. destruct (CA i eq_refl) as (a & AA & _). rewrite AA in A. destruct (n <? 0) eqn:Q; [apply Z.ltb_lt in Q; lia|].
    destruct (a_tag a); [discriminate|]. destruct (n =? 0); discriminate.
  - destruct SU as (-> & N). rewrite E in A. destruct (custom (e_alg e)); [|discriminate]. unfold set_tag in A. destruct (16 <? n); [discriminate|].
    destruct (e_app e) as [i|]; [|discriminate]. destruct (CA i eq_refl) as (a & AA & _). rewrite AA in A. destruct (n <? 0) eqn:Q; [apply Z.ltb_lt in Q; lia|discriminate].
  - destruct (w_evp w c1); [|discriminate]. destruct (w_evp w c2); discriminate.
  - subst c1. rewrite E in A. unfold cleanup in A. destruct (e_app e) as [i|]; [|discriminate]. destruct (CA i eq_refl) as (a & AA & _). rewrite AA in A. discriminate.
Qed.
(** Keys are checked when they are given. *)
Lemma key_checked l c j k iv enc memory : careful (history l) c = true -> job_of (history l) c = Some j ->
  answer_to l (Init c (Some k) iv enc memory) Done -> exists key, key_memory (history l) k = Some key /\ key_size key = Some (j_len j).
Proof.
  intros CF J A. apply answer_step in A. destruct (at_hand l c j CF J) as (e & E & _ & E2 & R). destruct (holds crypt mac key_size l) as (_ & (MK & _) & _).
  cbn [M_EngCipher.step] in A. rewrite E in A. unfold cipher_init in A. rewrite <- MK, <- E2.
  assert (F : forall w1 : world, w_keys w1 = w_keys (after l) -> match w_keys w1 k with
       | None => Crash
       | Some h => match key_size h with Some n => if n =? e_len e then Done else Refused | None => Refused end end = Done ->
     exists key, w_keys (after l) k = Some key /\ key_size key = Some (e_len e)).
  { intros w1 ->. destruct (w_keys (after l) k) as [y|]; [|discriminate]. destruct (key_size y) as [n|] eqn:KS; [|discriminate].
    destruct (n =? e_len e) eqn:Q; [|discriminate]. apply Z.eqb_eq in Q. subst n. eauto. }
  destruct (e_app e) as [i|]; [destruct (w_app (after l) i) as [a|]; [|discriminate]|destruct memory; [|discriminate]]; cbv zeta in A;
    match type of A with context [w_keys ?u k] => apply (F u eq_refl); destruct (w_keys u k) as [y|]; [|discriminate] end;
    (destruct (key_size y) as [n|]; [|discriminate]); (destruct (n =? e_len e); [reflexivity|discriminate]).
Qed.
Lemma init_given l c j key iv enc : careful (history l) c = true -> job_of (history l) c = Some j ->
  (forall k, key = Some k -> exists x, key_memory (history l) k = Some x /\ key_size x = Some (j_len j)) ->
  answer_to l (Init c key iv enc true) Done.
Proof.
  intros CF J K. apply answer_step. destruct (at_hand l c j CF J) as (e & E & _ & E2 & R). destruct (holds crypt mac key_size l) as (_ & (MK & _) & _).
  cbn [M_EngCipher.step]. rewrite E. unfold cipher_init.
  assert (F : forall (w1 : world) k, key = Some k -> w_keys w1 = w_keys (after l) -> match w_keys w1 k with
       | None => Crash
       | Some h => match key_size h with Some n => if n =? e_len e then Done else Refused | None => Refused end end = Done).
  { intros w1 k Q ->. destruct (K k Q) as (x & X & S). rewrite MK, X, S, E2, Z.eqb_refl. reflexivity. }
  destruct (e_app e) as [i|].
  - destruct R as (_ & a & A & _). rewrite A. destruct key as [k|]; [rewrite (F (after l) k eq_refl eq_refl)|]; destruct iv; reflexivity.
  - cbv zeta. destruct key as [k|]; [rewrite (F _ k eq_refl) by reflexivity|]; destruct iv; reflexivity.
Qed.
End Engine.

(** What goes wrong. *)
Ltac wrong := do 5 eexists; split; [vm_compute; reflexivity|]; split; [vm_compute; reflexivity|]; split; [vm_compute; reflexivity|];
  split; [vm_compute; reflexivity|]; split; [vm_compute; reflexivity|]; vm_compute; discriminate.
Lemma again_with_a_vector_wrong : wrong_output show_crypt show_mac show_size again_with_a_vector 0 [2].
Proof. wrong. Qed.
Lemma again_the_other_way_wrong : wrong_output show_crypt show_mac show_size again_the_other_way 0 [2].
Proof. wrong. Qed.
Lemma vector_reused_wrong : wrong_output show_crypt show_mac show_size vector_reused 0 [2].
Proof. wrong. Qed.
Lemma two_pieces_wrong : wrong_output show_crypt show_mac show_size two_pieces 0 [2].
Proof. wrong. Qed.
Lemma vector_gone_crash : answer_to show_crypt show_mac show_size vector_gone (Data 0 [2] true true) Crash.
Proof. vm_compute. reflexivity. Qed.
Lemma failure_as_success : answer_to show_crypt show_mac show_size (prepared ++ [Open 0 CBC 16; Init 0 (Some 100) (Some 200) true true]) (Data 0 [2] true false) Nothing.
Proof. vm_compute. reflexivity. Qed.
Lemma tag_too_early : answer_to show_crypt show_mac show_size (prepared ++ [Open 0 GCM 16; Init 0 (Some 100) (Some 200) true true]) (GetTag 0 16) Unset.
Proof. vm_compute. reflexivity. Qed.
Lemma tag_negative : answer_to show_crypt show_mac show_size (prepared ++ [Open 0 GCM 16; Init 0 (Some 100) (Some 200) true true]) (GetTag 0 (-1)) Crash.
Proof. vm_compute. reflexivity. Qed.
Lemma tag_set_negative : answer_to show_crypt show_mac show_size (prepared ++ [Open 0 GCM 16; Init 0 (Some 100) (Some 200) false true]) (SetTag 0 (-1) [5]) Crash.
Proof. vm_compute. reflexivity. Qed.
Lemma short_tag_refused : answer_to show_crypt show_mac show_size short_tag (Final 0 true true) Refused.
Proof. vm_compute. reflexivity. Qed.
Lemma copied_crash : answer_to show_crypt show_mac show_size copied (Reset 0) Crash.
Proof. vm_compute. reflexivity. Qed.
Lemma no_memory_crash : answer_to show_crypt show_mac show_size (prepared ++ [Open 0 CBC 16]) (Init 0 (Some 100) (Some 200) true false) Crash.
Proof. vm_compute. reflexivity. Qed.
Lemma no_tag_crash : answer_to show_crypt show_mac show_size (prepared ++ [Open 0 GCM 16; Init 0 (Some 100) (Some 200) false true; Data 0 [5] true true]) (Final 0 true true) Crash.
Proof. vm_compute. reflexivity. Qed.
