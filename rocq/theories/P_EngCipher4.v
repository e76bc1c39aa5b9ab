(** Proofs: the engine's ciphers; the message of a context used with care is the one at work. *)
From Verif Require Import Base M_EngCipher S_EngCipher P_EngCipher P_EngCipher2 P_EngCipher3.

Section Engine.
Variable crypt : alg -> bool -> Z -> bytes -> bytes -> bytes -> bytes -> bytes.
Variable mac : alg -> Z -> bytes -> bytes -> bytes -> bytes.
Variable key_size : Z -> option Z.
Notation step := (step crypt mac key_size).
Notation do_cipher := (do_cipher crypt mac).
Notation carries := (carries mac).
Notation at_work := (at_work mac).
Notation L := (L mac).

(** What the answers mean. *)
Lemma data_bytes e d ok1 ok2 w w' r b : do_cipher e (InData d) ok1 ok2 w = (w', r) -> reading e r = Bytes b -> r = DRes (zlen d) (Some b).
Proof.
  intros D R. destruct r as [|n out]; [discriminate|]. cbn [reading] in R.
  assert (O : out = Some b) by (destruct (custom (e_alg e)); [destruct (n <? 0)|destruct (n =? 0)]; try discriminate; destruct out; congruence).
  subst out. clear R. unfold M_EngCipher.do_cipher in D.
  destruct (e_app e) as [i|]; [|discriminate]. destruct (w_app w i) as [a|]; [|discriminate]. destruct (a_key a); [|discriminate].
  destruct (open_sa i a [] ok1 w) as ((w1 & h) & crash). destruct crash; [discriminate|]. destruct h as [h|]; [|discriminate].
  destruct (sa_process crypt h d ok2 w1) as (w2, [out|]); [|discriminate]. injection D as _ <- ->. reflexivity.
Qed.
Lemma aad_done e d ok w w' r : do_cipher e (InAad d) ok true w = (w', r) -> custom (e_alg e) = true -> reading e r = Done -> r = DRes 1 None.
Proof.
  intros D C R. destruct r as [|n out]; [discriminate|]. cbn [reading] in R. rewrite C in R. destruct (n <? 0) eqn:N; [discriminate|].
  unfold M_EngCipher.do_cipher in D.
  destruct (e_app e) as [i|]; [|injection D as _ <- _; discriminate]. destruct (w_app w i) as [a|]; [|discriminate]. destruct (a_key a); [|injection D as _ <- _; discriminate].
  destruct (open_sa i a d ok w) as ((w1 & h) & crash). destruct crash; [discriminate|]. destruct h as [h|]; [|injection D as _ <- _; discriminate].
  injection D as _ <- <-. reflexivity.
Qed.
Lemma end_done e ok1 ok2 w w' r : do_cipher e InEnd ok1 ok2 w = (w', r) -> custom (e_alg e) = true -> reading e r = Done -> r = DRes 0 None.
Proof.
  intros D C R. destruct r as [|n out]; [discriminate|]. cbn [reading] in R. rewrite C in R. destruct (n <? 0) eqn:N; [discriminate|].
  unfold M_EngCipher.do_cipher in D.
  destruct (e_app e) as [i|]; [|injection D as _ <- _; discriminate]. destruct (w_app w i) as [a|]; [|discriminate]. destruct (a_key a); [|injection D as _ <- _; discriminate].
  destruct (open_sa i a [] ok1 w) as ((w1 & h) & crash). destruct crash; [discriminate|]. destruct h as [h|]; [|injection D as _ <- _; discriminate].
  assert (Q : forall t, match sa_last mac h t ok2 w1 with
        | (w, Some (Some tag)) => (match w_app w i with
                               | Some a => set_app w i (Some (MkApp (a_key a) (a_iv a) (a_enc a) (a_alg a) (a_ctx a) (Some tag)))
                               | None => w end, DRes 0 None)
        | (w, Some None) => (w, DRes 0 None)
        | (w, None) => (w, DRes (-1) None) end = (w', DRes n out) -> DRes n out = DRes 0 None).
  { intros t. destruct (sa_last mac h t ok2 w1) as (w2, [[tag|]|]); intros Q; injection Q as _ <- <-; [reflexivity|reflexivity|discriminate]. }
  destruct (a_tag a) as [t|]; [eapply Q; exact D|]. destruct (match w_sa w1 h with Some s => s_enc s | None => true end); [eapply Q; exact D|discriminate].
Qed.

Lemma memory_step h o w : memory_is h w -> memory_is ((o, snd (step o w)) :: h) (fst (step o w)).
Proof.
  intros (K & V).
  assert (F : forall w', w_keys w' = w_keys w -> w_ivs w' = w_ivs w -> match o with SetKey _ _ | SetIv _ _ => False | _ => True end ->
    forall a, memory_is ((o, a) :: h) w').
  { intros w' F1 F2 O a. destruct o; try destruct O; (split; intros x; cbn [key_memory iv_memory]; rewrite ?F1, ?F2; auto). }
  assert (OS : forall i a aad ok w0 w' x y, open_sa i a aad ok w0 = (w', x, y) -> w_keys w' = w_keys w0 /\ w_ivs w' = w_ivs w0).
  { intros i a aad ok w0 w' x y. unfold open_sa. destruct (a_ctx a); [intros Q; injection Q as <- _ _; auto|].
    destruct (a_key a) as [k|]; [|intros Q; injection Q as <- _ _; auto].
    destruct (w_keys w0 k) as [key|]; [|intros Q; injection Q as <- _ _; auto].
    destruct (if needs_iv (a_alg a) then _ else _) as [[iv|]|]; [|intros Q; injection Q as <- _ _; auto..].
    destruct (negb ok); intros Q; injection Q as <- _ _; auto. }
  assert (DC : forall e inp ok1 ok2 w' r, do_cipher e inp ok1 ok2 w = (w', r) -> w_keys w' = w_keys w /\ w_ivs w' = w_ivs w).
  { intros e inp ok1 ok2 w' r. unfold M_EngCipher.do_cipher.
    destruct (e_app e) as [i|]; [|intros Q; injection Q as <- _; auto]. destruct (w_app w i) as [a|]; [|intros Q; injection Q as <- _; auto].
    destruct (a_key a); [|intros Q; injection Q as <- _; auto].
    destruct (open_sa i a (match inp with InAad b => b | _ => [] end) ok1 w) as ((w1 & x) & y) eqn:O. destruct (OS _ _ _ _ _ _ _ _ O) as (O1 & O2).
    rewrite <- O1, <- O2. destruct y; [intros Q; injection Q as <- _; auto|]. destruct x as [x|]; [|intros Q; injection Q as <- _; auto].
    assert (SL : forall t w' r, match sa_last mac x t ok2 w1 with
        | (w, Some (Some tag)) => (match w_app w i with
                               | Some a => set_app w i (Some (MkApp (a_key a) (a_iv a) (a_enc a) (a_alg a) (a_ctx a) (Some tag)))
                               | None => w end, DRes 0 None)
        | (w, Some None) => (w, DRes 0 None)
        | (w, None) => (w, DRes (-1) None) end = (w', r) -> w_keys w' = w_keys w1 /\ w_ivs w' = w_ivs w1).
    { intros t w2 r2. unfold sa_last. destruct (w_sa w1 x) as [s|]; [|intros Q; injection Q as <- _; auto].
      destruct (negb ok2 || s_done s); [intros Q; injection Q as <- _; auto|]. destruct (s_enc s).
      - destruct (w_app _ i); intros Q; injection Q as <- _; auto.
      - destruct (same t _); intros Q; injection Q as <- _; auto. }
    destruct inp.
    - intros Q; injection Q as <- _; auto.
    - unfold sa_process. destruct (w_sa w1 x) as [s|]; [|intros Q; injection Q as <- _; auto].
      destruct (negb ok2 || s_done s); intros Q; injection Q as <- _; auto.
    - destruct (a_tag a) as [t|]; [apply SL|]. destruct (match w_sa w1 x with Some s => s_enc s | None => true end); [apply SL|].
      intros Q; injection Q as <- _; auto. }
  destruct o as [b x|b x|c al len|c key iv enc memory|c data ok|c data ok1 ok2|c ok1 ok2|c n|c n tag|c c'|c]; cbn [M_EngCipher.step].
  - split; intros a; cbn [fst snd key_memory iv_memory]; proj; [unfold updz; destruct (a =? b); auto|auto].
  - split; intros a; cbn [fst snd key_memory iv_memory]; proj; [auto|unfold updz; destruct (a =? b); auto].
  - destruct (w_evp w c); cbn [fst snd]; apply F; auto.
  - destruct (w_evp w c) as [e|]; [|cbn [fst snd]; apply F; auto].
    assert (CI : w_keys (fst (cipher_init key_size e c key iv enc memory w)) = w_keys w /\ w_ivs (fst (cipher_init key_size e c key iv enc memory w)) = w_ivs w).
    { unfold cipher_init. destruct (e_app e) as [i|]; [destruct (w_app w i) as [a|]; [|auto]|destruct memory; [|auto]]; cbv zeta;
      (destruct key as [k|]; [match goal with |- context [w_keys ?u k] => destruct (w_keys u k) as [y|] end; [destruct (key_size y) as [n|]; [destruct (n =? e_len e)|]|]|]); destruct iv; auto. }
    destruct CI. apply F; auto.
  - destruct (w_evp w c) as [e|]; [|cbn [fst snd]; apply F; auto]. destruct (custom (e_alg e)); [|cbn [fst snd]; apply F; auto].
    destruct (do_cipher e (InAad data) ok true w) as (w', r) eqn:D. destruct (DC _ _ _ _ _ _ D). cbn [fst snd]. apply F; auto.
  - destruct (w_evp w c) as [e|]; [|cbn [fst snd]; apply F; auto].
    destruct (do_cipher e (InData data) ok1 ok2 w) as (w', r) eqn:D. destruct (DC _ _ _ _ _ _ D). cbn [fst snd]. apply F; auto.
  - destruct (w_evp w c) as [e|]; [|cbn [fst snd]; apply F; auto]. destruct (custom (e_alg e)); [|cbn [fst snd]; apply F; auto].
    destruct (do_cipher e InEnd ok1 ok2 w) as (w', r) eqn:D. destruct (DC _ _ _ _ _ _ D). cbn [fst snd]. apply F; auto.
  - destruct (w_evp w c) as [e|]; [|cbn [fst snd]; apply F; auto]. destruct (custom (e_alg e)); cbn [fst snd]; apply F; auto.
  - destruct (w_evp w c) as [e|]; [|cbn [fst snd]; apply F; auto]. destruct (custom (e_alg e)); [|cbn [fst snd]; apply F; auto].
    unfold set_tag. destruct (16 <? n); [cbn [fst snd]; apply F; auto|]. destruct (e_app e) as [i|]; [|cbn [fst snd]; apply F; auto].
    destruct (w_app w i); [|cbn [fst snd]; apply F; auto]. destruct (n <? 0); cbn [fst snd]; apply F; auto.
  - destruct (w_evp w c) as [e|]; [|cbn [fst snd]; apply F; auto]. destruct (w_evp w c'); cbn [fst snd]; apply F; auto.
  - destruct (w_evp w c) as [e|]; [|cbn [fst snd]; apply F; auto]. unfold cleanup. destruct (e_app e) as [i|]; [|cbn [fst snd]; apply F; auto].
    destruct (w_app w i) as [a|]; [|cbn [fst snd]; apply F; auto]. destruct (a_ctx a); cbn [fst snd]; apply F; auto.
Qed.

Lemma init_call j h w c e key iv enc memory w' : G w -> memory_is h w -> carries j w c -> w_evp w c = Some e -> j_started j = false ->
  (forall b, j_enc j = Some b -> b = enc) -> cipher_init key_size e c key iv enc memory w = (w', Done) ->
  carries (MkJob (j_alg j) (j_len j) (Some enc) (instead (option_map (fun k => (k, key_memory h k)) key) (j_key j))
          (instead (option_map (fun v => (v, iv_memory h v)) iv) (j_iv j)) [] [] (j_tag j) false false) w' c.
Proof.
  intros g (MK & MV) (e' & E & E1 & E2 & R) Ee S DK I. rewrite Ee in E. injection E as <-. unfold cipher_init in I.
  (* the application data before the key and the vector are noted *)
  assert (Q : forall w1 i a, w_keys w1 = w_keys w -> w_ivs w1 = w_ivs w -> w_evp w1 c = Some (MkEvp (e_alg e) (e_len e) (Some i)) ->
     (forall c' e', w_evp w1 c' = Some e' -> e_app e' = Some i -> c' = c) -> w_app w1 i = Some a -> a_alg a = j_alg j -> a_enc a = enc ->
     a_key a = option_map fst (j_key j) -> a_iv a = option_map fst (j_iv j) -> a_ctx a = None -> a_tag a = option_map pad (j_tag j) ->
     (forall k x, j_key j = Some (k, x) -> w_keys w k = x) -> (forall v x, j_iv j = Some (v, x) -> w_ivs w v = x) ->
     (let '(w, a, st) := match key with
        | None => (w1, a, Done)
        | Some k =>
            let a := MkApp (Some k) (a_iv a) (a_enc a) (a_alg a) (a_ctx a) (a_tag a) in
            (set_app w1 i (Some a), a,
             match w_keys w1 k with
             | None => Crash
             | Some h => match key_size h with Some n => if n =? e_len e then Done else Refused | None => Refused end
             end)
        end in
      match st with
      | Done =>
          match iv with
          | None => (w, Done)
          | Some v => (set_app w i (Some (MkApp (a_key a) (Some v) (a_enc a) (a_alg a) (a_ctx a) (a_tag a))), Done)
          end
      | _ => (w, st)
      end) = (w', Done) ->
     carries (MkJob (j_alg j) (j_len j) (Some enc) (instead (option_map (fun k => (k, key_memory h k)) key) (j_key j))
          (instead (option_map (fun v => (v, iv_memory h v)) iv) (j_iv j)) [] [] (j_tag j) false false) w' c).
  { intros w1 i a Q1 Q2 Q3 Q4 Q5 Q6 Q7 Q8 Q9 Q10 Q11 Q12 Q13 Q.
    assert (X : w_keys w' = w_keys w /\ w_ivs w' = w_ivs w /\ w_evp w' = w_evp w1 /\
      w_app w' i = Some (MkApp (match key with Some k => Some k | None => a_key a end) (match iv with Some v => Some v | None => a_iv a end) (a_enc a) (a_alg a) (a_ctx a) (a_tag a))).
    { destruct key as [k|].
      - destruct (w_keys w1 k) as [x|]; [|discriminate]. destruct (key_size x) as [n|]; [|discriminate]. destruct (n =? e_len e); [|discriminate].
        destruct iv as [v|]; injection Q as <-; proj; rewrite !upd_same; auto.
      - destruct iv as [v|]; injection Q as <-; proj; rewrite ?upd_same; [auto|]. rewrite Q5. destruct a; auto. }
    destruct X as (X1 & X2 & X3 & X4). exists (MkEvp (e_alg e) (e_len e) (Some i)). rewrite X3. split; [exact Q3|].
    cbn [e_alg e_len e_app j_alg j_len]. split; [exact E1|]. split; [exact E2|]. split; [exact Q4|]. eexists. split; [exact X4|].
    cbn [a_alg a_enc a_key a_iv j_alg j_enc j_key j_iv]. split; [exact Q6|]. split; [congruence|].
    split; [destruct key; [reflexivity|exact Q8]|]. split; [destruct iv; [reflexivity|exact Q9]|].
    unfold P_EngCipher2.at_work. cbn [a_ctx a_tag j_alg j_enc j_key j_iv j_started j_ended j_aad j_data j_tag]. rewrite Q10, X1, X2.
    repeat (split; [reflexivity|]). split; [|split; [|exact Q11]].
    - intros k x. destruct key as [k1|]; cbn; [|apply Q12]. intros Y. injection Y as <- <-. apply MK.
    - intros v x. destruct iv as [v1|]; cbn; [|apply Q13]. intros Y. injection Y as <- <-. apply MV. }
  destruct (e_app e) as [i|] eqn:EA.
  - destruct R as (P & a & A & R1 & R2 & R3 & R4 & R5). rewrite A in I. unfold P_EngCipher2.at_work in R5.
    destruct (a_ctx a) as [n|] eqn:C; [destruct R5; congruence|]. destruct R5 as (_ & _ & _ & _ & R5 & R6 & R7).
    assert (EE : e = MkEvp (e_alg e) (e_len e) (Some i)) by (destruct e; cbn in EA; rewrite EA; reflexivity).
    eapply (Q w i a); eauto; [rewrite <- EE; exact Ee|rewrite C; exact I].
  - rewrite R in *. destruct memory; [|discriminate]. cbv zeta in I.
    eapply (Q _ (w_apps w) (MkApp None None enc (e_alg e) None None)); [..|exact I]; proj; rewrite ?upd_same; cbn [j_alg j_enc j_key j_iv j_tag a_alg a_enc a_key a_iv a_ctx a_tag option_map]; try reflexivity; try discriminate; try exact E1.
    intros c' e'. destruct (upd_cases (w_evp w) c (Some (MkEvp (e_alg e) (e_len e) (Some (w_apps w)))) c') as [(-> & ->)|(N & ->)]; [reflexivity|].
    intros X Y. pose proof (g_evp w g c' e' _ X Y). lia.
Qed.

Lemma set_tag_call j w c e n tag w' : carries j w c -> w_evp w c = Some e -> j_ended j = false -> set_tag e n tag w = (w', Done) ->
  carries (MkJob (j_alg j) (j_len j) (j_enc j) (j_key j) (j_iv j) (j_aad j) (j_data j) (Some (firstn (Z.to_nat n) tag)) (j_started j) (j_ended j)) w' c.
Proof.
  intros (e' & E & E1 & E2 & R) Ee EN T. rewrite Ee in E. injection E as <-. unfold set_tag in T.
  destruct (16 <? n); [discriminate|]. destruct (e_app e) as [i|] eqn:EA; [|discriminate]. destruct R as (P & a & A & R1 & R2 & R3 & R4 & R5).
  rewrite A in T. destruct (n <? 0); [discriminate|]. injection T as <-. exists e. proj. split; [exact Ee|]. cbn [j_alg j_len]. split; [exact E1|]. split; [exact E2|].
  rewrite EA. split; [exact P|]. eexists. rewrite upd_same. split; [reflexivity|]. cbn [a_alg a_enc a_key a_iv j_alg j_enc j_key j_iv].
  split; [exact R1|]. split; [exact R2|]. split; [exact R3|]. split; [exact R4|]. unfold P_EngCipher2.at_work in *.
  cbn [a_ctx a_tag a_enc j_alg j_enc j_key j_iv j_started j_ended j_aad j_data j_tag]. proj. destruct (a_ctx a) as [m|].
  - destruct R5 as (R5 & key & iv & R6 & R7 & R8 & R9). split; [exact R5|]. exists key, iv. rewrite EN in *. cbn [andb]. auto 10.
  - destruct R5 as (R5 & R6 & R7 & R8 & R9 & R10 & R11). rewrite EN in *. repeat (split; [assumption|]). reflexivity.
Qed.

Lemma step_L h o w c : G w -> memory_is h w -> L h w c -> L ((o, snd (step o w)) :: h) (fst (step o w)) c.
Proof.
  intros g M l. destruct (about o c) eqn:AB.
  - (* a call on this context *)
    destruct o as [b x|b x|c1 al len|c1 key iv enc memory|c1 data ok|c1 data ok1 ok2|c1 ok1 ok2|c1 n|c1 n tag|c1 c2|c1]; cbn [about] in AB; try discriminate.
    + pose proof (here_same _ _ AB) as ->. unfold P_EngCipher2.L. cbn [M_EngCipher.step]. destruct (w_evp w c) as [e|] eqn:E; cbn [fst snd careful job_of]; rewrite AB.
      * exact l.
      * intros _ j Q. injection Q as <-. exists (MkEvp al len None). proj. rewrite upd_same. split; [reflexivity|]. split; [reflexivity|]. split; reflexivity.
    + pose proof (here_same _ _ AB) as ->. unfold P_EngCipher2.L. cbn [M_EngCipher.step].
      destruct (w_evp w c) as [e|] eqn:E; [|cbn [fst snd careful]; rewrite AB; discriminate].
      destruct (cipher_init key_size e c key iv enc memory w) as (w', r) eqn:I. cbn [fst snd careful]. rewrite AB. destruct r; try discriminate.
      intros Q. apply andb_prop in Q. destruct Q as (Q & CF). apply andb_prop in Q. destruct Q as (NB & DK).
      cbn [job_of]. rewrite AB. destruct (job_of h c) as [j|] eqn:J; [|discriminate]. cbn [option_map]. intros j' X. injection X as <-.
      unfold began in NB. rewrite J in NB. unfold direction_kept in DK. rewrite J in DK.
      eapply init_call; eauto.
      * destruct (j_started j); [discriminate|reflexivity].
      * intros b B. rewrite B in DK. apply Bool.eqb_prop in DK. exact DK.
    + pose proof (here_same _ _ AB) as ->. unfold P_EngCipher2.L. cbn [M_EngCipher.step].
      destruct (w_evp w c) as [e|] eqn:E; [|cbn [fst snd careful]; rewrite AB; discriminate].
      destruct (custom (e_alg e)) eqn:CU; [|cbn [fst snd careful]; rewrite AB; discriminate].
      destruct (do_cipher e (InAad data) ok true w) as (w', r) eqn:D. cbn [fst snd careful]. rewrite AB. destruct (reading e r) eqn:RD; try discriminate.
      intros Q. apply andb_prop in Q. destruct Q as (NB & CF). cbn [job_of]. rewrite AB.
      destruct (job_of h c) as [j|] eqn:J; [|discriminate]. cbn [option_map]. intros j' X. injection X as <-.
      unfold began in NB. rewrite J in NB. pose proof (l CF j J) as CR. rewrite (aad_done _ _ _ _ _ _ D CU RD) in D.
      eapply aad_call; eauto.
      * destruct (j_started j); [discriminate|reflexivity].
      * destruct CR as (e' & E' & E1 & _). congruence.
    + pose proof (here_same _ _ AB) as ->. unfold P_EngCipher2.L. cbn [M_EngCipher.step].
      destruct (w_evp w c) as [e|] eqn:E; [|cbn [fst snd careful]; rewrite AB; discriminate].
      destruct (do_cipher e (InData data) ok1 ok2 w) as (w', r) eqn:D. cbn [fst snd careful]. rewrite AB. destruct (reading e r) eqn:RD; try discriminate.
      intros CF. cbn [job_of]. rewrite AB.
      destruct (job_of h c) as [j|] eqn:J; [|discriminate]. cbn [option_map]. intros j' X. injection X as <-.
      pose proof (l CF j J) as CR. rewrite (data_bytes _ _ _ _ _ _ _ _ D RD) in D.
      destruct (data_call crypt mac j w c e data ok1 ok2 b w' CR E D) as (_ & R). exact R.
    + pose proof (here_same _ _ AB) as ->. unfold P_EngCipher2.L. cbn [M_EngCipher.step].
      destruct (w_evp w c) as [e|] eqn:E; [|cbn [fst snd careful]; rewrite AB; discriminate].
      change authenticated with custom in *. destruct (custom (e_alg e)) eqn:CU.
      * destruct (do_cipher e InEnd ok1 ok2 w) as (w', r) eqn:D. cbn [fst snd careful]. rewrite AB. destruct (reading e r) eqn:RD; try discriminate.
        intros CF. cbn [job_of]. rewrite AB. destruct (job_of h c) as [j|] eqn:J; [|discriminate]. cbn [option_map]. intros j' X. injection X as <-.
        pose proof (l CF j J) as CR. rewrite (end_done _ _ _ _ _ _ D CU RD) in D.
        assert (CJ : custom (j_alg j) = true) by (destruct CR as (e' & E' & E1 & _); congruence). change authenticated with custom in *; rewrite CJ.
        destruct (final_call crypt mac j w c e ok1 ok2 w' CR E CJ D) as (_ & R). exact R.
      * cbn [fst snd careful]. rewrite AB. intros CF. cbn [job_of]. rewrite AB. destruct (job_of h c) as [j|] eqn:J; [|discriminate].
        cbn [option_map]. intros j' X. pose proof (l CF j J) as CR.
        assert (CJ : custom (j_alg j) = false) by (destruct CR as (e' & E' & E1 & _); congruence). change authenticated with custom in *; rewrite CJ in X. injection X as <-. exact CR.
    + unfold P_EngCipher2.L. cbn [M_EngCipher.step careful job_of].
      assert (W : fst (match w_evp w c1 with Some e => if custom (e_alg e) then (w, get_tag e n w) else (w, Refused) | None => (w, Refused) end) = w) by (destruct (w_evp w c1) as [e|]; [destruct (custom (e_alg e))|]; reflexivity).
      rewrite W. exact l.
    + pose proof (here_same _ _ AB) as ->. unfold P_EngCipher2.L. cbn [M_EngCipher.step careful]. rewrite AB.
      intros Q. apply andb_prop in Q. destruct Q as (NF & CF).
      destruct (w_evp w c) as [e|] eqn:E; [|exact (l CF)]. destruct (custom (e_alg e)) eqn:CU; [|exact (l CF)].
      destruct (set_tag e n tag w) as (w', r) eqn:T. cbn [fst snd]. unfold finished in NF.
      assert (NW : r <> Done -> w' = w).
      { unfold set_tag in T. destruct (16 <? n); [injection T as <- <-; auto|]. destruct (e_app e); [|injection T as <- <-; auto].
        destruct (w_app w n0); [|injection T as <- <-; auto]. destruct (n <? 0); injection T as <- <-; [auto|]. intros X. destruct X. reflexivity. }
      destruct r; try (rewrite NW by discriminate; exact (l CF)).
      cbn [job_of]. rewrite AB. destruct (job_of h c) as [j|] eqn:J; [|discriminate]. cbn [option_map]. intros j' X. injection X as <-.
      eapply set_tag_call; eauto. destruct (j_ended j); [discriminate|reflexivity].
    + unfold P_EngCipher2.L. cbn [careful]. rewrite AB. discriminate.
    + unfold P_EngCipher2.L. cbn [job_of]. rewrite AB. discriminate.
  - intros CF j. rewrite job_other by exact AB. intros J.
    assert (CF' : careful h c = true) by (eapply careful_other; eauto). eapply step_other; eauto.
    + intros b x -> k y S K Q. subst k. cbn [careful] in CF. unfold uses_key in CF. rewrite J, K, S in CF. cbn [negb andb] in CF. rewrite Z.eqb_refl in CF. discriminate.
    + intros b x -> k y S K Q. subst k. cbn [careful] in CF. unfold uses_iv in CF. rewrite J, K, S in CF. cbn [negb andb] in CF. rewrite Z.eqb_refl in CF. discriminate.
Qed.

(** Histories. *)
Lemma run_app l l' w : run crypt mac key_size (l ++ l') w =
  (fst (run crypt mac key_size l w) ++ fst (run crypt mac key_size l' (snd (run crypt mac key_size l w))), snd (run crypt mac key_size l' (snd (run crypt mac key_size l w)))).
Proof.
  revert w. induction l as [|o l IH]; intros w; cbn [Datatypes.app run].
  - cbn [fst snd Datatypes.app]. destruct (run crypt mac key_size l' w); reflexivity.
  - destruct (step o w) as (w1, a). rewrite IH. destruct (run crypt mac key_size l w1) as (h1, w2). cbn [fst snd]. reflexivity.
Qed.
Lemma history_snoc l o : history crypt mac key_size (l ++ [o]) = (o, snd (step o (after crypt mac key_size l))) :: history crypt mac key_size l.
Proof.
  unfold history, after. rewrite run_app. cbn [fst run]. destruct (step o (snd (run crypt mac key_size l start))) as (w1, a). cbn [fst snd].
  rewrite rev_app_distr. reflexivity.
Qed.
Lemma after_snoc l o : after crypt mac key_size (l ++ [o]) = fst (step o (after crypt mac key_size l)).
Proof. unfold after. rewrite run_app. cbn [snd run]. destruct (step o (snd (run crypt mac key_size l start))) as (w1, a). reflexivity. Qed.

Lemma holds l : G (after crypt mac key_size l) /\ memory_is (history crypt mac key_size l) (after crypt mac key_size l) /\
  forall c, L (history crypt mac key_size l) (after crypt mac key_size l) c.
Proof.
  induction l as [|o l (I1 & I2 & I3)] using rev_ind.
  - split; [apply G_start|]. split; [split; reflexivity|]. intros c _ j J. discriminate.
  - rewrite history_snoc, after_snoc. split; [apply step_G; exact I1|]. split; [apply memory_step; exact I2|].
    intros c. apply step_L; auto.
Qed.
End Engine.
