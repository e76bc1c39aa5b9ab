(** Proofs: the engine's ciphers; the calls on a context used with care. *)
From Verif Require Import Base M_EngCipher S_EngCipher P_EngCipher P_EngCipher2.

Section Engine.
Variable crypt : alg -> bool -> Z -> bytes -> bytes -> bytes -> bytes -> bytes.
Variable mac : alg -> Z -> bytes -> bytes -> bytes -> bytes.
Variable key_size : Z -> option Z.
Notation step := (step crypt mac key_size).
Notation do_cipher := (do_cipher crypt mac).
Notation carries := (carries mac).
Notation at_work := (at_work mac).
Notation L := (L mac).

(** The message with a context of the secure API at work. *)
Definition working (j : job) (aad : bytes) (w : world) (i n : nat) (a : app) (key : Z) (iv : bytes) : Prop :=
  w_app w i = Some a /\ a_alg a = j_alg j /\ j_enc j = Some (a_enc a) /\ a_key a = option_map fst (j_key j) /\
  a_iv a = option_map fst (j_iv j) /\ a_ctx a = Some n /\ the_key j = Some key /\ vector j = Some iv /\
  w_sa w n = Some (MkSa (j_alg j) (a_enc a) key iv aad (j_data j) (j_ended j)) /\
  a_tag a = if j_ended j && a_enc a then Some (mac (j_alg j) key iv (j_aad j) (j_data j)) else option_map pad (j_tag j).

Lemma opened j w i a aad ok w1 n crash :
  w_app w i = Some a -> a_alg a = j_alg j -> j_enc j = Some (a_enc a) ->
  a_key a = option_map fst (j_key j) -> a_iv a = option_map fst (j_iv j) -> at_work j w a ->
  open_sa i a aad ok w = (w1, Some n, crash) ->
  exists a1 key iv, working j (if j_started j then j_aad j else if custom (j_alg j) then aad else []) w1 i n a1 key iv /\
    a_tag a1 = a_tag a /\ a_enc a1 = a_enc a /\ w_evp w1 = w_evp w /\ w_keys w1 = w_keys w /\ w_ivs w1 = w_ivs w.
Proof.
  intros A E1 E2 E3 E4 W O. unfold P_EngCipher2.at_work in W.
  destruct (open_sa_spec i a aad ok w w1 (Some n) crash A O) as [(-> & [H|H])|(C & H & _ & k & key & iv & K & KV & I & ->)]; [| discriminate |].
  - rewrite <- H in W. destruct W as (S & key & iv & W1 & W2 & W3 & W4). exists a, key, iv. rewrite S. unfold working. auto 20.
  - injection H as ->. rewrite C in W. destruct W as (S & D & W1 & W2 & W3 & W4 & W5). rewrite S.
    exists (MkApp (a_key a) (a_iv a) (a_enc a) (a_alg a) (Some (w_sas w)) (a_tag a)), key, iv.
    split; [|proj; auto 10]. unfold working. proj. rewrite !upd_same, D, W2, E1. cbn [a_alg a_enc a_key a_iv a_ctx a_tag andb].
    split; [reflexivity|]. split; [reflexivity|]. split; [exact E2|]. split; [exact E3|]. split; [exact E4|]. split; [reflexivity|].
    split.
    { unfold the_key. rewrite E3 in K. destruct (j_key j) as [(k1, x)|]; [|discriminate]. cbn in K. injection K as ->.
      rewrite <- KV. symmetry. apply (W3 k x). reflexivity. }
    split; [|auto].
    unfold vector. change has_vector with needs_iv. rewrite E1 in I. destruct (needs_iv (j_alg j)).
    + destruct I as (v & V & IV). rewrite E4 in V. destruct (j_iv j) as [(v1, x)|]; [|discriminate]. cbn in V. injection V as ->.
      rewrite <- IV. symmetry. apply (W4 v x). reflexivity.
    + rewrite I. reflexivity.
Qed.

Lemma here_same c x : here c x = true -> x = c.
Proof. apply Nat.eqb_eq. Qed.

(** What a call on a working context comes to. *)
Lemma data_call j w c e d ok1 ok2 b w' : carries j w c -> w_evp w c = Some e ->
  do_cipher e (InData d) ok1 ok2 w = (w', DRes (zlen d) (Some b)) ->
  (exists key iv enc, the_key j = Some key /\ vector j = Some iv /\ j_enc j = Some enc /\ j_ended j = false /\
     b = crypt (j_alg j) enc key iv (j_aad j) (j_data j) d) /\
  carries (MkJob (j_alg j) (j_len j) (j_enc j) (j_key j) (j_iv j) (j_aad j) (j_data j ++ d) (j_tag j) true (j_ended j)) w' c.
Proof.
  intros (e' & E & E1 & E2 & R) Ee D. rewrite Ee in E. injection E as <-. unfold M_EngCipher.do_cipher in D.
  destruct (e_app e) as [i|] eqn:EA; [|discriminate]. destruct R as (P & a & A & R1 & R2 & R3 & R4 & R5). rewrite A in D.
  destruct (a_key a) eqn:AK; [|discriminate].
  destruct (open_sa i a [] ok1 w) as ((w1 & h) & crash) eqn:O. destruct crash; [discriminate|]. destruct h as [n|]; [|discriminate].
  rewrite <- AK in R3.
  destruct (opened j w i a [] ok1 w1 n false A R1 R2 R3 R4 R5 O) as (a1 & key & iv & (W1 & W2 & W3 & W4 & W5 & W6 & W7 & W8 & W9 & W10) & T1 & T2 & T3 & T4 & T5).
  assert (AA : (if j_started j then j_aad j else if custom (j_alg j) then [] else []) = j_aad j).
  { unfold P_EngCipher2.at_work in R5. destruct (a_ctx a); [destruct R5 as (-> & _); reflexivity|]. destruct R5 as (-> & _ & -> & _).
    destruct (custom (j_alg j)); reflexivity. }
  rewrite AA in W9. unfold sa_process in D. rewrite W9 in D. cbn [s_done s_alg s_enc s_key s_iv s_aad s_data] in D.
  destruct ok2; cbn [negb orb] in D; [|discriminate]. destruct (j_ended j) eqn:EN; [discriminate|].
  assert (Q : b = crypt (j_alg j) (a_enc a1) key iv (j_aad j) (j_data j) d /\ w' = set_sa w1 n (Some (MkSa (j_alg j) (a_enc a1) key iv (j_aad j) (j_data j ++ d) false))) by (split; congruence).
  destruct Q as (-> & ->). split.
  - exists key, iv, (a_enc a1). rewrite T2 in *. auto 10.
  - exists e. proj. rewrite T3. split; [exact Ee|]. cbn [j_alg j_len j_enc j_key j_iv j_started]. split; [exact E1|]. split; [exact E2|]. rewrite EA.
    split; [exact P|]. exists a1. split; [exact W1|]. repeat (split; [assumption|]). unfold P_EngCipher2.at_work. rewrite W6.
    cbn [j_alg j_aad j_data j_ended j_tag j_started andb]. split; [reflexivity|]. exists key, iv. proj. rewrite upd_same.
    split; [exact W7|]. split; [exact W8|]. split; [reflexivity|]. exact W10.
Qed.

Lemma aad_call j w c e d ok w' : carries j w c -> w_evp w c = Some e -> j_started j = false -> custom (j_alg j) = true ->
  do_cipher e (InAad d) ok true w = (w', DRes 1 None) ->
  carries (MkJob (j_alg j) (j_len j) (j_enc j) (j_key j) (j_iv j) (j_aad j ++ d) (j_data j) (j_tag j) true (j_ended j)) w' c.
Proof.
  intros (e' & E & E1 & E2 & R) Ee S CU D. rewrite Ee in E. injection E as <-. unfold M_EngCipher.do_cipher in D.
  destruct (e_app e) as [i|] eqn:EA; [|discriminate]. destruct R as (P & a & A & R1 & R2 & R3 & R4 & R5). rewrite A in D.
  destruct (a_key a) eqn:AK; [|discriminate].
  destruct (open_sa i a d ok w) as ((w1 & h) & crash) eqn:O. destruct crash; [discriminate|]. destruct h as [n|]; [|discriminate].
  rewrite <- AK in R3.
  destruct (opened j w i a d ok w1 n false A R1 R2 R3 R4 R5 O) as (a1 & key & iv & (W1 & W2 & W3 & W4 & W5 & W6 & W7 & W8 & W9 & W10) & T1 & T2 & T3 & T4 & T5).
  rewrite S, CU in W9. assert (AA : j_aad j = [] /\ j_ended j = false).
  { unfold P_EngCipher2.at_work in R5. destruct (a_ctx a); [destruct R5 as (R5 & _); congruence|]. tauto. }
  destruct AA as (AA & EN). injection D as <-. exists e. rewrite T3. split; [exact Ee|]. cbn [j_alg j_len j_enc j_key j_iv]. split; [exact E1|]. split; [exact E2|].
  rewrite EA. split; [exact P|]. exists a1. split; [exact W1|]. repeat (split; [assumption|]). unfold P_EngCipher2.at_work. rewrite W6.
  cbn [j_alg j_aad j_data j_ended j_tag j_started]. split; [reflexivity|]. exists key, iv. split; [exact W7|]. split; [exact W8|].
  rewrite AA, EN in *. cbn [Datatypes.app andb] in *. split; [exact W9|exact W10].
Qed.

Lemma final_call j w c e ok1 ok2 w' : carries j w c -> w_evp w c = Some e -> custom (j_alg j) = true ->
  do_cipher e InEnd ok1 ok2 w = (w', DRes 0 None) ->
  (exists key iv enc, the_key j = Some key /\ vector j = Some iv /\ j_enc j = Some enc /\ j_ended j = false /\
     (enc = false -> exists t, j_tag j = Some t /\ pad t = mac (j_alg j) key iv (j_aad j) (j_data j))) /\
  carries (MkJob (j_alg j) (j_len j) (j_enc j) (j_key j) (j_iv j) (j_aad j) (j_data j) (j_tag j) true true) w' c.
Proof.
  intros (e' & E & E1 & E2 & R) Ee CU D. rewrite Ee in E. injection E as <-. unfold M_EngCipher.do_cipher in D.
  destruct (e_app e) as [i|] eqn:EA; [|discriminate]. destruct R as (P & a & A & R1 & R2 & R3 & R4 & R5). rewrite A in D.
  destruct (a_key a) eqn:AK; [|discriminate].
  destruct (open_sa i a [] ok1 w) as ((w1 & h) & crash) eqn:O. destruct crash; [discriminate|]. destruct h as [n|]; [|discriminate].
  rewrite <- AK in R3.
  destruct (opened j w i a [] ok1 w1 n false A R1 R2 R3 R4 R5 O) as (a1 & key & iv & (W1 & W2 & W3 & W4 & W5 & W6 & W7 & W8 & W9 & W10) & T1 & T2 & T3 & T4 & T5).
  assert (AA : (if j_started j then j_aad j else if custom (j_alg j) then [] else []) = j_aad j).
  { unfold P_EngCipher2.at_work in R5. destruct (a_ctx a); [destruct R5 as (-> & _); reflexivity|]. destruct R5 as (-> & _ & -> & _).
    destruct (custom (j_alg j)); reflexivity. }
  rewrite AA in W9. rewrite W9 in D. cbn [s_enc] in D. rewrite <- T1 in D.
  set (t := match a_tag a1 with Some t => t | None => [] end).
  assert (Q : (a_enc a1 = false -> a_tag a1 <> None) /\ (match sa_last mac n t ok2 w1 with
        | (w, Some (Some tag)) => (match w_app w i with
                               | Some a => set_app w i (Some (MkApp (a_key a) (a_iv a) (a_enc a) (a_alg a) (a_ctx a) (Some tag)))
                               | None => w end, DRes 0 None)
        | (w, Some None) => (w, DRes 0 None)
        | (w, None) => (w, DRes (-1) None) end) = (w', DRes 0 None)).
  { unfold t. destruct (a_tag a1) as [x|]; [split; [discriminate|exact D]|]. destruct (a_enc a1); [split; [discriminate|exact D]|]. discriminate. }
  clear D. destruct Q as (NT & D). unfold sa_last in D. rewrite W9 in D. cbn [s_done s_alg s_enc s_key s_iv s_aad s_data] in D.
  destruct ok2; cbn [negb orb] in D; [|discriminate]. destruct (j_ended j) eqn:EN; [discriminate|]. cbn [andb] in W10.
  destruct (a_enc a1) eqn:EE.
  - change (w_app (set_sa w1 n (Some (MkSa (j_alg j) true key iv (j_aad j) (j_data j) true))) i) with (w_app w1 i) in D. rewrite W1 in D.
    injection D as <-. split; [exists key, iv, true; repeat (split; [first [assumption|reflexivity]|]); discriminate|].
    exists e. proj. rewrite T3. split; [exact Ee|]. cbn [j_alg j_len j_enc j_key j_iv j_started]. split; [exact E1|]. split; [exact E2|]. rewrite EA.
    split; [exact P|]. eexists. rewrite upd_same. split; [reflexivity|]. cbn [a_alg a_enc a_key a_iv].
    repeat (split; [first [assumption|congruence]|]). unfold P_EngCipher2.at_work. cbn [a_ctx a_enc a_tag]. rewrite W6.
    cbn [j_alg j_aad j_data j_ended j_tag j_started]. split; [reflexivity|]. exists key, iv. proj. rewrite upd_same, EE. cbn [andb]. auto.
  - destruct (same t (mac (j_alg j) key iv (j_aad j) (j_data j))) eqn:SM; [|discriminate]. injection D as <-.
    assert (TM : t = mac (j_alg j) key iv (j_aad j) (j_data j)) by (unfold same in SM; destruct (list_eq_dec Z.eq_dec t (mac (j_alg j) key iv (j_aad j) (j_data j))); [assumption|discriminate]).
    split.
    + exists key, iv, false. repeat (split; [first [assumption|reflexivity]|]). intros _.
      unfold t in TM. rewrite W10 in TM, NT. destruct (j_tag j) as [x|]; [|destruct (NT eq_refl eq_refl)]. exists x. auto.
    + exists e. proj. rewrite T3. split; [exact Ee|]. cbn [j_alg j_len j_enc j_key j_iv j_started]. split; [exact E1|]. split; [exact E2|]. rewrite EA.
      split; [exact P|]. exists a1. split; [exact W1|]. repeat (split; [first [assumption|congruence]|]). unfold P_EngCipher2.at_work. rewrite W6.
      cbn [j_alg j_aad j_data j_ended j_tag j_started]. split; [reflexivity|]. exists key, iv. proj. rewrite upd_same, EE. cbn [andb]. auto.
Qed.
End Engine.
