(** Proofs: the engine's ciphers; contexts used with care. *)
From Verif Require Import Base M_EngCipher S_EngCipher P_EngCipher.

Section Engine.
Variable crypt : alg -> bool -> Z -> bytes -> bytes -> bytes -> bytes -> bytes.
Variable mac : alg -> Z -> bytes -> bytes -> bytes -> bytes.
Variable key_size : Z -> option Z.
Notation step := (step crypt mac key_size).
Notation do_cipher := (do_cipher crypt mac).

Definition pad (t : bytes) : bytes := t ++ repeat 0 (16 - length t).

Definition at_work (j : job) (w : world) (a : app) : Prop :=
  match a_ctx a with
  | None => j_started j = false /\ j_ended j = false /\ j_aad j = [] /\ j_data j = [] /\
      (forall k x, j_key j = Some (k, x) -> w_keys w k = x) /\ (forall v x, j_iv j = Some (v, x) -> w_ivs w v = x) /\
      a_tag a = option_map pad (j_tag j)
  | Some n => j_started j = true /\ exists key iv, the_key j = Some key /\ vector j = Some iv /\
      w_sa w n = Some (MkSa (j_alg j) (a_enc a) key iv (j_aad j) (j_data j) (j_ended j)) /\
      a_tag a = if j_ended j && a_enc a then Some (mac (j_alg j) key iv (j_aad j) (j_data j)) else option_map pad (j_tag j)
  end.
Definition carries (j : job) (w : world) (c : nat) : Prop :=
  exists e, w_evp w c = Some e /\ e_alg e = j_alg j /\ e_len e = j_len j /\
  match e_app e with
  | None => j = MkJob (j_alg j) (j_len j) None None None [] [] None false false
  | Some i => (forall c' e', w_evp w c' = Some e' -> e_app e' = Some i -> c' = c) /\
      exists a, w_app w i = Some a /\ a_alg a = j_alg j /\ j_enc j = Some (a_enc a) /\
        a_key a = option_map fst (j_key j) /\ a_iv a = option_map fst (j_iv j) /\ at_work j w a
  end.
Definition L (h : list event) (w : world) (c : nat) : Prop :=
  careful h c = true -> forall j, job_of h c = Some j -> carries j w c.

Definition memory_is (h : list event) (w : world) : Prop :=
  (forall a, w_keys w a = key_memory h a) /\ (forall a, w_ivs w a = iv_memory h a).

(** Calls that concern other contexts. *)
Definition about (o : op) (c : nat) : bool :=
  match o with
  | SetKey _ _ | SetIv _ _ => false
  | Open x _ _ | Init x _ _ _ _ | Aad x _ _ | Data x _ _ _ | Final x _ _ | GetTag x _ | SetTag x _ _ | Reset x => here c x
  | Copy x y => here c x || here c y
  end.

Lemma job_other o a h c : about o c = false -> job_of ((o, a) :: h) c = job_of h c.
Proof.
  intros A. destruct o; cbn [about] in A; cbn [job_of]; try reflexivity; destruct a; try reflexivity; rewrite ?A; reflexivity.
Qed.
Lemma careful_other o a h c : about o c = false -> careful ((o, a) :: h) c = true -> careful h c = true.
Proof.
  intros A. destruct o; cbn [about] in A; cbn [careful]; rewrite ?A; auto; intros Q; apply andb_prop in Q; tauto.
Qed.
Lemma here_neq c x : here c x = false -> x <> c.
Proof. intros H ->. unfold here in H. rewrite Nat.eqb_refl in H. discriminate. Qed.

(** What a context's work needs to stay the same. *)
Lemma carries_same j w w' c : carries j w c -> w_evp w' c = w_evp w c ->
  (forall i, (exists e, w_evp w c = Some e /\ e_app e = Some i) ->
     (forall c' e', w_evp w c' = Some e' -> e_app e' = Some i -> c' = c) ->
     (forall c' e', w_evp w' c' = Some e' -> e_app e' = Some i -> c' = c) /\ w_app w' i = w_app w i /\
     (forall a h, w_app w i = Some a -> a_ctx a = Some h -> w_sa w' h = w_sa w h)) ->
  (forall k x, j_started j = false -> j_key j = Some (k, x) -> w_keys w' k = w_keys w k) ->
  (forall v x, j_started j = false -> j_iv j = Some (v, x) -> w_ivs w' v = w_ivs w v) ->
  carries j w' c.
Proof.
  intros (e & E & E1 & E2 & R) S1 S2 S3 S4. exists e. rewrite S1. repeat (split; [assumption|]).
  destruct (e_app e) as [i|] eqn:EA; [|exact R]. destruct R as (P & a & A & R1 & R2 & R3 & R4 & R5).
  destruct (S2 i ltac:(eauto) P) as (P' & A' & SA). split; [exact P'|]. exists a. rewrite A'. repeat (split; [assumption|]).
  unfold at_work in *. destruct (a_ctx a) as [n|] eqn:C.
  - destruct R5 as (R5 & key & iv & R6 & R7 & R8 & R9). split; [exact R5|]. exists key, iv. rewrite (SA a n A C). auto.
  - destruct R5 as (R5 & R6 & R7 & R8 & R9 & R10 & R11). repeat (split; [assumption|]). split; [|split; [|exact R11]].
    + intros k x K. rewrite (S3 k x R5 K). auto.
    + intros v x V. rewrite (S4 v x R5 V). auto.
Qed.

(** A frame around another context's application data. *)
Lemma carries_frame j w w' c c1 e1 i1 : G w -> carries j w c -> w_evp w c1 = Some e1 -> e_app e1 = Some i1 -> c1 <> c ->
  frame i1 w w' -> carries j w' c.
Proof.
  intros g R E1 A1 N [k1 k2 k3 k4 k5 k6 k7]. eapply carries_same; [exact R|rewrite k1; reflexivity| |rewrite k6; reflexivity|rewrite k7; reflexivity].
  intros i (e & E & A) P. assert (D : i <> i1) by (intros ->; apply N; eapply P; eauto).
  rewrite k1. split; [exact P|]. split; [apply k3; exact D|]. intros a h AA C.
  destruct (k5 h (g_ctx w g i a h AA C)) as [Q|(a1 & X & Y)]; [exact Q|]. destruct D. eapply (g_own w g); eauto.
Qed.

Lemma step_other o w c j : G w -> about o c = false ->
  (forall b x, o = SetKey b x -> (forall k y, j_started j = false -> j_key j = Some (k, y) -> k <> b)) ->
  (forall b x, o = SetIv b x -> (forall v y, j_started j = false -> j_iv j = Some (v, y) -> v <> b)) ->
  carries j w c -> carries j (fst (step o w)) c.
Proof.
  intros g AB K V R.
  destruct o as [b x|b x|c1 al len|c1 key iv enc memory|c1 data ok|c1 data ok1 ok2|c1 ok1 ok2|c1 n|c1 n tag|c1 c2|c1]; cbn [M_EngCipher.step about] in *.
  - cbn [fst]. eapply carries_same; [exact R|reflexivity|auto| |reflexivity].
    intros k y S Q. proj. unfold updz. destruct (k =? b) eqn:B; [|reflexivity]. apply Z.eqb_eq in B. destruct (K b x eq_refl k y S Q B).
  - cbn [fst]. eapply carries_same; [exact R|reflexivity|auto|reflexivity|].
    intros k y S Q. proj. unfold updz. destruct (k =? b) eqn:B; [|reflexivity]. apply Z.eqb_eq in B. destruct (V b x eq_refl k y S Q B).
  - apply here_neq in AB. destruct (w_evp w c1) as [e1|] eqn:E1; [exact R|]. cbn [fst].
    eapply carries_same; [exact R|proj; apply upd_other; congruence| |reflexivity|reflexivity].
    intros i _ P. split; [|auto]. intros c' e'. proj. destruct (upd_cases (w_evp w) c1 (Some (MkEvp al len None)) c') as [(-> & ->)|(N & ->)]; [|apply P].
    intros Q. injection Q as <-. discriminate.
  - apply here_neq in AB. destruct (w_evp w c1) as [e1|] eqn:E1; [|exact R]. destruct (e_app e1) as [i1|] eqn:A1.
    + destruct (cipher_init key_size e1 c1 key iv enc memory w) as (w', r) eqn:I. destruct (init_world key_size _ _ _ _ _ _ _ _ _ _ g E1 A1 I) as (_ & F).
      cbn [fst]. eapply carries_frame; eauto.
    + (* new application data *)
      unfold cipher_init. rewrite A1. destruct memory; [|exact R].
      assert (Q : forall w', w_sa w' = w_sa w -> w_keys w' = w_keys w -> w_ivs w' = w_ivs w ->
         w_evp w' = upd (w_evp w) c1 (Some (MkEvp (e_alg e1) (e_len e1) (Some (w_apps w)))) ->
         (forall i, i <> w_apps w -> w_app w' i = w_app w i) -> carries j w' c).
      { intros w' Q1 Q2 Q3 Q4 Q5. eapply carries_same; [exact R|rewrite Q4; apply upd_other; congruence| |rewrite Q2; reflexivity|rewrite Q3; reflexivity].
        intros i (e & E & A) P. pose proof (g_evp w g c e i E A) as B. split; [|rewrite Q1; split; [apply Q5; lia|auto]].
        intros c' e'. rewrite Q4. destruct (upd_cases (w_evp w) c1 (Some (MkEvp (e_alg e1) (e_len e1) (Some (w_apps w)))) c') as [(-> & ->)|(N & ->)]; [|apply P].
        intros X. injection X as <-. cbn [e_app]. intros X. injection X as <-. lia. }
      destruct key as [k|].
      * match goal with |- context [w_keys ?u k] => destruct (w_keys u k) as [x|] end;
          [destruct (key_size x) as [n|]; [destruct (n =? e_len e1)|]|]; [destruct iv as [v|]| | |]; cbn [fst];
          (apply Q; try reflexivity; proj; intros i N; repeat rewrite upd_other by exact N; reflexivity).
      * destruct iv as [v|]; cbn [fst]; (apply Q; try reflexivity; proj; intros i N; repeat rewrite upd_other by exact N; reflexivity).
  - apply here_neq in AB. destruct (w_evp w c1) as [e1|] eqn:E1; [|exact R]. destruct (custom (e_alg e1)); [|exact R].
    destruct (do_cipher e1 (InAad data) ok true w) as (w', r) eqn:D. cbn [fst]. destruct (e_app e1) as [i1|] eqn:A1.
    + destruct (do_cipher_world crypt mac key_size e1 _ _ _ _ _ _ c1 i1 g E1 A1 D) as (_ & F). eapply carries_frame; eauto.
    + rewrite do_cipher_none in D by exact A1. injection D as <- <-. exact R.
  - apply here_neq in AB. destruct (w_evp w c1) as [e1|] eqn:E1; [|exact R].
    destruct (do_cipher e1 (InData data) ok1 ok2 w) as (w', r) eqn:D. cbn [fst]. destruct (e_app e1) as [i1|] eqn:A1.
    + destruct (do_cipher_world crypt mac key_size e1 _ _ _ _ _ _ c1 i1 g E1 A1 D) as (_ & F). eapply carries_frame; eauto.
    + rewrite do_cipher_none in D by exact A1. injection D as <- <-. exact R.
  - apply here_neq in AB. destruct (w_evp w c1) as [e1|] eqn:E1; [|exact R]. destruct (custom (e_alg e1)); [|exact R].
    destruct (do_cipher e1 InEnd ok1 ok2 w) as (w', r) eqn:D. cbn [fst]. destruct (e_app e1) as [i1|] eqn:A1.
    + destruct (do_cipher_world crypt mac key_size e1 _ _ _ _ _ _ c1 i1 g E1 A1 D) as (_ & F). eapply carries_frame; eauto.
    + rewrite do_cipher_none in D by exact A1. injection D as <- <-. exact R.
  - destruct (w_evp w c1) as [e1|] eqn:E1; [|exact R]. destruct (custom (e_alg e1)); exact R.
  - apply here_neq in AB. destruct (w_evp w c1) as [e1|] eqn:E1; [|exact R]. destruct (custom (e_alg e1)); [|exact R]. unfold set_tag.
    destruct (16 <? n); [exact R|]. destruct (e_app e1) as [i1|] eqn:A1; [|exact R]. destruct (w_app w i1) as [a1|] eqn:W1; [|exact R].
    destruct (n <? 0); [exact R|]. cbn [fst]. eapply carries_frame; eauto. split; proj; auto. intros i N. apply upd_other. exact N.
  - apply orb_false_iff in AB. destruct AB as (AB1 & AB2). apply here_neq in AB1, AB2.
    destruct (w_evp w c1) as [e1|] eqn:E1; [|exact R]. destruct (w_evp w c2) as [e2|] eqn:E2; [exact R|]. cbn [fst].
    eapply carries_same; [exact R|proj; apply upd_other; congruence| |reflexivity|reflexivity].
    intros i _ P. split; [|auto]. intros c' e'. proj. destruct (upd_cases (w_evp w) c2 (Some e1) c') as [(-> & ->)|(N & ->)]; [|apply P].
    intros Q A. injection Q as <-. specialize (P c1 e1 E1 A). congruence.
  - apply here_neq in AB. destruct (w_evp w c1) as [e1|] eqn:E1; [|exact R]. unfold cleanup.
    assert (P1 : forall i, (forall c' e', w_evp w c' = Some e' -> e_app e' = Some i -> c' = c) ->
       forall c' e', upd (w_evp w) c1 None c' = Some e' -> e_app e' = Some i -> c' = c).
    { intros i P c' e'. destruct (upd_cases (w_evp w) c1 None c') as [(-> & ->)|(N & ->)]; [discriminate|]. apply P. }
    assert (NOP : carries j (set_evp w c1 None) c).
    { eapply carries_same; [exact R|proj; apply upd_other; congruence| |reflexivity|reflexivity]. intros i _ P. split; [exact (P1 i P)|auto]. }
    destruct (e_app e1) as [i1|] eqn:A1; [|exact NOP]. destruct (w_app w i1) as [a1|] eqn:W1; [|exact NOP]. cbn [fst].
    set (u := match a_ctx a1 with Some h => set_sa w h None | None => w end).
    assert (U : w_evp u = w_evp w /\ w_app u = w_app w /\ w_keys u = w_keys w /\ w_ivs u = w_ivs w) by (unfold u; destruct (a_ctx a1); auto).
    destruct U as (U1 & U2 & U3 & U4).
    eapply carries_same; [exact R| | | |]; cbn [set_evp set_app w_evp w_app w_sa w_keys w_ivs]; rewrite ?U1, ?U2, ?U3, ?U4; try reflexivity.
    + apply upd_other. congruence.
    + intros i (e & E & A) P. assert (D : i <> i1) by (intros ->; apply AB; eapply P; eauto).
      split; [exact (P1 i P)|]. split; [apply upd_other; exact D|]. intros a h AA C. unfold u. destruct (a_ctx a1) as [k|] eqn:C1; [|reflexivity].
      proj. apply upd_other. intros ->. apply D. eapply (g_own w g); eauto.
Qed.
End Engine.
