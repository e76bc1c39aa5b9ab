(** Proofs: the engine's ciphers; what holds in every world. *)
From Verif Require Import Base M_EngCipher S_EngCipher.

Lemma upd_same {X} (f : nat -> X) i x : upd f i x i = x.
Proof. unfold upd. rewrite Nat.eqb_refl. reflexivity. Qed.
Lemma upd_other {X} (f : nat -> X) i x j : j <> i -> upd f i x j = f j.
Proof. intros N. unfold upd. apply Nat.eqb_neq in N. rewrite N. reflexivity. Qed.
Lemma upd_cases {X} (f : nat -> X) i x j : (j = i /\ upd f i x j = x) \/ (j <> i /\ upd f i x j = f j).
Proof. destruct (Nat.eq_dec j i) as [->|N]; [left; rewrite upd_same; auto|right; rewrite upd_other; auto]. Qed.

Record G (w : world) : Prop := {
  g_evp : forall c e i, w_evp w c = Some e -> e_app e = Some i -> (i < w_apps w)%nat;
  g_app : forall i a, w_app w i = Some a -> (i < w_apps w)%nat;
  g_ctx : forall i a h, w_app w i = Some a -> a_ctx a = Some h -> (h < w_sas w)%nat;
  g_own : forall i a i' a' h, w_app w i = Some a -> w_app w i' = Some a' -> a_ctx a = Some h -> a_ctx a' = Some h -> i = i';
  g_sa : forall h s, w_sa w h = Some s -> exists i a, w_app w i = Some a /\ a_ctx a = Some h;
  g_ref : forall i a, w_app w i = Some a -> exists c e, w_evp w c = Some e /\ e_app e = Some i
}.

Ltac proj := cbn [set_evp set_app set_sa new_app new_sa set_key set_iv w_evp w_app w_apps w_sa w_sas w_keys w_ivs] in *.

Lemma G_start : G start.
Proof. split; cbn; intros; discriminate. Qed.

(** Application data changes, its context stays. *)
Lemma G_set_app w i a a' : G w -> w_app w i = Some a -> a_ctx a' = a_ctx a -> G (set_app w i (Some a')).
Proof.
  intros [g1 g2 g3 g4 g5 g6] A C. split; proj.
  - exact g1.
  - intros j x. destruct (upd_cases (w_app w) i (Some a') j) as [(-> & ->)|(N & ->)]; [intros _; eauto|apply g2].
  - intros j x h. destruct (upd_cases (w_app w) i (Some a') j) as [(-> & ->)|(N & ->)]; [|apply g3].
    intros Q. injection Q as <-. rewrite C. apply (g3 i a h A).
  - intros j x j' x' h. destruct (upd_cases (w_app w) i (Some a') j) as [(-> & ->)|(N & ->)];
      destruct (upd_cases (w_app w) i (Some a') j') as [(-> & ->)|(N' & ->)]; auto.
    + intros Q Q'. injection Q as <-. rewrite C. intros. eapply g4; eauto.
    + intros Q Q'. injection Q' as <-. rewrite C. intros. eapply g4; eauto.
    + eapply g4.
  - intros h s S. destruct (g5 h s S) as (j & x & X & Y). destruct (Nat.eq_dec j i) as [->|N].
    + exists i, a'. rewrite upd_same. split; [reflexivity|]. rewrite C. congruence.
    + exists j, x. rewrite upd_other by exact N. auto.
  - intros j x. destruct (upd_cases (w_app w) i (Some a') j) as [(-> & ->)|(N & ->)]; [intros _; eapply g6; eauto|apply g6].
Qed.

Lemma G_set_sa w h s s' : G w -> w_sa w h = Some s -> G (set_sa w h (Some s')).
Proof.
  intros [g1 g2 g3 g4 g5 g6] A. split; proj; auto.
  intros k x. destruct (upd_cases (w_sa w) h (Some s') k) as [(-> & ->)|(N & ->)]; [intros _; eauto|apply g5].
Qed.

Lemma G_memory w k v : G w -> G (MkWorld (w_evp w) (w_app w) (w_apps w) (w_sa w) (w_sas w) k v).
Proof. intros [g1 g2 g3 g4 g5 g6]. split; auto. Qed.

(** New application data. *)
Lemma G_new_app w c e a : G w -> w_evp w c = Some e -> e_app e = None -> a_ctx a = None ->
  G (set_evp (new_app w a) c (Some (MkEvp (e_alg e) (e_len e) (Some (w_apps w))))).
Proof.
  intros [g1 g2 g3 g4 g5 g6] E N A. split; proj.
  - intros c' e' i. destruct (upd_cases (w_evp w) c (Some (MkEvp (e_alg e) (e_len e) (Some (w_apps w)))) c') as [(-> & ->)|(D & ->)].
    + intros Q. injection Q as <-. cbn [e_app]. intros Q. injection Q as <-. lia.
    + intros Q Q'. specialize (g1 c' e' i Q Q'). lia.
  - intros j x. destruct (upd_cases (w_app w) (w_apps w) (Some a) j) as [(-> & ->)|(D & ->)]; [lia|]. intros Q. specialize (g2 j x Q). lia.
  - intros j x h. destruct (upd_cases (w_app w) (w_apps w) (Some a) j) as [(-> & ->)|(D & ->)]; [|apply g3]. intros Q. injection Q as <-. congruence.
  - intros j x j' x' h. destruct (upd_cases (w_app w) (w_apps w) (Some a) j) as [(-> & ->)|(D & ->)];
      destruct (upd_cases (w_app w) (w_apps w) (Some a) j') as [(-> & ->)|(D' & ->)]; auto.
    + intros Q Q'. injection Q as <-. congruence.
    + intros Q Q'. injection Q' as <-. congruence.
    + eapply g4.
  - intros h s S. destruct (g5 h s S) as (j & x & X & Y). exists j, x. rewrite upd_other; [auto|]. specialize (g2 j x X). lia.
  - intros j x. destruct (upd_cases (w_app w) (w_apps w) (Some a) j) as [(-> & ->)|(D & ->)].
    + intros _. exists c, (MkEvp (e_alg e) (e_len e) (Some (w_apps w))). rewrite upd_same. auto.
    + intros Q. destruct (g6 j x Q) as (c' & e' & F & F'). exists c', e'. rewrite upd_other; [auto|]. intros ->. congruence.
Qed.

Lemma G_open w c e : G w -> w_evp w c = None -> (forall i, e_app e = Some i -> (i < w_apps w)%nat) -> G (set_evp w c (Some e)).
Proof.
  intros [g1 g2 g3 g4 g5 g6] E A. split; proj; auto.
  - intros c' e' i. destruct (upd_cases (w_evp w) c (Some e) c') as [(-> & ->)|(D & ->)]; [|apply g1]. intros Q. injection Q as <-. apply A.
  - intros j x Q. destruct (g6 j x Q) as (c' & e' & F & F'). exists c', e'. rewrite upd_other; [auto|]. intros ->. congruence.
Qed.

(** A context of the secure API. *)
Lemma G_new_sa w i a a' s : G w -> w_app w i = Some a -> a_ctx a = None -> a_ctx a' = Some (w_sas w) ->
  G (set_app (new_sa w s) i (Some a')).
Proof.
  intros [g1 g2 g3 g4 g5 g6] A C C'. split; proj; auto.
  - intros j x. destruct (upd_cases (w_app w) i (Some a') j) as [(-> & ->)|(N & ->)]; [intros _; eauto|apply g2].
  - intros j x h. destruct (upd_cases (w_app w) i (Some a') j) as [(-> & ->)|(N & ->)].
    + intros Q. injection Q as <-. rewrite C'. intros Q. injection Q as <-. lia.
    + intros Q Q'. specialize (g3 j x h Q Q'). lia.
  - intros j x j' x' h. destruct (upd_cases (w_app w) i (Some a') j) as [(-> & ->)|(N & ->)];
      destruct (upd_cases (w_app w) i (Some a') j') as [(-> & ->)|(N' & ->)]; auto.
    + intros Q Q'. injection Q as <-. rewrite C'. intros R R'. injection R as <-. specialize (g3 _ _ _ Q' R'). lia.
    + intros Q Q'. injection Q' as <-. rewrite C'. intros R R'. injection R' as <-. specialize (g3 _ _ _ Q R). lia.
    + eapply g4.
  - intros h x. destruct (upd_cases (w_sa w) (w_sas w) (Some s) h) as [(-> & ->)|(N & ->)].
    + intros _. exists i, a'. rewrite upd_same. auto.
    + intros S. destruct (g5 h x S) as (j & y & X & Y). exists j, y. rewrite upd_other; [auto|]. intros ->. congruence.
  - intros j x. destruct (upd_cases (w_app w) i (Some a') j) as [(-> & ->)|(N & ->)]; [intros _; eapply g6; eauto|apply g6].
Qed.

(** The end of a context. *)
Lemma G_close w c e : G w -> w_evp w c = Some e -> (forall i, e_app e = Some i -> w_app w i = None) -> G (set_evp w c None).
Proof.
  intros [g1 g2 g3 g4 g5 g6] E A. split; proj; auto.
  - intros c' e' i. destruct (upd_cases (w_evp w) c None c') as [(-> & ->)|(D & ->)]; [discriminate|apply g1].
  - intros j x Q. destruct (g6 j x Q) as (c' & e' & F & F'). exists c', e'. rewrite upd_other; [auto|]. intros ->.
    rewrite E in F. injection F as <-. rewrite (A j F') in Q. discriminate.
Qed.
Lemma G_cleanup w i a c e : G w -> w_evp w c = Some e -> e_app e = Some i -> w_app w i = Some a ->
  G (set_evp (set_app (match a_ctx a with Some h => set_sa w h None | None => w end) i None) c None).
Proof.
  intros [g1 g2 g3 g4 g5 g6] E EA A.
  set (u := match a_ctx a with Some h => set_sa w h None | None => w end).
  assert (U : w_evp u = w_evp w /\ w_app u = w_app w /\ w_apps u = w_apps w /\ w_sas u = w_sas w) by (unfold u; destruct (a_ctx a); auto).
  destruct U as (U1 & U2 & U3 & U4).
  assert (US : forall h s, w_sa u h = Some s -> w_sa w h = Some s /\ a_ctx a <> Some h).
  { intros h s. unfold u. destruct (a_ctx a) as [k|]; proj; [|intros Q; split; [exact Q|discriminate]].
    destruct (upd_cases (w_sa w) k None h) as [(-> & ->)|(N & ->)]; [discriminate|]. intros Q. split; [exact Q|congruence]. }
  split; cbn [set_evp set_app w_evp w_app w_apps w_sa w_sas]; rewrite ?U1, ?U2, ?U3, ?U4.
  - intros c' e' j. destruct (upd_cases (w_evp w) c None c') as [(-> & ->)|(D & ->)]; [discriminate|apply g1].
  - intros j x. destruct (upd_cases (w_app w) i None j) as [(-> & ->)|(D & ->)]; [discriminate|apply g2].
  - intros j x h. destruct (upd_cases (w_app w) i None j) as [(-> & ->)|(D & ->)]; [discriminate|apply g3].
  - intros j x j' x' h. destruct (upd_cases (w_app w) i None j) as [(-> & ->)|(D & ->)]; [discriminate|].
    destruct (upd_cases (w_app w) i None j') as [(-> & ->)|(D' & ->)]; [discriminate|apply g4].
  - intros h s S. destruct (US h s S) as (S1 & S2). destruct (g5 h s S1) as (j & x & Q & R). exists j, x.
    rewrite upd_other; [auto|]. intros ->. rewrite A in Q. injection Q as <-. congruence.
  - intros j x. destruct (upd_cases (w_app w) i None j) as [(-> & ->)|(D & ->)]; [discriminate|]. intros Q.
    destruct (g6 j x Q) as (c' & e' & F & F'). exists c', e'. rewrite upd_other; [auto|]. intros ->. rewrite E in F. injection F as <-. congruence.
Qed.

Section Engine.
Variable crypt : alg -> bool -> Z -> bytes -> bytes -> bytes -> bytes -> bytes.
Variable mac : alg -> Z -> bytes -> bytes -> bytes -> bytes.
Variable key_size : Z -> option Z.
Notation step := (step crypt mac key_size).
Notation do_cipher := (do_cipher crypt mac).

(** Another world in which only what belongs to one context has changed. *)
Record frame (i : nat) (w w' : world) : Prop := {
  f_evp : w_evp w' = w_evp w;
  f_apps : w_apps w' = w_apps w;
  f_app : forall j, j <> i -> w_app w' j = w_app w j;
  f_sas : (w_sas w <= w_sas w')%nat;
  f_sa : forall h, (h < w_sas w)%nat -> w_sa w' h = w_sa w h \/ exists a, w_app w i = Some a /\ a_ctx a = Some h;
  f_keys : w_keys w' = w_keys w;
  f_ivs : w_ivs w' = w_ivs w
}.
Lemma frame_refl i w : frame i w w.
Proof. split; auto. Qed.

Lemma open_sa_spec i a aad ok w w' h crash : w_app w i = Some a -> open_sa i a aad ok w = (w', h, crash) ->
  (w' = w /\ (h = a_ctx a \/ h = None)) \/
  (a_ctx a = None /\ h = Some (w_sas w) /\ crash = false /\
   exists k key iv, a_key a = Some k /\ w_keys w k = Some key /\
     (if needs_iv (a_alg a) then exists v, a_iv a = Some v /\ w_ivs w v = Some iv else iv = []) /\
     w' = set_app (new_sa w (MkSa (a_alg a) (a_enc a) key iv (if custom (a_alg a) then aad else []) [] false)) i
            (Some (MkApp (a_key a) (a_iv a) (a_enc a) (a_alg a) (Some (w_sas w)) (a_tag a)))).
Proof.
  intros A. unfold open_sa. destruct (a_ctx a) as [k|] eqn:C.
  { intros Q. injection Q as <- <- <-. left. auto. }
  destruct (a_key a) as [k|] eqn:K; [|intros Q; injection Q as <- <- <-; auto].
  destruct (w_keys w k) as [key|] eqn:KV; [|intros Q; injection Q as <- <- <-; auto].
  destruct (needs_iv (a_alg a)) eqn:N.
  - destruct (a_iv a) as [v|] eqn:V; [|intros Q; injection Q as <- <- <-; auto].
    destruct (w_ivs w v) as [iv|] eqn:I; [|intros Q; injection Q as <- <- <-; auto].
    destruct ok; cbn [negb]; [|intros Q; injection Q as <- <- <-; auto].
    intros Q. injection Q as <- <- <-. right. split; [reflexivity|]. split; [reflexivity|]. split; [reflexivity|].
    exists k, key, iv. split; [reflexivity|]. split; [exact KV|]. split; [eauto|reflexivity].
  - destruct ok; cbn [negb]; [|intros Q; injection Q as <- <- <-; auto].
    intros Q. injection Q as <- <- <-. right. split; [reflexivity|]. split; [reflexivity|]. split; [reflexivity|].
    exists k, key, []. split; [reflexivity|]. split; [exact KV|]. split; [auto|reflexivity].
Qed.

Lemma open_sa_world i a aad ok w w' h crash : G w -> w_app w i = Some a -> open_sa i a aad ok w = (w', h, crash) ->
  G w' /\ frame i w w' /\ (exists a', w_app w' i = Some a' /\ (h = a_ctx a' \/ h = None)).
Proof.
  intros g A E. destruct (open_sa_spec i a aad ok w w' h crash A E) as [(-> & H)|(C & -> & _ & k & key & iv & K & KV & I & ->)].
  - split; [exact g|]. split; [apply frame_refl|]. eauto.
  - split; [eapply G_new_sa; eauto|]. split.
    + split; proj; auto.
      * intros j N. apply upd_other. exact N.
      * intros x L. left. apply upd_other. lia.
    + eexists. proj. rewrite upd_same. split; [reflexivity|]. cbn [a_ctx]. auto.
Qed.

Lemma frame_trans i w w1 w2 : (forall a1 h, w_app w1 i = Some a1 -> a_ctx a1 = Some h -> (h < w_sas w)%nat -> exists a, w_app w i = Some a /\ a_ctx a = Some h) ->
  frame i w w1 -> frame i w1 w2 -> frame i w w2.
Proof.
  intros T [f1 f2 f3 f4 f5 f6 f7] [k1 k2 k3 k4 k5 k6 k7]. split; try congruence.
  - intros j N. rewrite k3, f3; auto.
  - lia.
  - intros h L. destruct (k5 h ltac:(lia)) as [E|(a & A & C)].
    + rewrite E. apply f5. exact L.
    + right. eapply T; eauto.
Qed.

Lemma do_cipher_world e inp ok1 ok2 w w' r c i : G w -> w_evp w c = Some e -> e_app e = Some i ->
  do_cipher e inp ok1 ok2 w = (w', r) -> G w' /\ frame i w w'.
Proof.
  intros g E EA. unfold M_EngCipher.do_cipher. rewrite EA.
  destruct (w_app w i) as [a|] eqn:A; [|intros Q; injection Q as <- <-; split; [exact g|apply frame_refl]].
  destruct (a_key a); [|intros Q; injection Q as <- <-; split; [exact g|apply frame_refl]].
  destruct (open_sa i a (match inp with InAad b => b | _ => [] end) ok1 w) as ((w1 & h) & crash) eqn:O.
  destruct (open_sa_world _ _ _ _ _ _ _ _ g A O) as (g1 & F1 & a1 & A1 & H).
  assert (T : forall a2 k, w_app w1 i = Some a2 -> a_ctx a2 = Some k -> (k < w_sas w)%nat -> exists a, w_app w i = Some a /\ a_ctx a = Some k).
  { intros a2 k X Y L. destruct (open_sa_spec _ _ _ _ _ _ _ _ A O) as [(-> & _)|(C & _ & _ & ? & ? & ? & _ & _ & _ & ->)]; [eauto|].
    proj. rewrite upd_same in X. injection X as <-. cbn [a_ctx] in Y. injection Y as <-. lia. }
  destruct crash; [intros Q; injection Q as <- <-; auto|].
  destruct h as [h|]; [|intros Q; injection Q as <- <-; auto].
  destruct H as [H|H]; [|discriminate].
  assert (S : forall s s', w_sa w1 h = Some s -> G (set_sa w1 h (Some s')) /\ frame i w (set_sa w1 h (Some s'))).
  { intros s s' X. split; [eapply G_set_sa; eauto|]. eapply frame_trans; [exact T|exact F1|]. split; proj; auto.
    intros k L. destruct (Nat.eq_dec k h) as [->|N]; [right; exists a1; auto|left; apply upd_other; exact N]. }
  destruct inp as [b|b|].
  - intros Q. injection Q as <- <-. auto.
  - unfold sa_process. destruct (w_sa w1 h) as [s|] eqn:X; [|intros Q; injection Q as <- <-; auto].
    destruct (negb ok2 || s_done s); intros Q; injection Q as <- <-; eauto.
  - assert (V : forall t, (match sa_last mac h t ok2 w1 with
        | (w, Some (Some tag)) => (match w_app w i with
                               | Some a => set_app w i (Some (MkApp (a_key a) (a_iv a) (a_enc a) (a_alg a) (a_ctx a) (Some tag)))
                               | None => w end, DRes 0 None)
        | (w, Some None) => (w, DRes 0 None)
        | (w, None) => (w, DRes (-1) None) end) = (w', r) -> G w' /\ frame i w w').
    { intros t. unfold sa_last. destruct (w_sa w1 h) as [s|] eqn:X; [|intros Q; injection Q as <- <-; auto].
      destruct (negb ok2 || s_done s); [intros Q; injection Q as <- <-; auto|].
      destruct (S s (MkSa (s_alg s) (s_enc s) (s_key s) (s_iv s) (s_aad s) (s_data s) true) eq_refl) as (g2 & F2).
      destruct (s_enc s).
      - change (w_app (set_sa w1 h (Some (MkSa (s_alg s) true (s_key s) (s_iv s) (s_aad s) (s_data s) true))) i) with (w_app w1 i).
        rewrite A1. intros Q. injection Q as <- <-. split; [eapply G_set_app; eauto|].
        destruct F2 as [k1 k2 k3 k4 k5 k6 k7]. split; proj; auto. intros j N. rewrite upd_other by exact N. apply k3. exact N.
      - destruct (same t (mac (s_alg s) (s_key s) (s_iv s) (s_aad s) (s_data s))); intros Q; injection Q as <- <-; auto. }
    destruct (a_tag a); [apply V|]. destruct (match w_sa w1 h with Some s => s_enc s | None => true end); [apply V|].
    intros Q. injection Q as <- <-. auto.
Qed.
Lemma do_cipher_none e inp ok1 ok2 w : e_app e = None -> do_cipher e inp ok1 ok2 w = (w, DRes (-1) None).
Proof. intros E. unfold M_EngCipher.do_cipher. rewrite E. reflexivity. Qed.

Lemma init_world e c key iv enc memory w w' r i : G w -> w_evp w c = Some e -> e_app e = Some i ->
  cipher_init key_size e c key iv enc memory w = (w', r) -> G w' /\ frame i w w'.
Proof.
  intros g E EA. unfold cipher_init. rewrite EA.
  destruct (w_app w i) as [a|] eqn:A; [|intros Q; injection Q as <- <-; split; [exact g|apply frame_refl]].
  assert (S : forall w1 a1 a2, G w1 -> frame i w w1 -> w_app w1 i = Some a1 -> a_ctx a2 = a_ctx a1 ->
     G (set_app w1 i (Some a2)) /\ frame i w (set_app w1 i (Some a2))).
  { intros w1 a1 a2 g1 F1 A1 C. split; [eapply G_set_app; eauto|]. destruct F1 as [k1 k2 k3 k4 k5 k6 k7]. split; proj; auto.
    intros j N. rewrite upd_other by exact N. apply k3. exact N. }
  destruct key as [k|].
  - destruct (S w a (MkApp (Some k) (a_iv a) (a_enc a) (a_alg a) (a_ctx a) (a_tag a)) g (frame_refl i w) A eq_refl) as (g1 & F1).
    destruct (w_keys w k) as [x|]; [destruct (key_size x) as [n|]; [destruct (n =? e_len e)|]|];
      try (intros Q; injection Q as <- <-; auto).
    destruct iv as [v|]; intros Q; injection Q as <- <-; [|auto]. eapply S; [exact g1|exact F1|proj; apply upd_same|reflexivity].
  - destruct iv as [v|]; intros Q; injection Q as <- <-; [eapply S; [exact g|apply frame_refl|exact A|reflexivity]|split; [exact g|apply frame_refl]].
Qed.

Lemma step_G o w : G w -> G (fst (step o w)).
Proof.
  intros g. destruct o as [a x|a x|c a len|c key iv enc memory|c data ok|c data ok1 ok2|c ok1 ok2|c n|c n tag|c c'|c]; cbn [M_EngCipher.step].
  - apply G_memory. exact g.
  - apply G_memory. exact g.
  - destruct (w_evp w c) as [e|] eqn:E; [exact g|]. cbn [fst]. apply G_open; auto. discriminate.
  - destruct (w_evp w c) as [e|] eqn:E; [|exact g]. destruct (e_app e) as [i|] eqn:EA.
    + destruct (cipher_init key_size e c key iv enc memory w) as (w', r) eqn:I. eapply init_world; eauto.
    + unfold cipher_init. rewrite EA. destruct memory; [|exact g].
      set (a0 := MkApp None None enc (e_alg e) None None).
      pose proof (G_new_app w c e a0 g E EA eq_refl) as g1.
      set (w1 := set_evp (new_app w a0) c (Some (MkEvp (e_alg e) (e_len e) (Some (w_apps w))))) in *.
      assert (A1 : w_app w1 (w_apps w) = Some a0) by (unfold w1; proj; apply upd_same).
      set (a1 := fun k => MkApp (Some k) (a_iv a0) (a_enc a0) (a_alg a0) (a_ctx a0) (a_tag a0)).
      destruct key as [k|].
      * pose proof (G_set_app w1 (w_apps w) a0 (a1 k) g1 A1 eq_refl) as g2. fold (a1 k).
        destruct (w_keys w1 k) as [x|]; [destruct (key_size x) as [n|]; [destruct (n =? e_len e)|]|]; try exact g2.
        destruct iv as [v|]; [|exact g2]. cbn [fst]. eapply G_set_app; [exact g2|proj; apply upd_same|reflexivity].
      * destruct iv as [v|]; [|exact g1]. cbn [fst]. eapply G_set_app; [exact g1|exact A1|reflexivity].
  - destruct (w_evp w c) as [e|] eqn:E; [|exact g]. destruct (custom (e_alg e)); [|exact g].
    destruct (do_cipher e (InAad data) ok true w) as (w', r) eqn:D. cbn [fst]. destruct (e_app e) as [i|] eqn:EA.
    + eapply do_cipher_world; eauto.
    + rewrite do_cipher_none in D by exact EA. injection D as <- <-. exact g.
  - destruct (w_evp w c) as [e|] eqn:E; [|exact g].
    destruct (do_cipher e (InData data) ok1 ok2 w) as (w', r) eqn:D. cbn [fst]. destruct (e_app e) as [i|] eqn:EA.
    + eapply do_cipher_world; eauto.
    + rewrite do_cipher_none in D by exact EA. injection D as <- <-. exact g.
  - destruct (w_evp w c) as [e|] eqn:E; [|exact g]. destruct (custom (e_alg e)); [|exact g].
    destruct (do_cipher e InEnd ok1 ok2 w) as (w', r) eqn:D. cbn [fst]. destruct (e_app e) as [i|] eqn:EA.
    + eapply do_cipher_world; eauto.
    + rewrite do_cipher_none in D by exact EA. injection D as <- <-. exact g.
  - destruct (w_evp w c) as [e|] eqn:E; [|exact g]. destruct (custom (e_alg e)); exact g.
  - destruct (w_evp w c) as [e|] eqn:E; [|exact g]. destruct (custom (e_alg e)); [|exact g]. unfold set_tag.
    destruct (16 <? n); [exact g|]. destruct (e_app e) as [i|]; [|exact g]. destruct (w_app w i) as [a|] eqn:A; [|exact g].
    destruct (n <? 0); [exact g|]. eapply G_set_app; [exact g|exact A|reflexivity].
  - destruct (w_evp w c) as [e|] eqn:E; [|exact g]. destruct (w_evp w c') as [e'|] eqn:E'; [exact g|]. cbn [fst]. apply G_open; auto.
    intros i. apply (g_evp w g c e i E).
  - destruct (w_evp w c) as [e|] eqn:E; [|exact g]. unfold cleanup. destruct (e_app e) as [i|] eqn:EA.
    + destruct (w_app w i) as [a|] eqn:A; cbn [fst].
      * eapply G_cleanup; eauto.
      * eapply G_close; eauto. intros j Q. congruence.
    + cbn [fst]. eapply G_close; eauto. intros j Q. congruence.
Qed.
End Engine.
