From Verif Require Import Base M_Mac M_ProvMac S_ProvMac P_ProvMac.
From Verif Require M_ProvKdf.

Definition ext (s s' : state) : Prop := forall h b, s_made s h = Some b -> s_made s' h = Some b.
Lemma agree_keep s s' w w' q x : ext s s' -> (forall h, c_mac x = Some h -> w_macs w' h = w_macs w h) -> agree s w q x -> agree s' w' q x.
Proof.
  intros E M (A1 & A2 & A3 & A4). split; [exact A1|]. split; [exact A2|]. split.
  - intros b B. destruct (A3 b B) as (h & H1 & H2). exists h. auto.
  - intros r R. destruct (A4 r R) as [(h & H1 & H2) H3]. split; [|exact H3]. exists h. split; [exact H1|]. rewrite M; auto.
Qed.
(** One context changes. *)
Lemma inv_at s w s' w' c : Own w -> Inv s w -> ext s s' ->
  (forall h b, w_keys w' h = Some b -> s_made s' h = Some b) ->
  (forall d, d <> c -> s_ctx s' d = s_ctx s d /\ w_ctxs w' d = w_ctxs w d) ->
  (forall d x h, d <> c -> w_ctxs w d = Some x -> c_mac x = Some h -> w_macs w' h = w_macs w h) ->
  match s_ctx s' c, w_ctxs w' c with Some q, Some x => agree s' w' q x | None, None => True | _, _ => False end -> Inv s' w'.
Proof.
  intros O [K C] E K' N M H. split; [exact K'|]. intros d. destruct (Nat.eq_dec d c) as [->|ND]; [exact H|].
  destruct (N d ND) as [-> ->]. specialize (C d). destruct (s_ctx s d) as [q|]; destruct (w_ctxs w d) as [x|] eqn:X; auto.
  eapply agree_keep; [exact E| |exact C]. intros h. eauto.
Qed.
Lemma ctx_known s w c x : Inv s w -> w_ctxs w c = Some x -> exists q, s_ctx s c = Some q /\ agree s w q x.
Proof. intros [_ C] X. specialize (C c). rewrite X in C. destruct (s_ctx s c) as [q|]; [|contradiction]. eauto. Qed.
Lemma ext_refl s : ext s s. Proof. intros h b. auto. Qed.
Lemma ext_ctx s c q : ext s (with_ctx s c q). Proof. intros h b. auto. Qed.
Lemma with_ctx_at s c q : s_ctx (with_ctx s c q) c = q. Proof. cbn. rewrite Nat.eqb_refl. reflexivity. Qed.
Lemma with_ctx_off s c q d : d <> c -> s_ctx (with_ctx s c q) d = s_ctx s d. Proof. intros D. cbn. rewrite eqb_neq_nat; auto. Qed.
Lemma set_ctx_at w c q : w_ctxs (set_ctx w c q) c = q. Proof. cbn. rewrite Nat.eqb_refl. reflexivity. Qed.
Lemma set_ctx_off w c q d : d <> c -> w_ctxs (set_ctx w c q) d = w_ctxs w d. Proof. intros D. cbn. rewrite eqb_neq_nat; auto. Qed.
Lemma ext_key s h b : s_made s h = None -> ext s (with_key s h b).
Proof. intros N k c K. cbn. destruct (Z.eqb_spec k h) as [->|E]; [congruence|exact K]. Qed.
Lemma inv_same s w : forall w', Inv s w -> w_ctxs w' = w_ctxs w -> w_macs w' = w_macs w -> (forall h b, w_keys w' h = Some b -> w_keys w h = Some b) -> Inv s w'.
Proof.
  intros w' [K C] E1 E2 E3. split; [intros; apply K, E3; assumption|]. intros c. specialize (C c). rewrite E1. destruct (s_ctx s c); destruct (w_ctxs w c); auto.
  eapply agree_keep; [apply ext_refl| |exact C]. intros. rewrite E2. reflexivity.
Qed.

Definition new_ok (s : state) (o : op) (a : answer) : Prop :=
  match made_by o, a with Some (h, _), Misuse => True | Some (h, _), _ => s_made s h = None | None, _ => True end.

Lemma alg_of_started x g q m k r : algorithm x = Some g -> c_hmac x = q_hmac q -> (forall n, m = Some n -> c_md x = Some n) ->
  started (q_hmac q) m k = Some r -> g = alg_of (r_md r) /\ k = Some (r_key r) /\ r_data r = [] /\ (q_hmac q = true <-> r_md r <> None).
Proof.
  unfold algorithm, started. intros G H M S. rewrite H in G. destruct k as [b|]; [|discriminate]. destruct (q_hmac q).
  - destruct m as [n|]; [|discriminate]. rewrite (M n eq_refl) in G. injection S as <-. cbn. split; [congruence|]. repeat split; congruence.
  - injection S as <-. cbn. split; [congruence|]. repeat split; congruence.
Qed.

Lemma step_inv L o w s : Own w -> Inv s w -> new_ok s o (snd (step L o w)) -> Inv (hear s (o, snd (step L o w))) (fst (step L o w)).
Proof.
  intros O I. destruct o as [h b|h|c hm|c p|c key hd p h ok|c l ok|c room ok junk|c|c]; cbn [step].
  - destruct (w_keys w h) eqn:K; cbn; [auto|]. intros N. apply (inv_at s w _ _ 0%nat); auto.
    + apply ext_key. exact N.
    + intros k b'. cbn. destruct (Z.eqb_spec k h) as [->|E]; [auto|]. destruct I. auto.
    + cbn. pose proof (i_ctx _ _ I 0%nat) as C. destruct (s_ctx s 0); destruct (w_ctxs w 0); auto. eapply agree_keep; [apply ext_key; exact N| |exact C]. reflexivity.
  - intros _. cbn. apply (inv_same s w); auto. intros k b. cbn. destruct (k =? h); [discriminate|auto].
  - destruct (w_ctxs w c) eqn:X; cbn [fst snd hear made_by]; [auto|]. intros _. apply (inv_at s w _ _ c); auto using ext_refl, ext_ctx.
    + apply I.
    + intros d D. split; [apply with_ctx_off|apply set_ctx_off]; exact D.
    + rewrite with_ctx_at, set_ctx_at. split; [reflexivity|]. repeat split; discriminate.
  - destruct (w_ctxs w c) as [x|] eqn:X; [|cbn; auto]. destruct (ctx_known _ _ _ _ I X) as (q & Q & A).
    pose proof (set_params_spec w x p) as S. destruct (set_params w x p) as [[w1 x1] b]. destruct S as (S1 & S2 & S3 & S4 & S5 & S6). cbn [fst snd].
    intros _. destruct A as (A1 & A2 & A3 & A4).
    assert (KK : forall h b, w_keys w1 h = Some b -> s_made s h = Some b) by (intros; apply (i_made _ _ I), S3; assumption).
    assert (R : forall r, q_run q = Some r -> goes (set_ctx w1 c (Some x1)) x1 r /\ (q_hmac q = true <-> r_md r <> None)).
    { intros r R. destruct (A4 r R) as [(h & H1 & H2) H3]. split; [|exact H3]. exists h. cbn. rewrite S2. split; congruence. }
    destruct b; cbn [hear made_by]; rewrite Q; (apply (inv_at s w _ _ c); auto using ext_refl, ext_ctx;
      [intros d D; split; [apply with_ctx_off; exact D|rewrite set_ctx_off by exact D; congruence]
      |intros d y h D Y1 Y2; cbn; congruence
      |rewrite with_ctx_at, set_ctx_at]).
    + destruct (S6 eq_refl) as (T1 & T2 & T3 & T4). split; [cbn; congruence|]. cbn [q_md q_key q_run q_hmac]. split; [|split; [|exact R]].
      * intros m. unfold md_after. rewrite T1. unfold md_new. destruct (p_md p) as [[| |n]|]; try congruence; auto.
      * intros b. unfold key_after. destruct (p_key p) as [[h|]|]; [|discriminate|].
        -- intros B. exists h. split; [apply T4|exact B].
        -- intros B. destruct (A3 b B) as (h & H1 & H2). exists h. split; [congruence|exact H2].
    + split; [cbn; congruence|]. cbn [q_md q_key q_run q_hmac]. split; [discriminate|]. split; [discriminate|exact R].
  - destruct (w_ctxs w c) as [x|] eqn:X; [|cbn; auto]. destruct (match key with Some _ => _ | None => _ end); [cbn; auto|].
    destruct (ctx_known _ _ _ _ I X) as (q & Q & A1 & A2 & A3 & A4).
    pose proof (init_spec w x key hd p h ok) as S. destruct (init w x key hd p h ok) as [[w1 x1] a]. destruct S as (S1 & S2 & S3 & S4). cbn [fst snd].
    intros N. set (o := Init c key hd p h ok) in *.
    assert (NM : a <> Misuse) by (destruct S4 as [(-> & _)|([->| ->] & _)]; discriminate).
    set (s1 := match made_by o with Some (h, b) => with_key s h b | None => s end).
    assert (E : ext s s1).
    { unfold s1. unfold new_ok in N. destruct (made_by o) as [[k b]|]; [|apply ext_refl]. apply ext_key. destruct a; auto. congruence. }
    assert (C1 : s_ctx s1 = s_ctx s) by (unfold s1; destruct (made_by o) as [[k b]|]; reflexivity).
    assert (M1 : forall k b, w_keys w1 k = Some b -> s_made s1 k = Some b).
    { intros k b K. destruct (S3 k b K) as [K1|K1]; [apply E, (i_made _ _ I), K1|]. unfold s1, o. cbn. rewrite K1. cbn. rewrite Z.eqb_refl. reflexivity. }
    assert (H : hear s (o, a) = match a with
        | Fine => with_ctx s1 c (Some (let k := key_after s1 (match key with Some (b, _) => Some b | None => q_key q end) p in
                        Asked (q_hmac q) (md_after q p) k (started (q_hmac q) (md_after q p) k)))
        | _ => with_ctx s1 c (Some (Asked (q_hmac q) None None None)) end).
    { unfold s1, o. destruct key as [[b [k|]]|]; destruct a; try congruence; cbn; rewrite Q; reflexivity. }
    rewrite H. clear H. clearbody s1.
    assert (OTHER : forall d y k, d <> c -> w_ctxs w d = Some y -> c_mac y = Some k -> base w x k = w_macs w k).
    { intros d y k D Y1 Y2. apply base_keep. intros F. apply D. eapply (o_apart _ O); eauto. }
    destruct S4 as [(-> & F2 & F3 & F4 & F5 & F6 & F7 & F8 & F9 & k & b & g & G1 & G2 & G3 & _ & G4) | (F1 & F2 & F3)].
    + apply (inv_at s w _ _ c); auto.
      * intros d D. split; [rewrite with_ctx_off, C1 by exact D; reflexivity|rewrite set_ctx_off by exact D; congruence].
      * intros d y k' D Y1 Y2. cbn. rewrite G4. destruct (Z.eqb_spec k' h) as [->|NE]; [|eauto].
        exfalso. rewrite (OTHER d y h D Y1 Y2) in F3. eapply (o_held _ O); eauto.
      * rewrite with_ctx_at, set_ctx_at. cbv zeta.
        assert (MD : forall m, md_after q p = Some m -> c_md x1 = Some m).
        { intros m. unfold md_after. rewrite F4. unfold md_new. destruct (p_md p) as [[| |n]|]; try congruence; auto. }
        set (kb := key_after _ _ p).
        assert (KB : forall b', kb = Some b' -> b' = b /\ s_made s1 k = Some b').
        { intros b' B. assert (K2 := M1 k b G2). enough (s_made s1 k = Some b') by (split; congruence).
          unfold kb, key_after in B. rewrite F8 in G1. unfold key_now in G1. destruct (p_key p) as [[y|]|]; [congruence|discriminate|].
          destruct key as [[b1 [k1|]]|]; [|contradiction|].
          - injection G1 as ->. injection B as <-. unfold new_ok in N. cbn in N.
            destruct (S3 k b G2) as [K3|K3]; [rewrite (i_made _ _ I _ _ K3) in N; discriminate|]. injection K3 as ->. exact K2.
          - destruct (A3 b' B) as (h' & H1 & H2). assert (h' = k) as <- by (cbn in G1; congruence). apply E, H2. }
        split; [cbn; congruence|]. cbn [q_md q_key q_run q_hmac]. split; [exact MD|]. split.
        -- intros b' B. exists k. split; [exact G1|apply KB, B].
        -- intros r R. destruct (alg_of_started x1 g q (md_after q p) kb r) as (R1 & R2 & R3 & R4); auto; [congruence|]. split; [|exact R4].
           exists h. split; [exact F2|]. cbn. rewrite G4, Z.eqb_refl. destruct (KB _ R2) as [<- _]. rewrite R3. congruence.
    + assert (H : match a with
        | Fine => with_ctx s1 c (Some (let k := key_after s1 (match key with Some (b, _) => Some b | None => q_key q end) p in
                        Asked (q_hmac q) (md_after q p) k (started (q_hmac q) (md_after q p) k)))
        | _ => with_ctx s1 c (Some (Asked (q_hmac q) None None None)) end = with_ctx s1 c (Some (Asked (q_hmac q) None None None))).
      { destruct F1 as [->| ->]; reflexivity. }
      rewrite H. apply (inv_at s w _ _ c); auto.
      * intros d D. split; [rewrite with_ctx_off, C1 by exact D; reflexivity|rewrite set_ctx_off by exact D; congruence].
      * intros d y k' D Y1 Y2. cbn. rewrite F3. eauto.
      * rewrite with_ctx_at, set_ctx_at. split; [cbn; congruence|]. cbn. repeat split; discriminate.
  - destruct (w_ctxs w c) as [x|] eqn:X; [|cbn; auto]. destruct (ctx_known _ _ _ _ I X) as (q & Q & A1 & A2 & A3 & A4).
    assert (LOSE : Inv (hear s (Update c l ok, Refused)) w).
    { cbn [hear made_by]. rewrite Q. apply (inv_at s w _ _ c); auto using ext_refl, ext_ctx; [apply I|intros d D; split; [apply with_ctx_off; exact D|reflexivity]|].
      rewrite with_ctx_at, X. split; [exact A1|]. split; [exact A2|]. split; [exact A3|]. discriminate. }
    destruct (c_mac x) as [h|] eqn:M; [|auto]. destruct (w_macs w h) as [m|] eqn:H; [|auto]. destruct (m_done m) eqn:D; [auto|].
    intros _. destruct ok; cbn [fst snd hear made_by]; rewrite Q; (apply (inv_at s w _ _ c); auto using ext_refl, ext_ctx;
      [apply I
      |intros d ND; split; [apply with_ctx_off; exact ND|reflexivity]
      |intros d y k ND Y1 Y2; cbn; destruct (Z.eqb_spec k h) as [->|NE]; [exfalso; apply ND; eapply (o_apart _ O); eauto|reflexivity]
      |rewrite with_ctx_at; cbn [set_mac w_ctxs]; rewrite X]).
    + split; [exact A1|]. split; [exact A2|]. split; [exact A3|]. cbn [q_run q_hmac]. intros r R. destruct (q_run q) as [r0|]; [|discriminate]. injection R as <-.
      destruct (A4 r0 eq_refl) as [(h' & H1 & H2) H3]. assert (h' = h) as -> by congruence. rewrite H in H2. injection H2 as ->. split; [|exact H3].
      exists h. split; [exact M|]. cbn. rewrite Z.eqb_refl. reflexivity.
    + split; [exact A1|]. split; [exact A2|]. split; [exact A3|]. discriminate.
  - destruct (w_ctxs w c) as [x|] eqn:X; [|cbn; auto]. destruct (ctx_known _ _ _ _ I X) as (q & Q & A1 & A2 & A3 & A4).
    assert (LOSE : forall w' a, Inv s w -> w_ctxs w' = w_ctxs w -> w_keys w' = w_keys w ->
      (forall d y k, d <> c -> w_ctxs w d = Some y -> c_mac y = Some k -> w_macs w' k = w_macs w k) ->
      hear s (Final c room ok junk, a) = with_ctx s c (Some (Asked (q_hmac q) (q_md q) (q_key q) None)) -> Inv (hear s (Final c room ok junk, a)) w').
    { intros w' a _ E1 E2 E3 ->. apply (inv_at s w _ _ c); auto using ext_refl, ext_ctx.
      - rewrite E2. apply I.
      - intros d D. split; [apply with_ctx_off; exact D|congruence].
      - rewrite with_ctx_at, E1, X. split; [exact A1|]. split; [exact A2|]. split; [exact A3|]. discriminate. }
    assert (KEEP : Inv (hear s (Final c room ok junk, Refused)) w).
    { destruct ok; [exact I|]. apply LOSE; auto. cbn. rewrite Q. reflexivity. }
    destruct (room <? told_size x); [auto|]. destruct (c_mac x) as [h|] eqn:M; [|auto]. destruct (w_macs w h) as [m|] eqn:H; [|auto]. destruct (m_done m) eqn:D; [auto|].
    destruct (room <? size_of (m_alg m)); [auto|]. intros _. cbn [fst snd]. apply LOSE; auto.
    + intros d y k ND Y1 Y2. cbn. destruct (Z.eqb_spec k h) as [->|NE]; [exfalso; apply ND; eapply (o_apart _ O); eauto|reflexivity].
    + destruct ok; cbn; rewrite Q; reflexivity.
  - destruct (w_ctxs w c); auto.
  - destruct (w_ctxs w c) as [x|] eqn:X; [|cbn; auto]. intros _. cbn [fst snd hear made_by].
    destruct (drop_mac_spec w (c_mac x)) as (D1 & D2 & _). destruct (drop_key_spec (drop_mac w (c_mac x)) (c_key x)) as (K1 & K2 & _ & K4).
    apply (inv_at s w _ _ c); auto using ext_refl, ext_ctx.
    + intros h b. cbn. intros K. apply (i_made _ _ I). rewrite <- D2. destruct (c_delete x); auto.
    + intros d D. split; [apply with_ctx_off; exact D|]. rewrite set_ctx_off by exact D. cbn. destruct (c_delete x); congruence.
    + intros d y k ND Y1 Y2. cbn. enough (base w x k = w_macs w k) as <-.
      * rewrite <- base_drop. destruct (c_delete x); congruence.
      * apply base_keep. intros F. apply ND. eapply (o_apart _ O); eauto.
    + rewrite with_ctx_at, set_ctx_at. exact Logic.I.
Qed.

Lemma inv_start : Inv nothing start. Proof. split; cbn; [discriminate|auto]. Qed.
Lemma run_inv L l : forall w s, Own w -> Inv s w -> handles_new (snd (run L l w)) s ->
  Inv (fold_left hear (snd (run L l w)) s) (fst (run L l w)) /\ Own (fst (run L l w)).
Proof.
  induction l as [|o l IH]; intros w s O I; [auto|]. cbn [run]. pose proof (own_moved _ _ O (step_moved L o w)) as O1. pose proof (step_inv L o w s O I) as SI.
  destruct (step L o w) as [w1 a]. cbn [fst snd] in O1, SI. destruct (crashed a).
  - cbn. intros [N _]. split; [apply SI, N|exact O1].
  - specialize (IH w1 (hear s (o, a)) O1). destruct (run L l w1) as [w2 r]. cbn in IH |- *. intros [N R]. apply IH; [apply SI, N|exact R].
Qed.

Lemma listed_alg m d : listed m = Some d -> M_ProvKdf.digest_from_name (md_name m) = d /\ digest_length d = md_size m.
Proof. destruct m; intros [= <-]; split; reflexivity. Qed.
Lemma size_max m : md_size m <= 64. Proof. destruct m; cbn; lia. Qed.

(** The value of a MAC that goes on. *)
Theorem tag_value : forall L l c q r v room ok junk, handles_new (snd (run L l start)) nothing ->
  s_ctx (heard (snd (run L l start))) c = Some q -> q_run q = Some r -> tag L r = Some v ->
  (forall t, snd (step L (Final c room ok junk) (fst (run L l start))) = Tag t -> t = v) /\
  (q_md q = r_md r -> snd (step L (Final c room true junk) (fst (run L l start))) =
     if room <? match r_md r with Some m => bits m / 8 | None => 16 end then Refused else Tag v) /\
  (forall more, snd (step L (Update c more true) (fst (run L l start))) = Fine).
Proof.
  intros L l c q r v room ok junk H Q R T. destruct (run_inv L l start nothing own_start inv_start H) as [I O]. fold (heard (snd (run L l start))) in I.
  set (w := fst (run L l start)) in *. set (s := heard _) in *. pose proof (i_ctx _ _ I c) as C. rewrite Q in C. destruct (w_ctxs w c) as [x|] eqn:X; [|contradiction].
  destruct C as (A1 & A2 & A3 & A4). destruct (A4 r R) as [(h & H1 & H2) H3].
  assert (V : value L (alg_of (r_md r)) (r_key r) (r_data r) = v).
  { unfold tag in T. destruct (r_md r) as [m|]; cbn; [|congruence]. destruct (listed m) as [d|] eqn:D; [|discriminate]. destruct (listed_alg _ _ D) as [-> _]. congruence. }
  cbn [step]. rewrite X, H1, H2. cbn [m_done m_lost m_alg m_key m_data]. split; [|split].
  - intros t. destruct (room <? told_size x); [discriminate|]. destruct (room <? size_of _); [discriminate|]. cbn. destruct ok; [|discriminate]. intros [= <-]. exact V.
  - intros E. assert (SZ : told_size x = match r_md r with Some m => bits m / 8 | None => 16 end /\ size_of (alg_of (r_md r)) = told_size x).
    { unfold told_size. rewrite A1. unfold tag in T. destruct (r_md r) as [m|] eqn:M.
      - destruct H3 as [_ H3]. rewrite H3 by discriminate. rewrite (A2 m E). destruct (listed m) as [d|] eqn:D; [|discriminate]. destruct (listed_alg _ _ D) as [D1 D2].
        cbn. rewrite D1. split; [destruct m; reflexivity|exact D2].
      - destruct (q_hmac q); [exfalso; apply H3; reflexivity|]. split; reflexivity. }
    destruct SZ as [S1 S2]. rewrite S2, S1. destruct (room <? _); [reflexivity|]. cbn. rewrite V. reflexivity.
  - reflexivity.
Qed.
Theorem size_told : forall L l c q, handles_new (snd (run L l start)) nothing -> s_ctx (heard (snd (run L l start))) c = Some q ->
  (q_hmac q = false -> snd (step L (Size c) (fst (run L l start))) = Told 16) /\
  (forall m, q_hmac q = true -> q_md q = Some m -> snd (step L (Size c) (fst (run L l start))) = Told (bits m / 8)).
Proof.
  intros L l c q H Q. destruct (run_inv L l start nothing own_start inv_start H) as [I _]. fold (heard (snd (run L l start))) in I.
  pose proof (i_ctx _ _ I c) as C. rewrite Q in C. cbn [step]. destruct (w_ctxs _ c) as [x|]; [|contradiction]. destruct C as (A1 & A2 & _). cbn. unfold told_size. rewrite A1. split.
  - intros ->. reflexivity.
  - intros m -> M. rewrite (A2 m M). destruct m; reflexivity.
Qed.
(** Digests that the secure API does not have. *)
Theorem unlisted_refused : forall L w c key header m k d h ok, listed m = None -> cut_512 m = false ->
  (forall x, w_ctxs w c = Some x -> c_hmac x = true) ->
  snd (step L (Init c key header (Params (Some (Fetched m)) k d) h ok) w) <> Fine.
Proof.
  intros L w c key header m k d h ok N U H. cbn [step]. destruct (w_ctxs w c) as [x|]; [|discriminate]. destruct (match key with Some _ => _ | None => _ end); [discriminate|].
  pose proof (init_spec w x key header (Params (Some (Fetched m)) k d) h ok) as S. destruct (init w x key header _ h ok) as [[w1 x1] a].
  destruct S as (_ & S2 & _ & [(-> & _ & _ & F4 & _ & _ & _ & _ & _ & k' & b & g & _ & _ & G3 & G4 & _)|([->| ->] & _)]); try discriminate.
  exfalso. unfold algorithm in G3. rewrite S2, (H x eq_refl), F4 in G3. cbn in G3. injection G3 as <-. destruct m; try discriminate.
Qed.
(** The secure API agrees. *)
Theorem init_accepted : forall L w c x b k p h, w_ctxs w c = Some x -> w_keys w k = None -> c_key x <> Some k -> c_mac x <> Some h -> w_macs w h = None ->
  p_key p = None -> p_delete p <> Some None ->
  (if c_hmac x then exists m, p_md p = Some (Fetched m) /\ listed m <> None else p_md p = None) ->
  snd (step L (Init c (Some (b, Some k)) true p h true) w) = Fine.
Proof.
  intros L w c x b k p h X K NK NH H PK PD PM. cbn [step]. rewrite X.
  assert (K2 : w_keys (drop_key w (c_key x)) k = None).
  { destruct (w_keys (drop_key w (c_key x)) k) eqn:Y; [|reflexivity]. apply drop_key_spec in Y. congruence. }
  rewrite K2. unfold init.
  set (w2 := set_key (drop_key (drop_mac w (c_mac x)) _) k (Some b)). cbn [c_hmac c_md].
  assert (M2 : w_macs w2 h = None).
  { unfold w2. cbn [set_key w_macs]. match goal with |- context [drop_key ?a ?b] => destruct (drop_key_spec a b) as (_ & -> & _) end. rewrite base_drop, base_keep; auto. }
  assert (B2 : w_keys w2 k = Some b) by (unfold w2; cbn; rewrite Z.eqb_refl; reflexivity). clearbody w2.
  destruct p as [pm pk pd]. cbn [p_md p_key p_delete] in *. subst pk. unfold set_params. cbn [p_md p_key p_delete].
  destruct (c_hmac x) eqn:HM.
  - destruct PM as (m & -> & LM). cbn [set_md set_sa_key].
    destruct pd as [[d|]|]; [|congruence|]; cbn [set_delete c_hmac c_mac c_md c_key c_delete]; unfold begin; cbn [c_key algorithm c_hmac c_md set_mds w_keys w_macs];
      rewrite B2, M2; unfold algorithm; cbn [c_hmac c_md]; (destruct m; try (exfalso; apply LM; reflexivity); reflexivity).
  - subst pm. cbn [set_md set_sa_key].
    destruct pd as [[d|]|]; [|congruence|]; cbn [set_delete c_hmac c_mac c_md c_key c_delete]; unfold begin; cbn [c_key algorithm c_hmac c_md set_mds w_keys w_macs];
      unfold algorithm; cbn [c_hmac c_md]; rewrite B2, M2; reflexivity.
Qed.

(** A MAC is read once. *)
Definition over (w : world) (c : nat) : Prop :=
  exists x, w_ctxs w c = Some x /\ forall h m, c_mac x = Some h -> w_macs w h = Some m -> m_done m = true.
Lemma over_refused L w c : over w c -> forall l room ok junk,
  snd (step L (Update c l ok) w) = Refused /\ snd (step L (Final c room ok junk) w) = Refused.
Proof.
  intros (x & X & D) l room ok junk. cbn [step]. rewrite X. destruct (c_mac x) as [h|].
  - destruct (w_macs w h) as [m|] eqn:M; [rewrite (D h m eq_refl M)|]; destruct (room <? told_size x); auto.
  - destruct (room <? told_size x); auto.
Qed.
Lemma over_step L o w c : Own w -> over w c -> not_anew c o -> over (fst (step L o w)) c.
Proof.
  intros O (x & X & D) N. destruct o as [h b|h|d hm|d p|d key hd p h ok|d l ok|d room ok junk|d|d]; cbn [step not_anew] in *.
  - destruct (w_keys w h); exists x; auto.
  - exists x; auto.
  - destruct (w_ctxs w d) eqn:Y; [exists x; auto|]. exists x. cbn. rewrite eqb_neq_nat by auto. auto.
  - destruct (w_ctxs w d) as [y|] eqn:Y; [|exists x; auto]. pose proof (set_params_spec w y p) as S. destruct (set_params w y p) as [[w1 x1] b].
    destruct S as (S1 & S2 & _ & S4 & _). cbn [fst]. destruct (Nat.eq_dec d c) as [->|ND].
    + exists x1. rewrite set_ctx_at. split; [reflexivity|]. cbn. rewrite S2, S4. assert (y = x) as -> by congruence. exact D.
    + exists x. rewrite set_ctx_off, S1 by auto. cbn. rewrite S2. auto.
  - destruct (w_ctxs w d) as [y|] eqn:Y; [|exists x; auto]. destruct (match key with Some _ => _ | None => _ end); [exists x; auto|].
    pose proof (init_spec w y key hd p h ok) as S. destruct (init w y key hd p h ok) as [[w1 x1] a]. destruct S as (S1 & _ & _ & S4). cbn [fst].
    exists x. rewrite set_ctx_off, S1 by auto. split; [exact X|]. intros k m K M. cbn in M.
    assert (B : base w y k = w_macs w k) by (apply base_keep; intros F; apply N; eapply (o_apart _ O); eauto).
    destruct S4 as [(_ & _ & F3 & _ & _ & _ & _ & _ & _ & k' & b & g & _ & _ & _ & _ & G4)|(_ & _ & F3)].
    + rewrite G4 in M. destruct (Z.eqb_spec k h) as [->|NE]; [exfalso; rewrite B in F3; exact (o_held _ O c x h X K F3)|]. rewrite B in M. eauto.
    + rewrite F3, B in M. eauto.
  - destruct (w_ctxs w d) as [y|] eqn:Y; [|exists x; auto]. destruct (c_mac y) as [h|] eqn:M; [|exists x; auto]. destruct (w_macs w h) as [m|] eqn:H; [|exists x; auto].
    destruct (m_done m) eqn:DN; [exists x; auto|]. destruct ok; (exists x; split; [exact X|]; intros k m' K; cbn; destruct (Z.eqb_spec k h) as [->|NE]; [|eauto];
      exfalso; rewrite (D h m K H) in DN; discriminate).
  - destruct (w_ctxs w d) as [y|] eqn:Y; [|exists x; auto]. destruct (room <? told_size y); [exists x; auto|].
    destruct (c_mac y) as [h|] eqn:M; [|exists x; auto]. destruct (w_macs w h) as [m|] eqn:H; [|exists x; auto].
    destruct (m_done m) eqn:DN; [exists x; auto|]. destruct (room <? size_of (m_alg m)); [exists x; auto|]. exists x. split; [exact X|].
    intros k m' K. cbn. destruct (Z.eqb_spec k h) as [->|NE]; [|eauto]. intros [= <-]. reflexivity.
  - destruct (w_ctxs w d); exists x; auto.
  - destruct (w_ctxs w d) as [y|] eqn:Y; [|exists x; auto]. exists x. cbn [fst]. rewrite set_ctx_off by auto.
    destruct (drop_mac_spec w (c_mac y)) as (D1 & D2 & _). destruct (drop_key_spec (drop_mac w (c_mac y)) (c_key y)) as (K1 & K2 & _ & K4). split.
    + cbn. destruct (c_delete y); congruence.
    + intros k m K M. apply (D k m K). assert (B : base w y k = w_macs w k) by (apply base_keep; intros F; apply N; eapply (o_apart _ O); eauto).
      rewrite <- B, <- base_drop. cbn in M. destruct (c_delete y); congruence.
Qed.
Lemma over_run L c l : forall w, Own w -> over w c -> Forall (not_anew c) l -> over (fst (run L l w)) c.
Proof.
  induction l as [|o l IH]; intros w O V F; [exact V|]. inversion F; subst. cbn [run]. pose proof (over_step L o w c O V ltac:(assumption)) as V1.
  pose proof (own_moved _ _ O (step_moved L o w)) as O1. destruct (step L o w) as [w1 a]. cbn [fst] in *. destruct (crashed a); [exact V1|].
  specialize (IH w1 O1 V1 ltac:(assumption)). destruct (run L l w1). exact IH.
Qed.
Theorem read_once : forall L l c room ok junk t l2, snd (step L (Final c room ok junk) (fst (run L l start))) = Tag t -> Forall (not_anew c) l2 ->
  let w := fst (run L l2 (fst (step L (Final c room ok junk) (fst (run L l start))))) in
  forall more room2 ok2 junk2, snd (step L (Update c more ok2) w) = Refused /\ snd (step L (Final c room2 ok2 junk2) w) = Refused.
Proof.
  intros L l c room ok junk t l2 T F w more room2 ok2 junk2. apply over_refused. unfold w. pose proof (run_own L l start own_start) as O.
  set (w0 := fst (run L l start)) in *. apply over_run; [apply (own_moved _ _ O (step_moved L _ w0))| |exact F]. clear w.
  cbn [step] in *. destruct (w_ctxs w0 c) as [x|] eqn:X; [|discriminate]. destruct (room <? told_size x); [discriminate|]. destruct (c_mac x) as [h|] eqn:M; [|discriminate].
  destruct (w_macs w0 h) as [m|] eqn:H; [|discriminate]. destruct (m_done m); [discriminate|]. destruct (room <? size_of (m_alg m)); [discriminate|].
  exists x. split; [exact X|]. intros k m' K. cbn. assert (k = h) as -> by congruence. rewrite Z.eqb_refl. intros [= <-]. reflexivity.
Qed.
(** Without a digest. *)
Theorem digest_missing : forall L w c x k p h ok, w_ctxs w c = Some x -> c_hmac x = true -> c_md x = None -> c_key x = Some k -> p = none ->
  snd (step L (Init c None true p h ok) w) = Crash.
Proof.
  intros L w c x k p h ok X H M K ->. cbn [step]. rewrite X. unfold init, none, set_params. cbn [p_md p_key p_delete set_md set_sa_key set_delete]. unfold begin, algorithm. cbn [c_key c_hmac c_md].
  rewrite K, H, M. reflexivity.
Qed.
(** Digests cut down. *)
Theorem truncated_wrong : forall L, let '(w, events) := run L truncated start in
  Forall (fun e => snd e = Fine) events /\ option_map q_run (s_ctx (heard events) 0) = Some (Some (Run (Some Sha512_256) [1] [7])) /\
  snd (step L (Size 0) w) = Told 32 /\ snd (step L (Final 0 32 true []) w) = Refused /\
  snd (step L (Final 0 64 true []) w) = Tag (l_hmac L D_SHA512 [1] [7]).
Proof. intros L. vm_compute. repeat split; repeat constructor. Qed.
Theorem later_wrong : forall L, let '(w, events) := run L later_digest start in
  Forall (fun e => snd e = Fine) events /\ handles_new events nothing /\
  snd (step L (Size 0) w) = Told 20 /\ snd (step L (Final 0 20 true []) w) = Refused /\ snd (step L (Final 0 32 true []) w) = Tag (l_hmac L D_SHA256 [1] [7]).
Proof. intros L. vm_compute. repeat split; repeat constructor. Qed.
Theorem shared_wrong : let '(w, events) := run toy shared start in
  Forall (fun e => snd e = Fine) events /\ handles_new events nothing /\ option_map q_key (s_ctx (heard events) 0) = Some (Some [1]) /\ w_keys w 5 = None /\
  snd (step toy (Init 0 None true none 31 true) w) = Refused.
Proof. vm_compute. repeat split; repeat constructor. Qed.
Theorem reused_wrong : let '(w, events) := run toy shared_reused start in
  Forall (fun e => snd e = Fine) events /\ option_map q_run (s_ctx (heard events) 0) = Some (Some (Run (Some Sha256) [1] [7])) /\
  snd (step toy (Final 0 32 true []) w) = Tag (l_hmac toy D_SHA256 [3] [7]) /\ l_hmac toy D_SHA256 [3] [7] <> l_hmac toy D_SHA256 [1] [7].
Proof. vm_compute. repeat split; try discriminate; repeat constructor. Qed.
Theorem again_wrong : let '(w, events) := run toy again start in
  map snd events = [Fine; Fine; Fine; Refused] /\ w_keys w 5 = None.
Proof. vm_compute. split; reflexivity. Qed.
Theorem refused_wrong : map snd (snd (run toy refused_digest start)) = [Fine; Fine; Refused; Crash].
Proof. vm_compute. reflexivity. Qed.
Theorem digests_wrong : let '(w, events) := run toy two_digests start in
  Forall (fun e => snd e = Fine) events /\ all_freed w /\ w_mds w = 1%nat.
Proof. vm_compute. repeat split; repeat constructor. intros [|c]; reflexivity. Qed.
Theorem two_parts_right : let '(w, events) := run toy two_parts start in
  handles_new events nothing /\
  option_map q_run (s_ctx (heard events) 0) = Some (Some (Run (Some Sha256) [1; 2] [7; 8])) /\
  option_map q_run (s_ctx (heard events) 1) = Some (Some (Run None [9; 9] [3])) /\
  snd (step toy (Final 0 32 true []) w) = Tag (l_hmac toy D_SHA256 [1; 2] [7; 8]) /\ snd (step toy (Final 1 16 true []) w) = Tag [9; 9; 3].
Proof. vm_compute. repeat split; repeat constructor. Qed.
