(** Proofs about key derivation with the provider: acceptance, lifetimes, refusals. *)
From Verif Require Import Base M_Rights M_Mac M_Kdf S_Rights S_Mac S_Kdf P_Mac P_Kdf M_ProvKdf S_ProvKdf P_ProvKdf P_ProvKdf2.
From Coq Require Import String.
Local Open Scope Z_scope.
Local Open Scope list_scope.

Lemma named_range : forall name d, digest_named name = Some d -> 0 <= d <= 3.
Proof.
  intros name d. unfold digest_named.
  repeat match goal with |- context [if ?b then _ else _] => destruct b; [intros H; injection H as <-; lia|] end. discriminate.
Qed.
Lemma no_reset : forall l, ~ In Reset l -> still true l = true.
Proof.
  intros l H. unfold still. cbn. destruct (existsb is_reset l) eqn:E; [|reflexivity].
  apply existsb_exists in E. destruct E as (v & I & R). destruct v; try discriminate. contradiction.
Qed.

Lemma accepted : forall alg t l c t1 out n p e h parent,
  life (kdf_newctx alg, t) l = Some (c, t1) -> all_proper l -> ~ In Reset l -> proper p -> readable p t1 -> one_key (settings l) p ->
  sound t1 -> surroundings e t1 n -> works e -> n <= zlen out ->
  a_key (ask (settings l) p) = Some h -> t1 h = Some parent -> may_derive parent (e_now e) -> within alg (ask (settings l) p) parent n ->
  exists c' t' out', kdf_derive c t1 out n (Some p) e = Answer true c' t' out'.
Proof.
  intros alg t l c t1 out n p e h parent LF AP NR P R (O1 & O2) SD SU (W1 & W2 & W3 & W4) N K TP MD WI.
  pose proof (life_agrees alg l _ _ _ _ _ _ (agrees_new alg) AP LF) as A0. rewrite (no_reset l NR) in A0. fold (settings l) in A0.
  assert (S : kdf_set_ctx_params (Some p) (e_junk e) c t1 = (true, after p c, t1)).
  { apply set_ok; try assumption. intros GK. destruct A0 as (_ & AK & _). rewrite (O1 GK) in AK. exact AK. }
  unfold kdf_derive. rewrite S. pose proof (agrees_after alg c (settings l) p _ P A0) as A. set (s := ask (settings l) p) in *. set (c2 := after p c) in *.
  destruct SU as (G & M & B1 & B2 & _).
  assert (VF : rights_validate_format allow_all = true) by reflexivity.
  assert (NN : 16 <= n <= 512) by (destruct WI as [W|W]; [lia|destruct W as (_ & [->| ->] & _); lia]).
  assert (EX : exists k, do_derive c2 t1 n e = Some (KdfKey k)).
  { destruct A as (AA & AK & AD & AN & AS & AI & AP' & AL & AR1 & AR2). unfold do_derive. rewrite AA, AK, K, TP.
    assert (BI : bad_input (x_info c2) = false) by (unfold holds in AI; destruct (a_info s); [rewrite AI; reflexivity|destruct AI as (m & E & _ & Z0); rewrite E, (Z0 eq_refl); reflexivity]).
    assert (BS : bad_input (x_salt c2) = false) by (unfold holds in AS; destruct (a_salt s); [rewrite AS; reflexivity|destruct AS as (m & E & _ & Z0); rewrite E, (Z0 eq_refl); reflexivity]).
    assert (F : (forall i, e_answers e i = true) /\ e_alloc e = true /\ e_mem e <> None) by auto.
    assert (NC : ~ ~ 16 <= n <= 512) by (intros X; apply X; exact NN).
    unfold KDF_HKDF, KDF_CONCAT, KDF_ANSI_X963, KDF_CMAC.
    destruct WI as [(AR & (d & DS) & _ & KS)|(A4 & N4 & KS & NE)].
    - assert (D3 : 0 <= x_digest c2 <= 3).
      { unfold digest_of in DS. destruct (a_digest s) as [name|] eqn:AG; [|discriminate]. rewrite (AN name eq_refl), (named _ _ DS). eapply named_range; exact DS. }
      assert (C : alg = 1 \/ alg = 2 \/ alg = 3) by lia. destruct C as [C|[C|C]]; rewrite C; cbn [Z.eqb Pos.eqb].
      + pose proof (hkdf_does (e_lib e) allow_all (x_digest c2) n (x_salt c2) (x_info c2) parent (e_now e) (e_mem e) (e_buf1 e) (e_buf2 e) (e_answers e) (e_alloc e) G ltac:(lia) M B1 B2) as H.
        unfold call_does in H. destruct (derive_hkdf _ _ _ _ _ _ _ _ _ _ _ _ _) as [k|st| |]; [exists k; reflexivity| |contradiction|contradiction].
        destruct H as [_ H]. exfalso. apply NC. apply H; [exact F|exact VF|]. repeat (split; [first [exact D3|lia|assumption]|]). apply KS, C.
      + pose proof (concat_does (e_lib e) allow_all (x_digest c2) n (x_info c2) parent (e_now e) (e_mem e) (e_buf1 e) (e_answers e) (e_alloc e) G ltac:(lia) M B1) as H.
        unfold call_does in H. destruct (derive_concat _ _ _ _ _ _ _ _ _ _ _) as [k|st| |]; [exists k; reflexivity| |contradiction|contradiction].
        destruct H as [_ H]. exfalso. apply NC. apply H; [exact F|exact VF|]. repeat (split; [first [exact D3|lia|assumption]|]). exact MD.
      + pose proof (x963_does (e_lib e) allow_all (x_digest c2) n (x_info c2) parent (e_now e) (e_mem e) (e_buf1 e) (e_answers e) (e_alloc e) G ltac:(lia) M B1) as H.
        unfold call_does in H. destruct (derive_x963 _ _ _ _ _ _ _ _ _ _ _) as [k|st| |]; [exists k; reflexivity| |contradiction|contradiction].
        destruct H as [_ H]. exfalso. apply NC. apply H; [exact F|exact VF|]. repeat (split; [first [exact D3|lia|assumption]|]). exact MD.
    - rewrite A4. cbn [Z.eqb Pos.eqb]. replace (MAX_CMAC <? n) with false by (unfold MAX_CMAC; symmetry; apply Z.ltb_ge; lia).
      assert (OD : exists other, other_data c2 n (e_malloc e) = Some (Some other)).
      { pose proof (other_fine alg c2 s true n (e_malloc e)) as O.
        assert (A : agrees alg c2 s true) by (unfold agrees; auto 12). specialize (O A).
        unfold other_data in *. rewrite W3 in *. cbn [negb] in *. rewrite orb_false_r in *.
        assert (LS : in_length (x_salt c2) = zlen (bytes_of (a_salt s))) by (unfold holds in AS; destruct (a_salt s); [rewrite AS; reflexivity|destruct AS as (m & E & _ & Z0); rewrite E, (Z0 eq_refl); reflexivity]).
        assert (LI : in_length (x_info c2) = zlen (bytes_of (a_info s))) by (unfold holds in AI; destruct (a_info s); [rewrite AI; reflexivity|destruct AI as (m & E & _ & Z0); rewrite E, (Z0 eq_refl); reflexivity]).
        match type of O with context [if (?x =? 0) then _ else _] => destruct (Z.eqb_spec x 0) as [Z0|Z0] end.
        - exfalso. rewrite LS, LI, AP', AL in Z0. assert (0 <= zlen (bytes_of (a_salt s))) by (unfold zlen; lia). assert (0 <= zlen (bytes_of (a_info s))) by (unfold zlen; lia).
          destruct NE as [NE|[NE|[NE|NE]]].
          + assert (0 < zlen (bytes_of (a_salt s))) by (destruct (bytes_of (a_salt s)); [congruence|unfold zlen; cbn; lia]).
            destruct (a_sep s =? 1), (a_l s =? 1); lia.
          + assert (0 < zlen (bytes_of (a_info s))) by (destruct (bytes_of (a_info s)); [congruence|unfold zlen; cbn; lia]).
            destruct (a_sep s =? 1), (a_l s =? 1); lia.
          + rewrite NE in Z0. cbn [Z.eqb Pos.eqb] in Z0. destruct (a_l s =? 1); lia.
          + rewrite NE in Z0. cbn [Z.eqb Pos.eqb] in Z0. destruct (a_sep s =? 1); lia.
        - match type of O with context [match ?dd with Some d0 => Some (Some d0) | None => None end] => destruct dd as [d1|]; [exists d1; reflexivity|contradiction] end. }
      destruct OD as (other & OD). rewrite OD.
      pose proof (cmac_does (e_lib e) allow_all n (n / 16 + (if n mod 16 =? 0 then 0 else 1)) (Bytes other) parent (e_now e) (e_mem e) (e_buf1 e) (e_answers e) (e_alloc e) G ltac:(lia) M B1 (SD _ _ TP)) as H.
      unfold call_does in H. destruct (derive_cmac _ _ _ _ _ _ _ _ _ _ _) as [k|st| |]; [exists k; reflexivity| |contradiction|contradiction].
      destruct H as [_ H]. exfalso. apply NC. apply H; [exact F|exact VF|].
      destruct N4 as [->| ->].
      + change (16 / 16 + (if 16 mod 16 =? 0 then 0 else 1)) with 1. split; [lia|]. split; [exists 1; lia|]. auto.
      + change (32 / 16 + (if 32 mod 16 =? 0 then 0 else 1)) with 2. split; [lia|]. split; [exists 2; lia|]. auto. }
  destruct EX as (k & EX). rewrite EX. unfold put. rewrite le_bytes_length.
  destruct (Nat.leb_spec 8 (List.length out)) as [LO|LO]; [|unfold zlen in N; lia].
  eexists _, _, _. reflexivity.
Qed.

(** Lifetimes. *)
Definition becomes (t' t : table) (gone : list Z) (h : Z) : Prop := (In h gone -> t' h = None) /\ (~ In h gone -> t' h = t h).
Lemma free_becomes : forall alg c t s fresh h, agrees alg c s fresh -> t NO_HANDLE = None -> becomes (kdf_freectx c t) t (to_delete s) h.
Proof.
  intros alg c t s fresh h (_ & AK & AD & _) NH. unfold kdf_freectx, to_delete, becomes. rewrite AK, AD.
  destruct (a_key s) as [k|]; [|rewrite Z.eqb_refl, andb_false_r; cbn; tauto].
  destruct (a_delete s); cbn [andb]; [|cbn; tauto].
  unfold release, upd. destruct (Z.eqb_spec k NO_HANDLE) as [E|E]; cbn [negb].
  - split; [intros [X|[]]; rewrite <- X, E; exact NH|reflexivity].
  - split.
    + intros [X|[]]. subst h. rewrite Z.eqb_refl. reflexivity.
    + intros X. destruct (Z.eqb_spec h k); [subst; exfalso; apply X; left; reflexivity|reflexivity].
Qed.
Lemma becomes_trans : forall t2 t1 t g2 g1 h, becomes t1 t g1 h -> becomes t2 t1 g2 h -> becomes t2 t (g1 ++ g2) h.
Proof.
  intros t2 t1 t g2 g1 h [A B] [C D]. split.
  - intros X. destruct (in_dec Z.eq_dec h g2) as [Y|Y]; [apply C, Y|]. rewrite (D Y). apply in_app_or in X. destruct X as [X|X]; [apply A, X|contradiction].
  - intros X. rewrite in_app_iff in X. rewrite D, B by tauto. reflexivity.
Qed.
Lemma one_table : forall alg c s fresh p, agrees alg c s fresh -> one_key s p ->
  gives_key p = false \/ (x_key c = NO_HANDLE /\ (q_key p = None \/ q_sa_key p = None)).
Proof.
  intros alg c s fresh p (_ & AK & _) (O1 & O2). destruct (gives_key p); [right|left; reflexivity].
  rewrite (O1 eq_refl) in AK. split; [exact AK|exact O2].
Qed.
Lemma life_becomes : forall alg l c t s fresh c' t' h, agrees alg c s fresh -> all_proper l -> one_key_each s l -> t NO_HANDLE = None ->
  life (c, t) l = Some (c', t') -> ~ In NO_HANDLE (made l) -> ~ In h (made l) -> t' NO_HANDLE = None /\ becomes t' t (given_up s l) h.
Proof.
  induction l as [|v l IH]; intros c t s fresh c' t' h A P O NH H MN MH.
  - cbn in *. assert (t' = t) by congruence. subst t'. split; [exact NH|]. split; [contradiction|reflexivity].
  - assert (P' : all_proper l) by (intros w p W; apply P; right; exact W).
    assert (Pv : forall p, In p (parameters v) -> proper p) by (intros p; apply P; left; reflexivity).
    destruct O as [O O']. cbn [life] in H. destruct (happens (c, t) v) as [[c1 t1]|] eqn:V; [|discriminate].
    change (made (v :: l)) with (match v with Derive _ _ _ e => [e_handle e] | _ => [] end ++ made l) in *.
    rewrite in_app_iff in MN, MH.
    destruct v as [p junk| |out n p e]; cbn [happens parameters asks given_up] in *.
    + destruct (kdf_set_ctx_params (Some p) junk c t) as [[[|] c2] t2] eqn:S; [|discriminate].
      assert (c2 = c1) by congruence. assert (t2 = t1) by congruence. subst c2 t2.
      destruct (set_inv _ _ _ _ _ _ (Pv p (or_introl eq_refl)) S) as (E & _ & T). subst c1.
      specialize (T (one_table _ _ _ _ _ A (O p (or_introl eq_refl)))). subst t1.
      eapply IH; [apply agrees_after; [apply Pv; left; reflexivity|exact A]|exact P'|exact O'|exact NH|exact H|tauto|tauto].
    + assert (E : kdf_reset c t = (c1, t1)) by congruence.
      pose proof (agrees_reset _ _ t _ _ A) as A'. rewrite E in A'.
      assert (E2 : t1 = kdf_freectx c t) by (unfold kdf_reset in E; congruence). subst t1.
      assert (NH1 : kdf_freectx c t NO_HANDLE = None).
      { destruct (free_becomes _ _ _ _ _ NO_HANDLE A NH) as [F1 F2]. destruct (in_dec Z.eq_dec NO_HANDLE (to_delete s)); [apply F1; assumption|rewrite F2 by assumption; exact NH]. }
      destruct (IH _ _ _ _ _ _ h A' P' O' NH1 H ltac:(tauto) ltac:(tauto)) as [I1 I2]. split; [exact I1|].
      eapply becomes_trans; [eapply free_becomes; eassumption|exact I2].
    + destruct (kdf_derive c t out n (Some p) e) as [[|] c2 t2 o|] eqn:D; try discriminate.
      assert (c2 = c1) by congruence. assert (t2 = t1) by congruence. subst c2 t2.
      destruct (derive_inv _ _ _ _ _ _ _ _ _ (Pv p (or_introl eq_refl)) D) as (E & t3 & k & _ & T1 & T2 & _). subst c1.
      specialize (T2 (one_table _ _ _ _ _ A (O p (or_introl eq_refl)))). subst t3.
      assert (NH1 : t1 NO_HANDLE = None) by (rewrite T1; unfold upd; destruct (Z.eqb_spec NO_HANDLE (e_handle e)) as [X|X]; [exfalso; apply MN; left; left; symmetry; exact X|exact NH]).
      destruct (IH _ _ _ _ _ _ h (agrees_after _ _ _ _ _ (Pv p (or_introl eq_refl)) A) P' O' NH1 H ltac:(tauto) ltac:(tauto)) as [I1 I2]. split; [exact I1|].
      cbn [app]. destruct I2 as [I2 I3]. split; [exact I2|]. intros X. rewrite (I3 X), T1. unfold upd.
      destruct (Z.eqb_spec h (e_handle e)) as [Y|Y]; [exfalso; apply MH; left; left; symmetry; exact Y|reflexivity].
Qed.
Lemma keys_kept : forall alg t l c t1 h, life (kdf_newctx alg, t) l = Some (c, t1) -> all_proper l -> one_key_each nothing l ->
  t (2 ^ 64 - 1) = None -> ~ In (2 ^ 64 - 1) (made l) -> ~ In h (made l) ->
  let gone := given_up nothing l ++ to_delete (settings l) in
  (In h gone -> kdf_freectx c t1 h = None) /\ (~ In h gone -> kdf_freectx c t1 h = t h).
Proof.
  intros alg t l c t1 h LF AP O NH MN MH gone.
  destruct (life_becomes alg l _ _ _ _ _ _ h (agrees_new alg) AP O NH LF MN MH) as [N1 B].
  pose proof (life_agrees alg l _ _ _ _ _ _ (agrees_new alg) AP LF) as A.
  exact (becomes_trans _ _ _ _ _ _ B (free_becomes _ _ _ _ _ h A N1)).
Qed.

(** Refusals. *)
Lemma no_params_refused : forall c t out n e, kdf_derive c t out n None e = Answer false c t out.
Proof. reflexivity. Qed.
Definition keeps_alg (a : step) : Prop := forall c t b c' t', a c t = (b, c', t') -> x_alg c' = x_alg c.
Lemma then_alg : forall a b, keeps_alg a -> keeps_alg b -> keeps_alg (then_ a b).
Proof.
  intros a b A B c t r c' t' H. unfold then_ in H. destruct (a c t) as [[[|] c1] t1] eqn:E.
  - rewrite (B _ _ _ _ _ H). eapply A; exact E.
  - assert (c' = c1) by congruence. subst c'. eapply A; exact E.
Qed.
Lemma set_alg : forall q junk, keeps_alg (kdf_set_ctx_params q junk).
Proof.
  intros q junk. destruct q as [q|]; [|intros c t b c' t' H; cbn in H; congruence].
  assert (TK : forall c t h c' t', take_key c t h = Some (c', t') -> x_alg c' = x_alg c) by (intros c t h c' t' H; apply take_inv in H; destruct H as [-> _]; reflexivity).
  intros c t b c' t' H. unfold kdf_set_ctx_params in H. revert c t b c' t' H.
  change (keeps_alg (then_ (set_key (q_key q) junk) (then_ (set_sa_key (q_sa_key q)) (then_ (set_delete (q_delete q))
        (then_ (set_digest (q_digest q)) (then_ (set_salt (q_salt q)) (then_ (set_info (q_info q))
          (then_ (set_sep (q_sep q)) (set_l (q_l q)))))))))).
  repeat apply then_alg; intros c t b c' t' H.
  - unfold set_key in H. destruct (q_key q) as [[bs|]|]; [|congruence|congruence].
    destruct (take_key c t _) as [[c1 t1]|] eqn:T; [|congruence]. assert (c1 = c') by congruence. subst c1. eapply TK; exact T.
  - unfold set_sa_key in H. destruct (q_sa_key q) as [[bs|]|]; [|congruence|congruence].
    destruct (take_key c t _) as [[c1 t1]|] eqn:T; [|congruence]. assert (c1 = c') by congruence. subst c1. eapply TK; exact T.
  - unfold set_delete in H. destruct (q_delete q) as [[|]|]; injection H as _ <- _; reflexivity.
  - unfold set_digest in H. destruct (q_digest q) as [[|]|]; injection H as _ <- _; reflexivity.
  - unfold set_salt in H. destruct (q_salt q) as [[|[|]]|]; injection H as _ <- _; reflexivity.
  - unfold set_info in H. destruct (q_info q) as [[|[|]]|]; injection H as _ <- _; reflexivity.
  - unfold set_sep in H. destruct (q_sep q) as [[|]|]; injection H as _ <- _; reflexivity.
  - unfold set_l in H. destruct (q_l q) as [[|]|]; injection H as _ <- _; reflexivity.
Qed.
Lemma happens_alg : forall c t v c' t', happens (c, t) v = Some (c', t') -> x_alg c' = x_alg c.
Proof.
  intros c t v c' t' H. destruct v as [p junk| |out n p e]; unfold happens in H.
  - destruct (kdf_set_ctx_params (Some p) junk c t) as [[[|] c2] t2] eqn:S; [|discriminate].
    assert (c2 = c') by congruence. subst c2. eapply set_alg; exact S.
  - unfold kdf_reset in H. assert (E : c' = fst (kdf_reset c t)) by (unfold kdf_reset; cbn; congruence). rewrite E. reflexivity.
  - unfold kdf_derive in H. destruct (kdf_set_ctx_params (Some p) (e_junk e) c t) as [[[|] c2] t2] eqn:S; [|discriminate].
    destruct (do_derive c2 t2 n e) as [[| | |]|]; try discriminate. destruct (put _ _); [|discriminate].
    assert (c2 = c') by congruence. subst c2. eapply set_alg; exact S.
Qed.
Lemma life_alg : forall l c t c' t', life (c, t) l = Some (c', t') -> x_alg c' = x_alg c.
Proof.
  induction l as [|v l IH]; intros c t c' t' H; cbn [life] in H; [congruence|].
  destruct (happens (c, t) v) as [[c1 t1]|] eqn:V; [|discriminate]. rewrite (IH _ _ _ _ H). eapply happens_alg; exact V.
Qed.
(** A copy never derives. *)
Lemma copy_useless : forall c c2 t l c3 t3 out n q e, kdf_dupctx c = Some c2 -> life (c2, t) l = Some (c3, t3) ->
  exists c' t', kdf_derive c3 t3 out n q e = Answer false c' t' out.
Proof.
  intros c c2 t l c3 t3 out n q e D LF. pose proof (life_alg _ _ _ _ _ LF) as A.
  assert (A0 : x_alg c2 = 0) by (unfold kdf_dupctx in D; destruct (dup_input (x_salt c)); [|discriminate]; destruct (dup_input (x_info c)); [|discriminate]; injection D as <-; reflexivity).
  unfold kdf_derive. destruct (kdf_set_ctx_params q (e_junk e) c3 t3) as [[[|] c4] t4] eqn:S; [|eexists _, _; reflexivity].
  pose proof (set_alg _ _ _ _ _ _ _ S) as B. unfold do_derive. rewrite B, A, A0. cbn. eexists _, _. reflexivity.
Qed.
(** More than 32 bytes are never derived with CMAC. *)
Lemma cmac_long : forall t l c t1 out n q e, life (kdf_newctx 4, t) l = Some (c, t1) -> 32 < n ->
  forall c' t' out', kdf_derive c t1 out n q e <> Answer true c' t' out'.
Proof.
  intros t l c t1 out n q e LF N c' t' out' H. pose proof (life_alg _ _ _ _ _ LF) as A. cbn in A.
  unfold kdf_derive in H. destruct (kdf_set_ctx_params q (e_junk e) c t1) as [[[|] c4] t4] eqn:S; [|discriminate].
  pose proof (set_alg _ _ _ _ _ _ _ S) as B. unfold do_derive in H. rewrite B, A in H.
  change (4 =? KDF_HKDF) with false in H. change (4 =? KDF_CONCAT) with false in H. change (4 =? KDF_ANSI_X963) with false in H. change (4 =? KDF_CMAC) with true in H. cbv iota in H.
  destruct (Z.ltb_spec MAX_CMAC n) as [X|X]; [discriminate|]. unfold MAX_CMAC in X.
  destruct (other_data c4 n (e_malloc e)) as [[other|]|]; [|discriminate|discriminate].
  destruct (t4 (x_key c4)) as [parent|]; [|discriminate].
  unfold derive_cmac in H. cbn [bad_input] in H.
  pose proof (Z.div_mod n 16 ltac:(lia)) as DM. pose proof (Z.mod_pos_bound n 16 ltac:(lia)) as MB.
  destruct (_ || _) in H; [discriminate|].
  destruct (Z.eqb_spec (n mod 16) 0) as [M0|M0]; cbn [negb] in H; [|discriminate].
  match type of H with context [if ?a <? ?b then KdfFails INVALID_PARAMETER else _] => destruct (Z.ltb_spec a b) as [Y|Y]; [discriminate|] end.
  exfalso. assert (n / 16 = 3 \/ n / 16 = 4 \/ n / 16 = 2) by lia. lia.
Qed.
