(** Proofs: MACs through the engine. *)
From Verif Require Import Base M_Mac M_EngMac S_EngMac.

Lemma ctx_set w c x d : w_ctxs (set_ctx w c x) d = if Nat.eqb d c then x else w_ctxs w d.
Proof. reflexivity. Qed.
Lemma macs_ctx w c x h : w_macs (set_ctx w c x) h = w_macs w h.
Proof. reflexivity. Qed.
Lemma ctxs_mac w h m c : w_ctxs (set_mac w h m) c = w_ctxs w c.
Proof. reflexivity. Qed.
Lemma mac_set w h m x : w_macs (set_mac w h m) x = if x =? h then m else w_macs w x.
Proof. reflexivity. Qed.
Lemma ctxs_cleanup w p c : w_ctxs (cleanup w p) c = w_ctxs w c.
Proof. destruct p as [[k [h|]]|]; reflexivity. Qed.
Lemma macs_cleanup w p x : w_macs (cleanup w p) x = if match p with Some (MkPctx _ (Some h)) => x =? h | _ => false end then None else w_macs w x.
Proof. destruct p as [[k [h|]]|]; cbn; try reflexivity. Qed.
Lemma ctxs_process w h l ok c : w_ctxs (fst (process w h l ok)) c = w_ctxs w c.
Proof. unfold process. destruct h as [h|]; [|reflexivity]. destruct (w_macs w h) as [m|]; [|reflexivity]. destruct (m_done m); [reflexivity|]. destruct ok; reflexivity. Qed.
Lemma ctxs_compute L b w h room ok junk c : w_ctxs (fst (compute L b w h room ok junk)) c = w_ctxs w c.
Proof.
  unfold compute. destruct h as [h|]; [|reflexivity]. destruct (w_macs w h) as [m|]; [|reflexivity]. destruct (m_done m); [reflexivity|].
  destruct (_ <? _); reflexivity.
Qed.
Lemma macs_process w h l ok x : h <> Some x -> w_macs (fst (process w h l ok)) x = w_macs w x.
Proof.
  intros N. unfold process. destruct h as [h|]; [|reflexivity]. destruct (w_macs w h) as [m|]; [|reflexivity]. destruct (m_done m); [reflexivity|].
  assert (E : x =? h = false) by (apply Z.eqb_neq; congruence). destruct ok; cbn [fst]; rewrite mac_set, E; reflexivity.
Qed.
Lemma macs_compute L b w h room ok junk x : h <> Some x -> w_macs (fst (compute L b w h room ok junk)) x = w_macs w x.
Proof.
  intros N. unfold compute. destruct h as [h|]; [|reflexivity]. destruct (w_macs w h) as [m|]; [|reflexivity]. destruct (m_done m); [reflexivity|].
  assert (E : x =? h = false) by (apply Z.eqb_neq; congruence). destruct (_ <? _); cbn [fst]; rewrite ?mac_set, ?E; reflexivity.
Qed.
Lemma live_process w h l ok x : w_macs (fst (process w h l ok)) x = None <-> w_macs w x = None.
Proof.
  unfold process. destruct h as [h|]; [|tauto]. destruct (w_macs w h) as [m|] eqn:M; [|tauto]. destruct (m_done m); [tauto|].
  destruct ok; cbn [fst]; rewrite mac_set; destruct (x =? h) eqn:E; try tauto; apply Z.eqb_eq in E; subst x; rewrite M; split; discriminate.
Qed.
Lemma live_compute L b w h room ok junk x : w_macs (fst (compute L b w h room ok junk)) x = None <-> w_macs w x = None.
Proof.
  unfold compute. destruct h as [h|]; [|tauto]. destruct (w_macs w h) as [m|] eqn:M; [|tauto]. destruct (m_done m); [tauto|].
  destruct (_ <? _); [tauto|]. cbn [fst]. rewrite mac_set. destruct (x =? h) eqn:E; try tauto. apply Z.eqb_eq in E; subst x; rewrite M; split; discriminate.
Qed.

Lemma process_said w h l ok : snd (process w h l ok) <> Misuse.
Proof. unfold process. destruct h as [h|]; [|discriminate]. destruct (w_macs w h) as [m|]; [|discriminate]. destruct (m_done m); [discriminate|]. destruct ok; discriminate. Qed.
Lemma compute_said L b w h room ok junk : snd (compute L b w h room ok junk) <> Misuse.
Proof.
  unfold compute. destruct h as [h|]; [|discriminate]. destruct (w_macs w h) as [m|]; [|discriminate]. destruct (m_done m); [discriminate|].
  destruct (_ <? _); [discriminate|]. destruct ok; discriminate.
Qed.

(** No two contexts hold the same handle. *)
Definition apart (w : world) : Prop := forall c d h, c <> d -> handle_of w c = Some h -> handle_of w d <> Some h.
Definition calm (w : world) (o : op) : Prop :=
  match o with Copy _ _ => False | Init c _ _ h _ => forall d, d <> c -> ~ stale w d h | _ => True end.

(** What a step leaves of the handles. *)
Lemma handle_ext w w' c : w_ctxs w' c = w_ctxs w c -> handle_of w' c = handle_of w c.
Proof. intros E. unfold handle_of. rewrite E. reflexivity. Qed.
Definition touches (o : op) : nat :=
  match o with New c | SetFlag c | Init c _ _ _ _ | Update c _ _ | Final c _ _ _ | Length c | Copy _ c | Reset c | Free c => c end.
Lemma step_other L b o w d : d <> touches o -> w_ctxs (fst (step L b o w)) d = w_ctxs w d.
Proof.
  intros N. assert (E : Nat.eqb d (touches o) = false) by (apply Nat.eqb_neq; exact N).
  destruct o; cbn [touches] in *; cbn [step]; destruct (w_ctxs w c) as [[[p|] fl]|] eqn:C; cbn [fst c_pctx c_flag]; rewrite ?ctx_set, ?E, ?ctxs_cleanup; try reflexivity.
  - destruct m; try (destruct ok; destruct (w_macs w h)); cbn [fst]; repeat first [rewrite ctx_set|rewrite E|rewrite ctxs_mac]; try reflexivity.
  - destruct m; try (destruct ok; destruct (w_macs w h)); cbn [fst]; repeat first [rewrite ctx_set|rewrite E|rewrite ctxs_mac]; try reflexivity.
  - apply ctxs_process.
  - destruct (compute L b w (p_mac p) room ok junk) as (w1, a) eqn:K. pose proof (ctxs_compute L b w (p_mac p) room ok junk d) as CC. rewrite K in CC. cbn [fst] in CC.
    destruct fl; cbn [fst]; [exact CC|]. rewrite ctxs_cleanup. exact CC.
  - destruct (w_ctxs w d0) as [y|] eqn:D; [|reflexivity]. destruct (Nat.eqb c d0); [reflexivity|]. cbn [fst]. rewrite ctx_set, E, ctxs_cleanup. reflexivity.
Qed.
(** The handle of the context of the call: as before, gone, or the new one. *)
Lemma step_own L b o w : calm w o ->
  handle_of (fst (step L b o w)) (touches o) = handle_of w (touches o) \/ handle_of (fst (step L b o w)) (touches o) = None \/
  exists c k m h, o = Init c k m h true /\ snd (step L b o w) = Fine /\ w_macs w h = None /\ handle_of (fst (step L b o w)) (touches o) = Some h.
Proof.
  intros K. destruct o; cbn [calm touches] in *; try contradiction; cbn [step].
  - unfold handle_of. destruct (w_ctxs w c) as [x|] eqn:C; cbn [fst]; rewrite ?ctx_set, ?Nat.eqb_refl; cbn [c_pctx]; rewrite ?C; auto.
  - unfold handle_of. destruct (w_ctxs w c) as [[[p|] fl]|] eqn:C; cbn [fst]; rewrite ?ctx_set, ?Nat.eqb_refl; cbn; rewrite ?C; auto.
  - unfold handle_of. destruct (w_ctxs w c) as [[[p|] fl]|] eqn:C; cbn [c_pctx c_flag].
    + destruct m; try (destruct ok; destruct (w_macs w h) eqn:M); cbn [fst snd]; rewrite ?ctx_set, ?Nat.eqb_refl; cbn [p_mac]; auto; right; right; do 4 eexists; eauto.
    + destruct m; try (destruct ok; destruct (w_macs w h) eqn:M); cbn [fst snd]; rewrite ?ctx_set, ?Nat.eqb_refl; cbn [p_mac]; auto; right; right; do 4 eexists; eauto.
    + cbn [fst]. rewrite C. auto.
  - left. unfold handle_of. destruct (w_ctxs w c) as [[[p|] fl]|] eqn:C; cbn [fst]; rewrite ?ctxs_process, ?C; reflexivity.
  - left. unfold handle_of. destruct (w_ctxs w c) as [[[p|] fl]|] eqn:C; cbn [fst]; rewrite ?C; try reflexivity.
    destruct (compute L b w (p_mac p) room ok junk) as (w1, a) eqn:KK. pose proof (ctxs_compute L b w (p_mac p) room ok junk c) as CC. rewrite KK in CC. cbn [fst] in CC.
    destruct fl; cbn [fst]; rewrite ?ctxs_cleanup, CC, C; reflexivity.
  - left. unfold handle_of. destruct (w_ctxs w c) as [[[p|] fl]|] eqn:C; cbn [fst]; rewrite ?C; reflexivity.
  - unfold handle_of. destruct (w_ctxs w c) as [x|] eqn:C; cbn [fst]; rewrite ?ctx_set, ?Nat.eqb_refl; cbn; rewrite ?C; auto.
  - unfold handle_of. destruct (w_ctxs w c) as [x|] eqn:C; cbn [fst]; rewrite ?ctx_set, ?Nat.eqb_refl; cbn; rewrite ?C; auto.
Qed.
(** The MACs a step touches: that of its context, or a new one. *)
Lemma step_macs L b o w x : calm w o -> handle_of w (touches o) <> Some x ->
  w_macs (fst (step L b o w)) x = w_macs w x \/
  exists c k m, o = Init c k m x true /\ w_macs w x = None /\ handle_of (fst (step L b o w)) c = Some x /\ snd (step L b o w) = Fine.
Proof.
  intros K N. unfold handle_of in N. destruct o; cbn [calm touches] in *; try contradiction; cbn [step].
  - left. destruct (w_ctxs w c); reflexivity.
  - left. destruct (w_ctxs w c); reflexivity.
  - destruct (w_ctxs w c) as [[pc fl]|] eqn:C; [|left; reflexivity]. cbn [c_pctx c_flag].
    set (p := match pc with Some p => p | None => MkPctx key None end).
    destruct m; try (left; reflexivity).
    + destruct ok; [|left; reflexivity]. destruct (w_macs w h) eqn:M; [left; reflexivity|]. cbn [fst snd]. rewrite macs_ctx, mac_set, macs_ctx.
      destruct (x =? h) eqn:E; [|left; reflexivity]. apply Z.eqb_eq in E. subst h. right. do 3 eexists. split; [reflexivity|]. split; [exact M|]. split; [|reflexivity].
      unfold handle_of. rewrite ctx_set, Nat.eqb_refl. reflexivity.
    + destruct ok; [|left; reflexivity]. destruct (w_macs w h) eqn:M; [left; reflexivity|]. cbn [fst snd]. rewrite macs_ctx, mac_set, macs_ctx.
      destruct (x =? h) eqn:E; [|left; reflexivity]. apply Z.eqb_eq in E. subst h. right. do 3 eexists. split; [reflexivity|]. split; [exact M|]. split; [|reflexivity].
      unfold handle_of. rewrite ctx_set, Nat.eqb_refl. reflexivity.
  - left. destruct (w_ctxs w c) as [[[p|] fl]|]; try reflexivity. apply macs_process. exact N.
  - left. destruct (w_ctxs w c) as [[[p|] fl]|]; try reflexivity.
    pose proof (macs_compute L b w (p_mac p) room ok junk x N) as CC. destruct (compute L b w (p_mac p) room ok junk) as (w1, a). cbn [fst] in CC.
    destruct fl; cbn [fst]; [exact CC|]. rewrite macs_cleanup, CC. destruct p as [k [h|]]; [|reflexivity]. cbn in N.
    assert (E : x =? h = false) by (apply Z.eqb_neq; congruence). rewrite E. reflexivity.
  - left. destruct (w_ctxs w c) as [[[p|] fl]|]; reflexivity.
  - left. destruct (w_ctxs w c) as [[[p|] fl]|]; try reflexivity. cbn [fst c_pctx]. rewrite macs_ctx, macs_cleanup. destruct p as [k [h|]]; [|reflexivity]. cbn in N.
    assert (E : x =? h = false) by (apply Z.eqb_neq; congruence). rewrite E. reflexivity.
  - left. destruct (w_ctxs w c) as [[[p|] fl]|]; try reflexivity. cbn [fst c_pctx]. rewrite macs_ctx, macs_cleanup. destruct p as [k [h|]]; [|reflexivity]. cbn in N.
    assert (E : x =? h = false) by (apply Z.eqb_neq; congruence). rewrite E. reflexivity.
Qed.
Lemma live_apart w c d h : apart w -> c <> d -> handle_of w c = Some h -> handle_of w d = Some h -> False.
Proof. intros A N C D. exact (A c d h N C D). Qed.
Lemma apart_step L b o w : apart w -> calm w o ->
  (forall c k m h, o = Init c k m h true -> w_macs w h = None -> forall d, d <> c -> handle_of w d <> Some h) -> apart (fst (step L b o w)).
Proof.
  intros A K FR c d h N C D.
  assert (O : forall x, x <> touches o -> handle_of (fst (step L b o w)) x = handle_of w x) by (intros x X; apply handle_ext, step_other, X).
  destruct (Nat.eq_dec c (touches o)) as [Ec|Nc]; [|destruct (Nat.eq_dec d (touches o)) as [Ed|Nd]].
  - rewrite (O d) in D by congruence. rewrite Ec in C. destruct (step_own L b o w K) as [Q|[Q|(c0 & k & m & h0 & Eo & _ & M & Q)]].
    + rewrite Q in C. apply (A c d h N); [rewrite Ec; exact C|exact D].
    + congruence.
    + assert (h0 = h) by congruence. subst h0. apply (FR c0 k m h Eo M d); [|exact D]. rewrite Eo in Ec. cbn in Ec. congruence.
  - rewrite (O c) in C by exact Nc. rewrite Ed in D. destruct (step_own L b o w K) as [Q|[Q|(c0 & k & m & h0 & Eo & _ & M & Q)]].
    + rewrite Q in D. apply (A c d h N); [exact C|rewrite Ed; exact D].
    + congruence.
    + assert (h0 = h) by congruence. subst h0. apply (FR c0 k m h Eo M c); [|exact C]. rewrite Eo in Ed. cbn in Ed. congruence.
  - rewrite (O c) in C by exact Nc. rewrite (O d) in D by exact Nd. exact (A c d h N C D).
Qed.

Lemma calm_fresh w o : calm w o -> forall c k m h, o = Init c k m h true -> w_macs w h = None -> forall d, d <> c -> handle_of w d <> Some h.
Proof. intros K c k m h -> M d N Q. exact (K d N (conj Q M)). Qed.

(** What the caller knows of [c] is so. *)
Definition sound (w : world) (c : nat) (k : known) : Prop :=
  match w_ctxs w c with
  | Some (MkMdctx (Some p) _) => k_key k = Some (p_key p)
  | _ => k = unknown
  end /\
  forall m l, k_msg k = Some (m, l) ->
    m <> MdOther /\ exists h key, handle_of w c = Some h /\ k_key k = Some key /\ w_macs w h = Some (MkMac key m l false false).
Lemma sound_step L b o w c k : apart w -> calm w o -> sound w c k -> sound (fst (step L b o w)) c (hear c k (o, snd (step L b o w))).
Proof.
  intros A K (S1 & S2). destruct (Nat.eq_dec (touches o) c) as [E|N].
  2: { (* another context *)
    assert (H : hear c k (o, snd (step L b o w)) = k).
    { assert (NE : Nat.eqb (touches o) c = false) by (apply Nat.eqb_neq; exact N). destruct o; cbn [calm] in K; try contradiction; cbn [touches] in NE; cbn [hear]; rewrite ?NE; cbn [negb]; try reflexivity;
        destruct (snd _); reflexivity. }
    rewrite H. assert (C : w_ctxs (fst (step L b o w)) c = w_ctxs w c) by (apply step_other; auto). split; [rewrite C; exact S1|].
    intros m l Q. destruct (S2 m l Q) as (NM & h & key & H1 & H2 & H3). split; [exact NM|]. exists h, key. split; [rewrite (handle_ext w) by exact C; exact H1|]. split; [exact H2|].
    destruct (step_macs L b o w h K) as [M|(c0 & k0 & m0 & Eo & M & _)]; [|rewrite M; exact H3|congruence].
    intros Q'. exact (A (touches o) c h N Q' H1). }
  destruct o; cbn [calm] in K; try contradiction; cbn [touches] in E; subst; cbn [step]; unfold sound, handle_of in *.
  - destruct (w_ctxs w c) as [x|] eqn:C; cbn [fst snd hear].
    + rewrite C. split; [exact S1|exact S2].
    + rewrite Nat.eqb_refl, ctx_set, Nat.eqb_refl. split; [reflexivity|]. cbn. discriminate.
  - destruct (w_ctxs w c) as [[[p|] fl]|] eqn:C; cbn [fst snd hear]; rewrite ?ctx_set, ?Nat.eqb_refl, ?C; cbn [c_pctx]; auto.
  - destruct (w_ctxs w c) as [[pc fl]|] eqn:C; cbn [c_pctx c_flag].
    2: { cbn [fst snd hear]. rewrite C. auto. }
    set (p := match pc with Some p => p | None => MkPctx key None end).
    assert (PK : match k_key k with Some q => q | None => key end = p_key p).
    { unfold p. destruct pc as [p0|]; [rewrite S1; reflexivity|]. rewrite S1. reflexivity. }
    assert (REF : forall w1, w1 = set_ctx w c (Some (MkMdctx (Some p) fl)) ->
       sound (fst (w1, Refused)) c (hear c k (Init c key m h ok, snd (w1, Refused)))).
    { intros w1 ->. unfold sound. cbn [fst snd hear]. rewrite Nat.eqb_refl. cbn [negb]. rewrite ctx_set, Nat.eqb_refl. cbn [k_key k_msg]. rewrite PK. split; [reflexivity|discriminate]. }
    assert (FIN : m <> MdOther -> sound (fst (set_ctx (set_mac (set_ctx w c (Some (MkMdctx (Some p) fl))) h (Some (MkMac (p_key p) m [] false false))) c (Some (MkMdctx (Some (MkPctx (p_key p) (Some h))) fl)), Fine)) c
       (hear c k (Init c key m h ok, snd (set_ctx (set_mac (set_ctx w c (Some (MkMdctx (Some p) fl))) h (Some (MkMac (p_key p) m [] false false))) c (Some (MkMdctx (Some (MkPctx (p_key p) (Some h))) fl)), Fine)))).
    { intros NM. unfold sound, handle_of. cbn [fst snd hear]. rewrite Nat.eqb_refl. cbn [negb]. rewrite ctx_set, Nat.eqb_refl. cbn [k_key k_msg p_key p_mac]. rewrite PK. split; [reflexivity|].
      intros m' l' Q. injection Q as <- <-. split; [exact NM|]. exists h, (p_key p). split; [reflexivity|]. split; [reflexivity|]. rewrite macs_ctx, mac_set, Z.eqb_refl. reflexivity. }
    destruct m; [| |apply REF; reflexivity].
    + destruct ok; [|apply REF; reflexivity]. destruct (w_macs w h); [apply REF; reflexivity|]. apply FIN. discriminate.
    + destruct ok; [|apply REF; reflexivity]. destruct (w_macs w h); [apply REF; reflexivity|]. apply FIN. discriminate.
  - destruct (w_ctxs w c) as [[[p|] fl]|] eqn:C; cbn [fst snd hear]; rewrite ?Nat.eqb_refl; cbn [negb].
    2: { rewrite C. subst k. cbn. split; [reflexivity|discriminate]. }
    2: { rewrite C. subst k. cbn. split; [reflexivity|discriminate]. }
    rewrite ctxs_process, C. split; [destruct (snd (process w (p_mac p) l ok)); try destruct (k_msg k) as [[m0 l0]|]; exact S1|].
    intros m' l' Q. destruct (snd (process w (p_mac p) l ok)) eqn:PR; cbn [k_msg] in Q; try discriminate; [|apply process_said in PR; contradiction]. destruct (k_msg k) as [(m0, l0)|] eqn:KM; [|discriminate].
    cbn [k_msg] in Q. injection Q as <- <-. destruct (S2 m0 l0 eq_refl) as (NM & h & key & H1 & H2 & H3). split; [exact NM|]. exists h, key. split; [exact H1|]. split; [exact H2|].
    unfold process in *. rewrite H1, H3 in *. cbn [m_done] in *. destruct ok; [|discriminate]. cbn [fst m_key m_alg m_data m_lost]. rewrite mac_set, Z.eqb_refl. reflexivity.
  - destruct (w_ctxs w c) as [[[p|] fl]|] eqn:C; cbn [fst snd hear]; rewrite ?Nat.eqb_refl.
    2: { rewrite C. subst k. cbn. split; [reflexivity|discriminate]. }
    2: { rewrite C. subst k. cbn. split; [reflexivity|discriminate]. }
    pose proof (ctxs_compute L b w (p_mac p) room ok junk c) as CC. pose proof (compute_said L b w (p_mac p) room ok junk) as NS. destruct (compute L b w (p_mac p) room ok junk) as (w1, a). cbn [fst snd] in CC, NS.
    destruct fl; cbn [fst snd]; rewrite ?ctxs_cleanup, CC, C; (split; [destruct a; exact S1|destruct a; cbn; try discriminate; contradiction]).
  - destruct (w_ctxs w c) as [[[p|] fl]|] eqn:C; cbn [fst snd hear]; rewrite ?C; auto. destruct (compute_size w (p_mac p)); auto.
  - destruct (w_ctxs w c) as [x|] eqn:C; cbn [fst snd hear]; rewrite ?Nat.eqb_refl, ?ctx_set, ?Nat.eqb_refl, ?C; [split; [reflexivity|cbn; discriminate]|auto].
  - destruct (w_ctxs w c) as [x|] eqn:C; cbn [fst snd hear]; rewrite ?Nat.eqb_refl, ?ctx_set, ?Nat.eqb_refl, ?C; [split; [reflexivity|cbn; discriminate]|auto].
Qed.
Lemma run_sound L b c l : forall w k, apart w -> unshared L b l w -> sound w c k ->
  apart (fst (run L b l w)) /\ sound (fst (run L b l w)) c (fold_left (hear c) (snd (run L b l w)) k).
Proof.
  induction l as [|o l IH]; intros w k A U S; cbn [run]; [auto|]. destruct U as (U1 & U2). assert (K : calm w o) by exact U1.
  pose proof (sound_step L b o w c k A K S) as S'. pose proof (apart_step L b o w A K (calm_fresh w o K)) as A'.
  destruct (step L b o w) as (w1, a). cbn [fst snd] in *. destruct (IH w1 _ A' U2 S') as (R1 & R2). destruct (run L b l w1) as (w2, r). cbn [fst snd fold_left] in *. auto.
Qed.
Lemma start_ok c : apart start /\ sound start c unknown.
Proof. split; [intros x y h _ Q; discriminate|]. split; [reflexivity|]. cbn. discriminate. Qed.

(** The value is that of the message given, and calls are accepted. *)
Lemma final_value L b l c key m msg room junk : unshared L b l start ->
  let '(w, events) := run L b l start in
  heard c events = MkKnown (Some key) (Some (m, msg)) ->
  snd (step L b (Final c room true junk) w) = (if room <? mac_size m then Refused else Tag (mac_of L b key m msg)) /\
  snd (step L b (Length c) w) = Size (mac_size m) /\ (forall more, snd (step L b (Update c more true) w) = Fine).
Proof.
  intros U. destruct (start_ok c) as (A0 & S0). destruct (run_sound L b c l start unknown A0 U S0) as (A & S1 & S2). destruct (run L b l start) as (w, events). cbn [fst snd] in *.
  intros H. unfold heard in H. rewrite H in S1, S2. destruct (S2 m msg eq_refl) as (NM & h & key' & H1 & H2 & H3). cbn in H2. injection H2 as <-.
  unfold handle_of in H1. cbn [step]. destruct (w_ctxs w c) as [[[p|] fl]|]; try discriminate. unfold compute, compute_size, process. rewrite H1, H3. cbn [m_done m_alg].
  assert (SZ : size_of m = mac_size m) by (destruct m; reflexivity). rewrite SZ.
  assert (MV : mac_value L b (MkMac key m msg false false) = mac_of L b key m msg) by (destruct m; reflexivity).
  split; [|split; reflexivity]. destruct (room <? mac_size m); destruct fl; cbn [snd]; cbn [m_lost]; rewrite ?MV; reflexivity.
Qed.
