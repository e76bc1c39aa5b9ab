From Verif Require Import Base M_Mac M_ProvMac S_ProvMac.
From Verif Require M_ProvKdf.

Definition alg_of (m : option md) : alg := match m with None => Cmac | Some m => Hmac (M_ProvKdf.digest_from_name (md_name m)) end.
Definition goes (w : world) (x : pctx) (r : running) : Prop :=
  exists h, c_mac x = Some h /\ w_macs w h = Some (MkMac (alg_of (r_md r)) (r_key r) (r_data r) false false).
Definition agree (s : state) (w : world) (q : asked) (x : pctx) : Prop :=
  c_hmac x = q_hmac q /\ (forall m, q_md q = Some m -> c_md x = Some m) /\
  (forall b, q_key q = Some b -> exists h, c_key x = Some h /\ s_made s h = Some b) /\
  (forall r, q_run q = Some r -> goes w x r /\ (q_hmac q = true <-> r_md r <> None)).
Record Inv (s : state) (w : world) : Prop := MkInv {
  i_made : forall h b, w_keys w h = Some b -> s_made s h = Some b;
  i_ctx : forall c, match s_ctx s c, w_ctxs w c with Some q, Some x => agree s w q x | None, None => True | _, _ => False end }.
Record Own (w : world) : Prop := MkOwn {
  o_held : forall c x h, w_ctxs w c = Some x -> c_mac x = Some h -> w_macs w h <> None;
  o_apart : forall c d x y h, w_ctxs w c = Some x -> w_ctxs w d = Some y -> c_mac x = Some h -> c_mac y = Some h -> c = d;
  o_all : forall h, w_macs w h <> None -> exists c x, w_ctxs w c = Some x /\ c_mac x = Some h }.

(** ** The parts of the provider *)
Lemma drop_key_spec w o : w_ctxs (drop_key w o) = w_ctxs w /\ w_macs (drop_key w o) = w_macs w /\ w_mds (drop_key w o) = w_mds w /\
  forall h b, w_keys (drop_key w o) h = Some b -> w_keys w h = Some b.
Proof. destruct o as [k|]; cbn; repeat split; auto. intros h b. destruct (h =? k); [discriminate|auto]. Qed.

Definition md_new (x : pctx) (p : params) : option md := match p_md p with Some (Fetched m) => Some m | Some Unknown => None | _ => c_md x end.
Lemma set_params_spec w x p : let '(w', x', b) := set_params w x p in
  w_ctxs w' = w_ctxs w /\ w_macs w' = w_macs w /\ (forall h k, w_keys w' h = Some k -> w_keys w h = Some k) /\
  c_mac x' = c_mac x /\ c_hmac x' = c_hmac x /\
  (b = true -> c_md x' = md_new x p /\ p_md p <> Some Unknown /\ p_md p <> Some Unreadable /\
     match p_key p with Some (Some h) => c_key x' = Some h /\ w_keys w' h <> None | Some None => False | None => c_key x' = c_key x end).
Proof.
  unfold set_params, md_new. destruct p as [pm pk pd]. cbn [p_md p_key p_delete].
  assert (M : exists w1 x1 b1, set_md w x pm = (w1, x1, b1) /\ w_ctxs w1 = w_ctxs w /\ w_macs w1 = w_macs w /\ w_keys w1 = w_keys w /\
    c_mac x1 = c_mac x /\ c_hmac x1 = c_hmac x /\ c_key x1 = c_key x /\
    (b1 = true -> c_md x1 = match pm with Some (Fetched m) => Some m | Some Unknown => None | _ => c_md x end /\ pm <> Some Unknown /\ pm <> Some Unreadable)).
  { destruct pm as [[| |m]|]; cbn; do 3 eexists; (split; [reflexivity|]); cbn; repeat split; auto; try discriminate. }
  destruct M as (w1 & x1 & b1 & -> & A1 & A2 & A3 & A4 & A5 & A6 & A7). destruct b1.
  2: { rewrite A1, A2, A3, A4, A5. repeat split; auto; discriminate. }
  assert (K : exists w2 x2 b2, set_sa_key w1 x1 pk = (w2, x2, b2) /\ w_ctxs w2 = w_ctxs w1 /\ w_macs w2 = w_macs w1 /\
    (forall h k, w_keys w2 h = Some k -> w_keys w1 h = Some k) /\ c_mac x2 = c_mac x1 /\ c_hmac x2 = c_hmac x1 /\ c_md x2 = c_md x1 /\
    (b2 = true -> match pk with Some (Some h) => c_key x2 = Some h /\ w_keys w2 h <> None | Some None => False | None => c_key x2 = c_key x1 end)).
  { destruct pk as [[h|]|]; cbn [set_sa_key]; do 3 eexists; (split; [reflexivity|]).
    - destruct (drop_key_spec w1 (c_key x1)) as (D1 & D2 & _ & D4). rewrite D1, D2. cbn. repeat split; auto.
      destruct (w_keys (drop_key w1 (c_key x1)) h); discriminate.
    - repeat split; auto. discriminate.
    - repeat split; auto. }
  destruct K as (w2 & x2 & b2 & -> & B1 & B2 & B3 & B4 & B5 & B6 & B7). destruct b2.
  2: { rewrite B1, B2, B4, B5, A1, A2, A4, A5. repeat split; auto; try discriminate. intros h k H. rewrite <- A3. auto. }
  destruct (A7 eq_refl) as (E1 & E2 & E3). specialize (B7 eq_refl).
  assert (KK : forall h k, w_keys w2 h = Some k -> w_keys w h = Some k) by (intros h k H; rewrite <- A3; auto).
  destruct pd as [[d|]|]; cbn [set_delete]; rewrite B1, B2, A1, A2; cbn [c_mac c_hmac c_md c_key]; rewrite ?B4, ?B5, ?B6, ?A4, ?A5;
    (repeat split; auto; try discriminate; try congruence; destruct pk as [[h|]|]; solve [auto|tauto|congruence]).
Qed.

Lemma begin_spec w x h ok : let '(w', x', a) := begin w x h ok in
  w_ctxs w' = w_ctxs w /\ w_keys w' = w_keys w /\ c_hmac x' = c_hmac x /\ c_md x' = c_md x /\ c_key x' = c_key x /\
  ((a = Fine /\ c_mac x' = Some h /\ w_macs w h = None /\ ok = true /\ exists k b g, c_key x = Some k /\ w_keys w k = Some b /\ algorithm x = Some g /\ known g = true /\
     forall y, w_macs w' y = if y =? h then Some (MkMac g b [] false false) else w_macs w y) \/
   ((a = Refused \/ a = Crash) /\ x' = x /\ w_macs w' = w_macs w)).
Proof.
  unfold begin. destruct (c_key x) as [k|] eqn:K; [|repeat split; auto].
  destruct (algorithm x) as [g|] eqn:G; [|repeat split; auto].
  destruct (w_keys w k) as [b|] eqn:B; [|repeat split; auto].
  destruct (ok && known g) eqn:O; [|repeat split; auto]. apply andb_prop in O. destruct O as [O1 O2].
  destruct (w_macs w h) eqn:M; [repeat split; auto|]. cbn. repeat split; auto. left. repeat split; auto. exists k, b, g. repeat split; auto.
Qed.

Definition base (w : world) (x : pctx) (y : Z) : option mac := match c_mac x with Some h => if y =? h then None else w_macs w y | None => w_macs w y end.
Lemma base_drop w x y : w_macs (drop_mac w (c_mac x)) y = base w x y.
Proof. unfold base, drop_mac. destruct (c_mac x); reflexivity. Qed.
Lemma drop_mac_spec w o : w_ctxs (drop_mac w o) = w_ctxs w /\ w_keys (drop_mac w o) = w_keys w /\ w_mds (drop_mac w o) = w_mds w.
Proof. destruct o; cbn; auto. Qed.

Definition key_now (x : pctx) (key : option (list Z * option Z)) (p : params) : option Z :=
  match p_key p with Some (Some h) => Some h | _ => match key with Some (_, Some k) => Some k | _ => c_key x end end.
Lemma init_spec w x key header p h ok : let '(w', x', a) := init w x key header p h ok in
  w_ctxs w' = w_ctxs w /\ c_hmac x' = c_hmac x /\
  (forall k b, w_keys w' k = Some b -> w_keys w k = Some b \/ key = Some (b, Some k)) /\
  ((a = Fine /\ c_mac x' = Some h /\ base w x h = None /\ c_md x' = md_new x p /\ p_md p <> Some Unknown /\ p_md p <> Some Unreadable /\ p_key p <> Some None /\
     c_key x' = key_now x key p /\ match key with Some (_, None) => False | _ => True end /\
     exists k b g, c_key x' = Some k /\ w_keys w' k = Some b /\ algorithm x' = Some g /\ known g = true /\
     forall y, w_macs w' y = if y =? h then Some (MkMac g b [] false false) else base w x y) \/
   ((a = Refused \/ a = Crash) /\ c_mac x' = None /\ forall y, w_macs w' y = base w x y)).
Proof.
  unfold init. set (w0 := drop_mac w (c_mac x)). set (x0 := MkCtx (c_hmac x) None (c_md x) (c_key x) (c_delete x)).
  destruct (drop_mac_spec w (c_mac x)) as (D1 & D2 & D3). fold w0 in D1, D2, D3.
  assert (D4 : forall y, w_macs w0 y = base w x y) by (intros; apply base_drop).
  assert (GO : forall w1 x1, w_ctxs w1 = w_ctxs w -> w_macs w1 = w_macs w0 -> c_mac x1 = None -> c_hmac x1 = c_hmac x -> c_md x1 = c_md x ->
    let '(w', x', a) := match set_params w1 x1 p with (w, x, true) => begin w x h ok | (w, x, false) => (w, x, Refused) end in
    w_ctxs w' = w_ctxs w /\ c_hmac x' = c_hmac x /\ (forall k b, w_keys w' k = Some b -> w_keys w1 k = Some b) /\
    ((a = Fine /\ c_mac x' = Some h /\ base w x h = None /\ c_md x' = md_new x p /\ p_md p <> Some Unknown /\ p_md p <> Some Unreadable /\ p_key p <> Some None /\
       c_key x' = match p_key p with Some (Some h) => Some h | _ => c_key x1 end /\
       exists k b g, c_key x' = Some k /\ w_keys w' k = Some b /\ algorithm x' = Some g /\ known g = true /\
       forall y, w_macs w' y = if y =? h then Some (MkMac g b [] false false) else base w x y) \/
     ((a = Refused \/ a = Crash) /\ c_mac x' = None /\ forall y, w_macs w' y = base w x y))).
  { intros w1 x1 E1 E2 E3 E4 E5. pose proof (set_params_spec w1 x1 p) as S. destruct (set_params w1 x1 p) as [[w2 x2] b2].
    destruct S as (S1 & S2 & S3 & S4 & S5 & S6). destruct b2.
    - destruct (S6 eq_refl) as (T1 & T2 & T3 & T4). pose proof (begin_spec w2 x2 h ok) as B. destruct (begin w2 x2 h ok) as [[w3 x3] a].
      destruct B as (B1 & B2 & B3 & B4 & B5 & B6).
      split; [congruence|]. split; [congruence|]. split; [intros k b; rewrite B2; auto|].
      destruct B6 as [(F1 & F2 & F3 & F4 & k & b & g & F5 & F6 & F7 & F8 & F9) | (F1 & F2 & F3)].
      + left. split; [exact F1|]. split; [exact F2|]. split; [rewrite <- D4, <- E2, <- S2; exact F3|].
        split; [rewrite B4, T1; unfold md_new; rewrite E5; reflexivity|]. split; [exact T2|]. split; [exact T3|].
        split; [destruct (p_key p) as [[y|]|]; [discriminate|contradiction|discriminate]|].
        split; [rewrite B5; destruct (p_key p) as [[y|]|]; [apply T4|contradiction|exact T4]|].
        exists k, b, g. split; [congruence|]. split; [congruence|]. split; [unfold algorithm in *; rewrite B3, B4; exact F7|]. split; [exact F8|].
        intros y. rewrite F9. destruct (y =? h); [reflexivity|]. rewrite S2, E2. apply D4.
      + right. split; [exact F1|]. split; [congruence|]. intros y. rewrite F3, S2, E2. apply D4.
    - split; [congruence|]. split; [congruence|]. split; [exact S3|]. right. split; [auto|]. split; [congruence|]. intros y. rewrite S2, E2. apply D4. }
  destruct key as [[b [k|]]|].
  - set (w1 := drop_key w0 (c_key x0)). destruct (drop_key_spec w0 (c_key x0)) as (K1 & K2 & _ & K4). fold w1 in K1, K2, K4.
    assert (KK : forall k' b', w_keys (set_key w1 k (Some b)) k' = Some b' -> w_keys w k' = Some b' \/ Some (b, Some k) = Some (b', Some k')).
    { intros k' b'. cbn [set_key w_keys]. destruct (Z.eqb_spec k' k) as [->|N]; [intros [= ->]; auto|]. intros H. left. rewrite <- D2. auto. }
    destruct header.
    + specialize (GO (set_key w1 k (Some b)) (MkCtx (c_hmac x) None (c_md x) (Some k) true)).
      cbn [set_key w_ctxs w_macs c_mac c_hmac c_md c_key] in GO. cbn [x0 c_hmac c_md].
      specialize (GO (eq_trans K1 D1) K2 eq_refl eq_refl eq_refl).
      match type of GO with match ?t with _ => _ end => change t with (match set_params (set_key w1 k (Some b)) (MkCtx (c_hmac x) None (c_md x) (Some k) true) p with (w, x, true) => begin w x h ok | (w, x, false) => (w, x, Refused) end) in GO end.
      destruct (match set_params (set_key w1 k (Some b)) _ p with (w, x, true) => begin w x h ok | (w, x, false) => (w, x, Refused) end) as [[w' x'] a].
      destruct GO as (G1 & G2 & G3 & G4). split; [exact G1|]. split; [exact G2|]. split; [intros k' b' H; apply KK; auto|].
      destruct G4 as [(F1 & F2 & F3 & F4 & F5 & F6 & F7 & F8 & F9)|F]; [left|right; exact F].
      repeat (split; [assumption || exact Logic.I|]). exact F9.
    + cbn [set_key w_ctxs w_macs]. split; [congruence|]. split; [reflexivity|]. split; [exact KK|]. right. split; [auto|]. split; [reflexivity|].
      intros y. cbn [w_macs]. rewrite K2. apply D4.
  - destruct (drop_key_spec w0 (c_key x0)) as (K1 & K2 & _ & K4). split; [congruence|]. split; [reflexivity|]. split.
    + intros k' b' H. left. rewrite <- D2. auto.
    + right. split; [auto|]. split; [reflexivity|]. intros y. rewrite K2. apply D4.
  - specialize (GO w0 x0 D1 eq_refl eq_refl eq_refl eq_refl).
    destruct (match set_params w0 x0 p with (w, x, true) => begin w x h ok | (w, x, false) => (w, x, Refused) end) as [[w' x'] a].
    destruct GO as (G1 & G2 & G3 & G4). split; [exact G1|]. split; [exact G2|]. split; [intros k' b' H; left; rewrite <- D2; auto|].
    destruct G4 as [(F1 & F2 & F3 & F4 & F5 & F6 & F7 & F8 & F9)|F]; [left|right; exact F].
    repeat (split; [assumption || exact Logic.I|]). exact F9.
Qed.

(** ** Who holds which MAC *)
Lemma own_start : Own start.
Proof. split; cbn; try discriminate. intros h H. contradiction. Qed.
Lemma eqb_refl_nat c : Nat.eqb c c = true. Proof. apply Nat.eqb_refl. Qed.
Lemma eqb_neq_nat c d : c <> d -> Nat.eqb c d = false. Proof. apply Nat.eqb_neq. Qed.

(** What a step does to the contexts and MACs, all one needs to know of who holds what. *)
Inductive moved (w w' : world) : Prop :=
| Same (E1 : forall c, option_map c_mac (w_ctxs w' c) = option_map c_mac (w_ctxs w c)) (E2 : forall h, w_macs w' h = None <-> w_macs w h = None)
| Taken c (x : pctx) h (X : w_ctxs w c = Some x) (E1 : forall d, d <> c -> w_ctxs w' d = w_ctxs w d) (E2 : option_map c_mac (w_ctxs w' c) = Some (Some h))
    (N : base w x h = None) (E3 : forall y, w_macs w' y = None <-> y <> h /\ base w x y = None)
| Let c (x : pctx) (X : w_ctxs w c = Some x) (E1 : forall d, d <> c -> w_ctxs w' d = w_ctxs w d)
    (E2 : forall x', w_ctxs w' c = Some x' -> c_mac x' = None) (E3 : forall y, w_macs w' y = base w x y)
| Fresh c (X : w_ctxs w c = None) (E1 : forall d, d <> c -> w_ctxs w' d = w_ctxs w d) (E2 : forall x', w_ctxs w' c = Some x' -> c_mac x' = None) (E3 : w_macs w' = w_macs w).

Lemma base_some w x y : base w x y <> None -> w_macs w y <> None /\ c_mac x <> Some y.
Proof. unfold base. destruct (c_mac x) as [h|]; [|split; [auto|discriminate]]. destruct (Z.eqb_spec y h) as [->|N]; [congruence|]. split; [auto|congruence]. Qed.
Lemma base_keep w x y : c_mac x <> Some y -> base w x y = w_macs w y.
Proof. unfold base. destruct (c_mac x) as [h|]; [|reflexivity]. intros N. destruct (Z.eqb_spec y h) as [->|M]; [congruence|reflexivity]. Qed.
Lemma own_moved w w' : Own w -> moved w w' -> Own w'.
Proof.
  intros [H A AL] M. destruct M.
  - assert (B : forall c x h, w_ctxs w' c = Some x -> c_mac x = Some h -> exists y, w_ctxs w c = Some y /\ c_mac y = Some h).
    { intros c x h X Y. specialize (E1 c). rewrite X in E1. cbn in E1. destruct (w_ctxs w c) as [y|]; [|discriminate]. exists y. cbn in E1. split; congruence. }
    split.
    + intros c x h X Y. destruct (B _ _ _ X Y) as (y & Z1 & Z2). rewrite E2. eapply H; eauto.
    + intros c d x y h X Y Z1 Z2. destruct (B _ _ _ X Z1) as (x1 & ? & ?). destruct (B _ _ _ Y Z2) as (y1 & ? & ?). eapply (A c d); eauto.
    + intros h X. rewrite E2 in X. destruct (AL h X) as (c & x & X1 & X2). specialize (E1 c). rewrite X1 in E1. cbn in E1.
      destruct (w_ctxs w' c) as [y|] eqn:Y; [|discriminate]. exists c, y. cbn in E1. split; [auto|congruence].
  - assert (O : forall d y, d <> c -> w_ctxs w d = Some y -> c_mac y <> Some h).
    { intros d y D Y F. destruct (base w x h) eqn:B; [discriminate|]. unfold base in B. destruct (c_mac x) as [k|] eqn:K.
      - destruct (Z.eqb_spec h k) as [->|NE]; [apply D; eapply A; eauto|]. eapply H; eauto.
      - eapply H; eauto. }
    split.
    + intros d y k D K F. rewrite E3 in F. destruct F as [F1 F2]. destruct (Nat.eq_dec d c) as [->|ND].
      * rewrite D in E2. cbn in E2. congruence.
      * rewrite E1 in D by auto. rewrite base_keep in F2; [eapply H; eauto|]. intros Q. apply ND. eapply A; eauto.
    + intros d e y z k D E Y Z1. destruct (Nat.eq_dec d c) as [->|ND]; destruct (Nat.eq_dec e c) as [->|NE]; auto.
      * rewrite D in E2. cbn in E2. rewrite E1 in E by auto. exfalso. apply (O e z); auto. congruence.
      * rewrite E in E2. cbn in E2. rewrite E1 in D by auto. exfalso. apply (O d y); auto. congruence.
      * rewrite E1 in D, E by auto. eapply A; eauto.
    + intros k K. destruct (Z.eq_dec k h) as [->|NK].
      * destruct (w_ctxs w' c) as [y|] eqn:Y; [|discriminate]. exists c, y. cbn in E2. split; [auto|congruence].
      * assert (base w x k <> None) as B by (intros B; apply K; apply E3; auto). apply base_some in B. destruct B as [B1 B2].
        destruct (AL k B1) as (d & y & D1 & D2). exists d, y. split; [|auto]. rewrite E1; [auto|]. intros ->. congruence.
  - split.
    + intros d y k D K. destruct (Nat.eq_dec d c) as [->|ND]; [rewrite (E2 _ D) in K; discriminate|]. rewrite E1 in D by auto. rewrite E3, base_keep; [eapply H; eauto|].
      intros Q. apply ND. eapply A; eauto.
    + intros d e y z k D E Y Z1. destruct (Nat.eq_dec d c) as [->|ND]; [rewrite (E2 _ D) in Y; discriminate|].
      destruct (Nat.eq_dec e c) as [->|NE]; [rewrite (E2 _ E) in Z1; discriminate|]. rewrite E1 in D, E by auto. eapply A; eauto.
    + intros k K. rewrite E3 in K. apply base_some in K. destruct K as [B1 B2]. destruct (AL k B1) as (d & y & D1 & D2). exists d, y.
      split; [|auto]. rewrite E1; [auto|]. intros ->. congruence.
  - split.
    + intros d y k D K. destruct (Nat.eq_dec d c) as [->|ND]; [rewrite (E2 _ D) in K; discriminate|]. rewrite E1 in D by auto. rewrite E3. eapply H; eauto.
    + intros d e y z k D E Y Z1. destruct (Nat.eq_dec d c) as [->|ND]; [rewrite (E2 _ D) in Y; discriminate|].
      destruct (Nat.eq_dec e c) as [->|NE]; [rewrite (E2 _ E) in Z1; discriminate|]. rewrite E1 in D, E by auto. eapply A; eauto.
    + intros k K. rewrite E3 in K. destruct (AL k K) as (d & y & D1 & D2). exists d, y. split; [|auto]. rewrite E1; [auto|]. intros ->. congruence.
Qed.

Lemma same_refl w : moved w w. Proof. apply Same; intros; [reflexivity|tauto]. Qed.
Lemma step_moved L o w : moved w (fst (step L o w)).
Proof.
  destruct o as [h b|h|c hm|c p|c key hd p h ok|c l ok|c room ok junk|c|c]; cbn [step].
  - destruct (w_keys w h); apply same_refl || (apply Same; cbn; intros; [reflexivity|tauto]).
  - apply Same; cbn; intros; [reflexivity|tauto].
  - destruct (w_ctxs w c) eqn:X; [apply same_refl|]. apply (Fresh _ _ c); cbn; auto.
    + intros d D. rewrite eqb_neq_nat; auto.
    + rewrite eqb_refl_nat. intros x' [= <-]. reflexivity.
  - destruct (w_ctxs w c) as [x|] eqn:X; [|apply same_refl]. pose proof (set_params_spec w x p) as S. destruct (set_params w x p) as [[w1 x1] b].
    destruct S as (S1 & S2 & _ & S4 & _). apply Same; cbn; [|intros; rewrite S2; tauto]. intros d. destruct (Nat.eqb_spec d c) as [->|N]; [rewrite X; cbn; congruence|rewrite S1; reflexivity].
  - destruct (w_ctxs w c) as [x|] eqn:X; [|apply same_refl]. destruct (match key with Some _ => _ | None => _ end); [apply same_refl|].
    pose proof (init_spec w x key hd p h ok) as S. destruct (init w x key hd p h ok) as [[w1 x1] a].
    destruct S as (S1 & _ & _ & [(_ & F2 & F3 & _ & _ & _ & _ & _ & _ & k & b & g & _ & _ & _ & _ & F4)|(_ & F2 & F3)]).
    + apply (Taken _ _ c x h); cbn; auto.
      * intros d D. rewrite eqb_neq_nat by auto. congruence.
      * rewrite eqb_refl_nat. cbn. congruence.
      * intros y. rewrite F4. destruct (Z.eqb_spec y h) as [->|N]; [split; [discriminate|tauto]|tauto].
    + apply (Let _ _ c x); cbn; auto.
      * intros d D. rewrite eqb_neq_nat by auto. congruence.
      * rewrite eqb_refl_nat. intros x' [= <-]. exact F2.
  - destruct (w_ctxs w c) as [x|] eqn:X; [|apply same_refl]. destruct (c_mac x) as [h|] eqn:M; [|apply same_refl]. destruct (w_macs w h) as [m|] eqn:H; [|apply same_refl].
    destruct (m_done m); [apply same_refl|]. destruct ok; (apply Same; cbn; [reflexivity|]; intros y; destruct (Z.eqb_spec y h) as [->|N]; [rewrite H; split; discriminate|tauto]).
  - destruct (w_ctxs w c) as [x|] eqn:X; [|apply same_refl]. destruct (room <? told_size x); [apply same_refl|].
    destruct (c_mac x) as [h|] eqn:M; [|apply same_refl]. destruct (w_macs w h) as [m|] eqn:H; [|apply same_refl].
    destruct (m_done m); [apply same_refl|]. destruct (room <? size_of (m_alg m)); [apply same_refl|].
    apply Same; cbn; [reflexivity|]; intros y; destruct (Z.eqb_spec y h) as [->|N]; [rewrite H; split; discriminate|tauto].
  - destruct (w_ctxs w c); apply same_refl.
  - destruct (w_ctxs w c) as [x|] eqn:X; [|apply same_refl]. apply (Let _ _ c x); auto; cbn.
    + intros d D. rewrite eqb_neq_nat by auto. destruct (drop_mac_spec w (c_mac x)) as (D1 & _). destruct (c_delete x); [|congruence].
      destruct (drop_key_spec (drop_mac w (c_mac x)) (c_key x)) as (K1 & _). congruence.
    + rewrite eqb_refl_nat. discriminate.
    + intros y. rewrite <- base_drop. destruct (c_delete x); [|reflexivity].
      destruct (drop_key_spec (drop_mac w (c_mac x)) (c_key x)) as (_ & K2 & _). congruence.
Qed.
Lemma run_own L l : forall w, Own w -> Own (fst (run L l w)).
Proof.
  induction l as [|o l IH]; intros w O; [exact O|]. cbn [run]. pose proof (own_moved _ _ O (step_moved L o w)) as O1.
  destruct (step L o w) as [w1 a]. cbn [fst] in O1. destruct (crashed a); [exact O1|]. specialize (IH w1 O1). destruct (run L l w1). exact IH.
Qed.
Theorem nothing_left : forall L l, all_freed (fst (run L l start)) -> forall h, w_macs (fst (run L l start)) h = None.
Proof.
  intros L l F h. pose proof (run_own L l start own_start) as [_ _ A]. destruct (w_macs (fst (run L l start)) h) eqn:M; [|reflexivity].
  destruct (A h) as (c & x & X & _); [congruence|]. rewrite F in X. discriminate.
Qed.

(** A key by handle, and what becomes of it. *)
Lemma own_key : forall L w c h d, snd (step L (SetParams c (Params None (Some (Some h)) (Some (Some d)))) w) = Fine ->
  let w1 := fst (step L (SetParams c (Params None (Some (Some h)) (Some (Some d)))) w) in
  w_keys w1 h <> None /\ (forall k, w_keys (fst (step L (Free c) w1)) k = if d && (k =? h) then None else w_keys w1 k).
Proof.
  intros L w c h d. cbn [step]. destruct (w_ctxs w c) as [x|]; [|discriminate].
  cbn [set_params p_md p_key p_delete set_md set_sa_key].
  set (w0 := drop_key w (c_key x)). destruct (w_keys w0 h) eqn:E; [|discriminate].
  cbn [set_delete fst snd]. intros _. split.
  - unfold set_ctx. cbn [w_keys]. rewrite E. discriminate.
  - intros k. cbn [set_ctx w_ctxs]. rewrite Nat.eqb_refl. cbn [c_mac c_delete c_key c_md].
    destruct d; destruct (c_mac x); cbn; try reflexivity; destruct (k =? h); reflexivity.
Qed.
