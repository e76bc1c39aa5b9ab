(** Proofs: ways to keep handles apart, lifetimes, and histories that go wrong. *)
From Verif Require Import Base M_Mac M_EngMac S_EngMac P_EngMac.

(** ** Handles that are not used again *)
Lemma new_handles_ok L b l : forall w used, (forall c h, handle_of w c = Some h -> In h used) -> new_handles l used -> unshared L b l w.
Proof.
  induction l as [|o l IH]; intros w used H N; [exact Logic.I|].
  assert (CALM : calm w o).
  { destruct o; cbn in N |- *; auto. destruct N as (N & _). intros d D (Q & _). apply N. eapply H; eauto. }
  split; [destruct o; exact CALM|].
  apply (IH _ (match o with Init _ _ _ h _ => h :: used | _ => used end)).
  - intros c h Q. destruct (Nat.eq_dec c (touches o)) as [E|NE].
    + rewrite E in Q. destruct (step_own L b o w CALM) as [S|[S|(c0 & k & m & h0 & Eo & _ & _ & S)]].
      * rewrite S in Q. apply H in Q. destruct o; auto. right. exact Q.
      * congruence.
      * subst o. left. congruence.
    + rewrite (handle_ext w _ c (step_other L b o w c NE)) in Q. apply H in Q. destruct o; auto. right. exact Q.
  - destruct o; cbn in N; try exact N; try contradiction. apply N.
Qed.

(** ** Contexts marked *)
Definition flags (w : world) (on : nat -> bool) : Prop := forall c x, w_ctxs w c = Some x -> on c = true -> c_flag x = true.
Definition fresh_but (X : nat -> Prop) (w : world) : Prop := forall c h, ~ X c -> ~ stale w c h.
Definition turn (o : op) (on : nat -> bool) : nat -> bool :=
  match o with
  | SetFlag c => fun x => if Nat.eqb x c then true else on x
  | New c | Reset c | Free c => fun x => if Nat.eqb x c then false else on x
  | _ => on
  end.
(** A step that releases nothing but the MAC of the context that lets go of it. *)
Lemma live_step X L b o w : calm w o -> (forall c room ok junk, o = Final c room ok junk -> forall x, w_ctxs w c = Some x -> c_flag x = true \/ X c) ->
  apart w -> fresh_but X w -> fresh_but X (fst (step L b o w)).
Proof.
  intros K FL A NS c h NX (H & M). destruct (Nat.eq_dec c (touches o)) as [E|NE].
  - destruct o; cbn [calm touches] in *; try contradiction; subst; cbn [step] in H, M; unfold handle_of in H.
    + destruct (w_ctxs w c0) as [x|] eqn:C; cbn [fst] in H, M; [|rewrite ctx_set, Nat.eqb_refl in H; discriminate].
      apply (NS c0 h NX). unfold stale, handle_of. rewrite C in *. auto.
    + destruct (w_ctxs w c0) as [[pc fl]|] eqn:C; cbn [fst] in H, M; [|rewrite C in H; discriminate]. rewrite ctx_set, Nat.eqb_refl in H. cbn [c_pctx] in H.
      apply (NS c0 h NX). unfold stale, handle_of. rewrite C. destruct pc; auto.
    + destruct (w_ctxs w c0) as [[pc fl]|] eqn:C; cbn [fst] in H, M; [|rewrite C in H; discriminate]. cbn [c_pctx c_flag] in H, M.
      assert (OLD : match match pc with Some p => p | None => MkPctx key None end with MkPctx _ q => q end = Some h -> w_macs w h = None -> False).
      { intros Q1 Q2. apply (NS c0 h NX). unfold stale, handle_of. rewrite C. destruct pc as [[k q]|]; [auto|discriminate]. }
      assert (OLD' : p_mac (match pc with Some p => p | None => MkPctx key None end) = Some h -> w_macs w h = None -> False) by (destruct pc as [[k q]|]; exact OLD).
      assert (NW : forall m', w_macs (fst (set_ctx (set_mac (set_ctx w c0 (Some (MkMdctx (Some (match pc with Some p => p | None => MkPctx key None end)) fl))) h0 (Some m')) c0
         (Some (MkMdctx (Some (MkPctx (p_key (match pc with Some p => p | None => MkPctx key None end)) (Some h0))) fl)), Fine)) h0 = Some m').
      { intros m'. cbn [fst]. rewrite macs_ctx, mac_set, Z.eqb_refl. reflexivity. }
      destruct m.
      * destruct ok; [destruct (w_macs w h0) eqn:M0|]; cbn [fst] in H, M; rewrite ctx_set, Nat.eqb_refl in H; cbn [p_mac] in H; try (exact (OLD' H M)).
        injection H as <-. specialize (NW (MkMac (p_key match pc with Some p => p | None => MkPctx key None end) MdNone [] false false)). cbn [fst] in NW. congruence.
      * destruct ok; [destruct (w_macs w h0) eqn:M0|]; cbn [fst] in H, M; rewrite ctx_set, Nat.eqb_refl in H; cbn [p_mac] in H; try (exact (OLD' H M)).
        injection H as <-. specialize (NW (MkMac (p_key match pc with Some p => p | None => MkPctx key None end) (MdSha d) [] false false)). cbn [fst] in NW. congruence.
      * cbn [fst] in H, M. rewrite ctx_set, Nat.eqb_refl in H. exact (OLD' H M).
    + destruct (w_ctxs w c0) as [[[p|] fl]|] eqn:C; cbn [fst] in H, M; rewrite ?ctxs_process, ?C in H; try discriminate.
      apply live_process in M. apply (NS c0 h NX). unfold stale, handle_of. rewrite C. auto.
    + destruct (w_ctxs w c0) as [[[p|] fl]|] eqn:C; cbn [fst] in H, M; rewrite ?C in H; try discriminate.
      destruct (FL c0 room ok junk eq_refl _ C) as [FT|FT]; [|contradiction]. cbn in FT. subst fl.
      pose proof (ctxs_compute L b w (p_mac p) room ok junk c0) as CC. pose proof (live_compute L b w (p_mac p) room ok junk h) as LC. destruct (compute L b w (p_mac p) room ok junk) as (w1, a). cbn [fst] in *.
      rewrite CC, C in H. apply (NS c0 h NX). unfold stale, handle_of. rewrite C. tauto.
    + destruct (w_ctxs w c0) as [[[p|] fl]|] eqn:C; cbn [fst] in H, M; rewrite ?C in H; try discriminate. apply (NS c0 h NX). unfold stale, handle_of. rewrite C. auto.
    + destruct (w_ctxs w c0) as [x|] eqn:C; cbn [fst] in H, M; [rewrite ctx_set, Nat.eqb_refl in H; discriminate|rewrite C in H; discriminate].
    + destruct (w_ctxs w c0) as [x|] eqn:C; cbn [fst] in H, M; [rewrite ctx_set, Nat.eqb_refl in H; discriminate|rewrite C in H; discriminate].
  - rewrite (handle_ext w _ c (step_other L b o w c NE)) in H.
    destruct (step_macs L b o w h K) as [S|(c0 & k & m & -> & M' & Q & _)].
    + intros Q. exact (A (touches o) c h ltac:(congruence) Q H).
    + rewrite S in M. exact (NS c h NX (conj H M)).
    + exact (NS c h NX (conj H M')).
Qed.

Lemma flags_step L b o w on : calm w o -> flags w on -> flags (fst (step L b o w)) (turn o on).
Proof.
  intros K F c x Q. destruct (Nat.eq_dec c (touches o)) as [E|NE].
  - destruct o; cbn [calm touches turn] in *; try contradiction; subst; cbn [step] in Q; rewrite ?Nat.eqb_refl; try discriminate.
    + intros _. destruct (w_ctxs w c0) as [y|] eqn:C; cbn [fst] in Q; [|congruence]. rewrite ctx_set, Nat.eqb_refl in Q. injection Q as <-. reflexivity.
    + destruct (w_ctxs w c0) as [y|] eqn:C; cbn [fst] in Q; [|congruence]. intros O. pose proof (F c0 y C O) as FY.
      destruct m; try (destruct ok; [destruct (w_macs w h)|]); cbn [fst] in Q; rewrite ctx_set, Nat.eqb_refl in Q; injection Q as <-; exact FY.
    + intros O. apply (F c0 x); [|exact O]. destruct (w_ctxs w c0) as [[[p|] fl]|] eqn:C; cbn [fst] in Q; rewrite ?ctxs_process in Q; congruence.
    + intros O. apply (F c0 x); [|exact O]. destruct (w_ctxs w c0) as [[[p|] fl]|] eqn:C; cbn [fst] in Q; try congruence.
      pose proof (ctxs_compute L b w (p_mac p) room ok junk c0) as CC. destruct (compute L b w (p_mac p) room ok junk) as (w1, a). cbn [fst] in *.
      destruct fl; cbn [fst] in Q; rewrite ?ctxs_cleanup in Q; congruence.
    + intros O. apply (F c0 x); [|exact O]. destruct (w_ctxs w c0) as [[[p|] fl]|] eqn:C; cbn [fst] in Q; congruence.
  - rewrite (step_other L b o w c NE) in Q. intros O. apply (F c x Q). apply Nat.eqb_neq in NE.
    destruct o; cbn [turn touches] in *; rewrite ?NE in O; exact O.
Qed.
Definition nobody (c : nat) : Prop := False.
Lemma fresh_calm w o : fresh_but nobody w -> match o with Copy _ _ => False | _ => True end -> calm w o.
Proof. intros F C. destruct o; try exact C; try exact Logic.I; try contradiction; cbn; intros d _; apply F; intros []. Qed.
Lemma marked_ok L b l : forall w on, apart w -> fresh_but nobody w -> flags w on -> marked l on -> unshared L b l w.
Proof.
  induction l as [|o l IH]; intros w on A F G M; [exact Logic.I|]. cbn [marked] in M. destruct M as (M1 & M2).
  assert (K : calm w o) by (apply fresh_calm; [exact F|destruct o; auto]).
  split; [destruct o; exact K|]. apply (IH _ (turn o on)).
  - apply apart_step; [exact A|exact K|exact (calm_fresh w o K)].
  - apply live_step; auto. intros c room ok junk -> x Q. left. exact (G c x Q M1).
  - apply flags_step; auto.
  - exact M2.
Qed.

(** ** Contexts done with at once *)
Lemma after_final L b o w c : touches o = c -> (o = Reset c \/ o = Free c) -> apart w -> fresh_but (fun x => x = c) w -> fresh_but nobody (fst (step L b o w)).
Proof.
  intros T R A F x h _ S. destruct (Nat.eq_dec x c) as [->|N].
  - destruct S as (S & _). unfold handle_of in S. destruct R as [-> | ->]; cbn [step] in S; destruct (w_ctxs w c) as [y|] eqn:C; cbn [fst] in S;
      rewrite ?ctx_set, ?Nat.eqb_refl, ?C in S; discriminate.
  - revert S. apply (live_step (fun x => x = c)); auto.
    + destruct R as [-> | ->]; exact Logic.I.
    + intros c0 room ok junk E. destruct R; congruence.
Qed.
Lemma prompt_ok L b n : forall l w, (length l <= n)%nat -> apart w -> fresh_but nobody w -> prompt l -> unshared L b l w.
Proof.
  induction n as [|n IH]; intros l w N A F P; (destruct l as [|o l]; [exact Logic.I|]); [cbn in N; lia|]. cbn [length] in N. cbn [prompt] in P. destruct P as (P1 & P2).
  assert (K : calm w o) by (apply fresh_calm; [exact F|destruct o; auto]). split; [destruct o; exact K|].
  assert (A1 : apart (fst (step L b o w))) by (apply apart_step; [exact A|exact K|exact (calm_fresh w o K)]).
  destruct o; try (apply IH; [lia|exact A1| |exact P2]; apply live_step; auto; intros; discriminate).
  (* Final *)
  destruct l as [|o2 l]; [exact Logic.I|].
  assert (R : o2 = Reset c \/ o2 = Free c) by (destruct o2; try contradiction; subst; auto).
  assert (T : touches o2 = c) by (destruct R as [-> | ->]; reflexivity).
  assert (F1 : fresh_but (fun x => x = c) (fst (step L b (Final c room ok junk) w))).
  { apply live_step; auto. - intros c0 r0 k0 j0 E x _. right. congruence. - intros x h _. apply F. intros []. }
  assert (K2 : calm (fst (step L b (Final c room ok junk) w)) o2) by (destruct R as [-> | ->]; exact Logic.I).
  split; [destruct o2; exact K2|]. apply IH.
  - cbn [length] in N. lia.
  - apply apart_step; [exact A1|exact K2|exact (calm_fresh _ _ K2)].
  - eapply after_final; eauto.
  - apply P2.
Qed.
Lemma start_fresh : fresh_but nobody start.
Proof. intros c h _ (H & _). discriminate. Qed.
Lemma three_ways L b l : new_handles l [] \/ marked l (fun _ => false) \/ prompt l -> unshared L b l start.
Proof.
  destruct (start_ok O) as (A & _). intros [H|[H|H]].
  - apply (new_handles_ok L b l start []); [|exact H]. intros c h Q. discriminate.
  - apply (marked_ok L b l start (fun _ => false)); auto; [apply start_fresh|]. intros c x Q. discriminate.
  - apply (prompt_ok L b (length l)); auto. apply start_fresh.
Qed.

(** ** Lifetimes *)
Definition owned (w : world) : Prop := forall h, w_macs w h <> None -> exists c, handle_of w c = Some h.
Lemma owned_step L b o w : apart w -> calm w o -> match o with Init c _ _ _ _ => handle_of w c = None | _ => True end -> owned w -> owned (fst (step L b o w)).
Proof.
  intros A K ON O h M.
  assert (OTH : forall c, c <> touches o -> handle_of w c = Some h -> handle_of (fst (step L b o w)) c = Some h).
  { intros c N Q. rewrite (handle_ext w _ c (step_other L b o w c N)). exact Q. }
  destruct (option_map (Z.eqb h) (handle_of w (touches o))) as [[|]|] eqn:HT.
  - assert (HH : handle_of w (touches o) = Some h).
    { destruct (handle_of w (touches o)) as [x|]; [|discriminate]. cbn in HT. injection HT as HT. apply Z.eqb_eq in HT. congruence. }
    exists (touches o). unfold handle_of in HH |- *. destruct o; cbn [calm touches] in *; try contradiction; cbn [step] in M |- *.
    + destruct (w_ctxs w c) as [x|] eqn:C; [|discriminate]. cbn [fst]. rewrite C. exact HH.
    + destruct (w_ctxs w c) as [[pc fl]|] eqn:C; [|discriminate]. cbn [fst]. rewrite ctx_set, Nat.eqb_refl. exact HH.
    + exfalso. unfold handle_of in ON. congruence.
    + destruct (w_ctxs w c) as [[[p|] fl]|] eqn:C; try discriminate. rewrite ctxs_process, C. exact HH.
    + destruct (w_ctxs w c) as [[[p|] fl]|] eqn:C; try discriminate.
      pose proof (ctxs_compute L b w (p_mac p) room ok junk c) as CC. destruct (compute L b w (p_mac p) room ok junk) as (w1, a). cbn [fst] in *.
      destruct fl; cbn [fst]; rewrite ?ctxs_cleanup, CC, C; exact HH.
    + destruct (w_ctxs w c) as [[[p|] fl]|] eqn:C; try discriminate. cbn [fst]. rewrite C. exact HH.
    + destruct (w_ctxs w c) as [[[p|] fl]|] eqn:C; try discriminate. cbn [fst c_pctx] in M. rewrite macs_ctx, macs_cleanup in M. destruct p as [k q]. cbn in HH. subst q. rewrite Z.eqb_refl in M. contradiction.
    + destruct (w_ctxs w c) as [[[p|] fl]|] eqn:C; try discriminate. cbn [fst c_pctx] in M. rewrite macs_ctx, macs_cleanup in M. destruct p as [k q]. cbn in HH. subst q. rewrite Z.eqb_refl in M. contradiction.
  - assert (HN : handle_of w (touches o) <> Some h) by (intros Q; rewrite Q in HT; cbn in HT; rewrite Z.eqb_refl in HT; discriminate).
    destruct (step_macs L b o w h K HN) as [S|(c0 & k & m & Eo & _ & Q & _)]; [|eauto].
    rewrite S in M. destruct (O h M) as (c & Q). exists c. apply OTH; [|exact Q]. intros ->. contradiction.
  - assert (HN : handle_of w (touches o) <> Some h) by (intros Q; rewrite Q in HT; discriminate).
    destruct (step_macs L b o w h K HN) as [S|(c0 & k & m & Eo & _ & Q & _)]; [|eauto].
    rewrite S in M. destruct (O h M) as (c & Q). exists c. apply OTH; [|exact Q]. intros ->. contradiction.
Qed.
Lemma owned_run L b l : forall w, apart w -> unshared L b l w -> once L b l w -> owned w -> owned (fst (run L b l w)).
Proof.
  induction l as [|o l IH]; intros w A U O W; [exact W|]. destruct U as (U1 & U2), O as (O1 & O2). assert (K : calm w o) by exact U1.
  pose proof (owned_step L b o w A K O1 W) as W'. pose proof (apart_step L b o w A K (calm_fresh w o K)) as A'.
  cbn [run]. destruct (step L b o w) as (w1, a). cbn [fst] in *. specialize (IH w1 A' U2 O2 W'). destruct (run L b l w1) as (w2, r). exact IH.
Qed.
Lemma nothing_left L b l : unshared L b l start -> once L b l start -> all_freed (fst (run L b l start)) -> forall h, w_macs (fst (run L b l start)) h = None.
Proof.
  intros U O AF h. destruct (start_ok 0) as (A & _). assert (W : owned start) by (intros x Q; exfalso; apply Q; reflexivity).
  pose proof (owned_run L b l start A U O W h) as R. destruct (w_macs (fst (run L b l start)) h); [|reflexivity].
  destruct R as (c & Q); [discriminate|]. unfold handle_of in Q. rewrite AF in Q. discriminate.
Qed.

(** ** What goes wrong *)
Definition toy_lib : lib := MkLib (fun d l => l) (fun k l => k ++ l).
Definition toy_key (k : Z) : list Z := [k].
(** The first context was read and is freed while the second is at work; a third begins. *)
Definition crossed : list op :=
  [New 0; New 1; New 2; Init 0 7 MdNone 5 true; Update 0 [1] true; Final 0 16 true [];
   Init 1 8 MdNone 5 true; Free 0; Init 2 9 MdNone 5 true; Update 1 [2] true; Update 2 [3] true].
Lemma crossed_wrong : let '(w, events) := run toy_lib toy_key crossed start in
  Forall (fun e => snd e = Fine \/ exists t, snd e = Tag t) events /\
  heard 1 events = MkKnown (Some 8) (Some (MdNone, [2])) /\ heard 2 events = MkKnown (Some 9) (Some (MdNone, [3])) /\
  snd (step toy_lib toy_key (Final 1 16 true []) w) = Tag (mac_of toy_lib toy_key 9 MdNone [2; 3]) /\
  snd (step toy_lib toy_key (Final 2 16 true []) w) = Tag (mac_of toy_lib toy_key 9 MdNone [2; 3]).
Proof.
  vm_compute. split; [repeat constructor; eauto; right; eexists; reflexivity|]. repeat split.
Qed.
(** A copy shares the MAC. *)
Definition copied : list op := [New 0; New 1; Init 0 7 MdNone 5 true; Update 0 [1] true; Copy 0 1; Update 1 [2] true].
Lemma copied_wrong : let '(w, events) := run toy_lib toy_key copied start in
  Forall (fun e => snd e = Fine) events /\ heard 0 events = MkKnown (Some 7) (Some (MdNone, [1])) /\
  snd (step toy_lib toy_key (Final 0 16 true []) w) = Tag (mac_of toy_lib toy_key 7 MdNone [1; 2]) /\
  snd (step toy_lib toy_key (Final 1 16 true []) (fst (step toy_lib toy_key (Final 0 16 true []) w))) = Refused.
Proof. vm_compute. split; [repeat constructor|]. repeat split. Qed.
(** The value can be read once, and no more data be given after it. *)
Lemma read_once L b w c room junk : snd (step L b (Final c room true junk) w) <> Misuse ->
  (forall l ok, snd (step L b (Update c l ok) (fst (step L b (Final c room true junk) w))) <> Fine) \/ snd (step L b (Final c room true junk) w) = Refused.
Proof.
  intros NM. cbn [step] in *. destruct (w_ctxs w c) as [[[p|] fl]|] eqn:C; try (exfalso; apply NM; reflexivity).
  pose proof (ctxs_compute L b w (p_mac p) room true junk c) as CC. unfold compute in *.
  destruct (p_mac p) as [h|] eqn:H; [|right; destruct fl; reflexivity]. destruct (w_macs w h) as [m|] eqn:M; [|right; destruct fl; reflexivity].
  destruct (m_done m) eqn:D; [right; destruct fl; reflexivity|]. destruct (room <? size_of (m_alg m)); [right; destruct fl; reflexivity|].
  left. intros l ok. destruct fl; cbn [fst] in CC |- *; cbn [step]; rewrite ?ctxs_cleanup, CC, C; unfold process; rewrite H.
  - rewrite mac_set, Z.eqb_refl. cbn. discriminate.
  - unfold cleanup, release. rewrite H. rewrite mac_set, Z.eqb_refl. discriminate.
Qed.
(** Initialised again, the first MAC stays for good. *)
Definition again : list op := [New 0; Init 0 7 MdNone 5 true; Init 0 7 MdNone 6 true; Free 0].
Lemma again_left L b : let '(w, events) := run L b again start in
  Forall (fun e => snd e = Fine) events /\ all_freed w /\ w_macs w 5 <> None.
Proof. cbn. split; [repeat constructor|]. split; [intros [|c]; reflexivity|discriminate]. Qed.
Lemma init_accepted L b w c key m h : w_ctxs w c <> None -> m <> MdOther -> w_macs w h = None -> snd (step L b (Init c key m h true) w) = Fine.
Proof.
  intros C N M. cbn [step]. destruct (w_ctxs w c) as [x|]; [|contradiction]. rewrite M. destruct m; [reflexivity|reflexivity|contradiction].
Qed.
Lemma other_digests_refused L b w c key h ok : snd (step L b (Init c key MdOther h ok) w) <> Fine.
Proof. cbn [step]. destruct (w_ctxs w c); discriminate. Qed.
