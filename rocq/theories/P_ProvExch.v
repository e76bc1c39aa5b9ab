From Verif Require Import Base M_ProvExch S_ProvExch.

Definition as_told (x : ctx) (q : told) : Prop :=
  c_peer x = q_peer q /\ c_key x = match q_key q with Some (h, g, _) => Some (g, h) | None => None end.
Record Inv (k : knows) (w : world) : Prop := MkInv {
  i_ctx : forall c, match w_ctx w c, s_ctx k c with Some x, Some q => as_told x q | None, None => True | _, _ => False end;
  i_key : forall h, match w_keys w h with Some (Private g x) => s_key k h = Some (g, x) | _ => s_key k h = None end;
  i_held : forall c q h g x, s_ctx k c = Some q -> q_key q = Some (h, g, x) -> w_keys w h = Some (Private g x) \/ w_keys w h = None }.
Lemma inv_start : Inv nothing start.
Proof. split; cbn; auto; discriminate. Qed.
Lemma inv_set_key k w h s : Inv k w -> (s = None \/ handle_new k h) -> Inv (key k h (match s with Some (Private g x) => Some (g, x) | _ => None end)) (set_key w h s).
Proof.
  intros [C K H] N. split; cbn.
  - exact C.
  - intros y. destruct (Z.eqb_spec y h) as [->|]; [destruct s as [[g x|v]|]; reflexivity|apply K].
  - intros c q y g x Q E. destruct (Z.eqb_spec y h) as [->|]; [|eapply H; eauto]. destruct N as [->|N]; [auto|]. exfalso. exact (N c q g x Q E).
Qed.
Lemma inv_say k w c x q : Inv k w -> as_told x q -> (forall h g y, q_key q = Some (h, g, y) -> w_keys w h = Some (Private g y) \/ w_keys w h = None) ->
  Inv (say k c (Some q)) (set_ctx w c (Some x)).
Proof.
  intros [C K H] A N. split; cbn.
  - intros d. destruct (Nat.eqb_spec d c); [exact A|apply C].
  - exact K.
  - intros d q' h g y. destruct (Nat.eqb_spec d c); [intros [= <-]; apply N|apply H].
Qed.
Lemma inv_drop k w c : Inv k w -> Inv (say k c None) (set_ctx w c None).
Proof.
  intros [C K H]. split; cbn.
  - intros d. destruct (Nat.eqb_spec d c); [exact Logic.I|apply C].
  - exact K.
  - intros d q h g y. destruct (Nat.eqb_spec d c); [discriminate|apply H].
Qed.
Lemma ctx_told k w c x : Inv k w -> w_ctx w c = Some x -> exists q, s_ctx k c = Some q /\ as_told x q.
Proof. intros I E. pose proof (i_ctx _ _ I c) as C. rewrite E in C. destruct (s_ctx k c); [eauto|contradiction]. Qed.
Lemma exchange_spec L w a h g p ok h' :
  (exists r, exchange L w a h g p ok h' = (w, r) /\ (r = Refused \/ r = Misuse)) \/
  exists g' x, exchange L w a h g p ok h' = (set_key w h' (Some (Shared (l_agree L g' x p))), Secret h') /\ w_keys w h = Some (Private g' x) /\ w_keys w h' = None /\
    ok = true /\ algorithm_fits a (g_kind g') = true /\ group_eqb g' g = true.
Proof.
  unfold exchange. destruct (w_keys w h) as [[g' x|v]|]; [|left; eauto..]. destruct (ok && algorithm_fits a (g_kind g') && group_eqb g' g) eqn:T; [|left; eauto].
  apply andb_prop in T. destruct T as [T T3]. apply andb_prop in T. destruct T as [T1 T2]. destruct (w_keys w h') eqn:F; [left; eauto|]. right. exists g', x. auto 8.
Qed.
Lemma key_none k w h : Inv k w -> w_keys w h = None -> forall y, s_key (key k h None) y = s_key k y.
Proof. intros I F y. cbn. destruct (Z.eqb_spec y h) as [->|]; [|reflexivity]. pose proof (i_key _ _ I h) as E. rewrite F in E. congruence. Qed.
Lemma inv_ext k k' w : (forall c, s_ctx k c = s_ctx k' c) -> (forall h, s_key k h = s_key k' h) -> Inv k w -> Inv k' w.
Proof. intros E F [C K H]. split; intros; rewrite <- ?E, <- ?F in *; eauto. - apply C. - specialize (K h). destruct (w_keys w h) as [[? ?|?]|]; congruence. Qed.
Lemma step_inv L k o w : Inv k w ->
  match (o, snd (step L o w)) with (Make h _ _, Fine) | (_, Secret h) => handle_new k h | _ => True end ->
  Inv (hear k (o, snd (step L o w))) (fst (step L o w)).
Proof.
  intros I N. destruct o as [h g x|h|c|c h|c g p|c d ok|c|c room ok h|c]; cbn [step] in *.
  - destruct (w_keys w h) eqn:F; [exact I|]. exact (inv_set_key k w h (Some (Private g x)) I (or_intror N)).
  - destruct (w_keys w h) eqn:F; [|exact I]. exact (inv_set_key k w h None I (or_introl eq_refl)).
  - destruct (w_ctx w c) eqn:F; [exact I|]. cbn. apply inv_say; auto; [split; reflexivity|discriminate].
  - destruct (w_ctx w c) as [x|] eqn:F; [|exact I]. destruct (ctx_told _ _ _ _ I F) as (q & Q & A1 & A2).
    destruct (w_keys w h) as [[g y|v]|] eqn:K; [|exact I..]. cbn. rewrite Q. pose proof (i_key _ _ I h) as E. rewrite K in E. rewrite E.
    apply inv_say; auto; [split; cbn; auto|]. cbn. intros h' g' y' [= <- <- <-]. auto.
  - destruct (w_ctx w c) as [x|] eqn:F; [|exact I]. destruct (ctx_told _ _ _ _ I F) as (q & Q & A1 & A2). cbn. rewrite Q.
    apply inv_say; auto; [split; cbn; auto|]. cbn. intros h' g' y'. apply (i_held _ _ I _ _ _ _ _ Q).
  - destruct (w_ctx w c) as [x|] eqn:F; [|exact I]. destruct (ctx_told _ _ _ _ I F) as (q & Q & A1 & A2). destruct (w_ctx w d) eqn:G; [exact I|].
    destruct ok; cbn [negb]; [|exact I]. destruct (c_key x) as [kx|] eqn:KX; [|exact I]. destruct (c_peer x) as [px|] eqn:PX; [|exact I]. cbn. rewrite Q.
    apply inv_say; auto; [split; cbn; congruence|]. intros h' g' y'. apply (i_held _ _ I _ _ _ _ _ Q).
  - destruct (w_ctx w c); exact I.
  - destruct (w_ctx w c) as [x|] eqn:F; [|exact I]. destruct (room <? 8); [exact I|]. destruct (c_key x) as [[g h0]|]; [|exact I]. destruct (algorithm (g_kind g)) as [a|]; [|exact I].
    destruct (c_peer x) as [[g' p]|]; [|exact I]. destruct (exchange_spec L w a h0 g' p ok h) as [(r & E & R)|(g1 & x1 & E & _ & FR & _)]; rewrite E in *; cbn [fst snd] in *.
    + destruct R as [-> | ->]; exact I.
    + apply (inv_ext (key k h None)); [reflexivity|exact (key_none _ _ _ I FR)|]. exact (inv_set_key k w h (Some (Shared (l_agree L g1 x1 p))) I (or_intror N)).
  - destruct (w_ctx w c); [|exact I]. apply inv_drop, I.
Qed.
Lemma run_inv L l : forall k w, Inv k w -> handles_new (snd (run L l w)) k -> Inv (fold_left hear (snd (run L l w)) k) (fst (run L l w)).
Proof.
  induction l as [|o l IH]; intros k w I; [cbn; auto|]. cbn [run]. pose proof (step_inv L k o w I) as S. destruct (step L o w) as [w1 a]. cbn [fst snd] in S.
  destruct (crashed a) eqn:C; [cbn; intros [N _]; exact (S N)|]. specialize (IH (hear k (o, a)) w1). destruct (run L l w1) as [w2 r]. cbn in IH |- *. intros [N M]. auto.
Qed.
Lemma group_eq a b : group_eqb a b = true <-> a = b.
Proof.
  destruct a as [ka ia], b as [kb ib]. unfold group_eqb. cbn. split.
  - intros H. apply andb_prop in H. destruct H as [H1 H2]. apply Z.eqb_eq in H2. subst ib. destruct ka, kb; try discriminate; reflexivity.
  - intros [= -> ->]. rewrite Z.eqb_refl. destruct kb; reflexivity.
Qed.
Lemma algorithm_exchanges k a : algorithm k = Some a -> exchanges k.
Proof. unfold exchanges. destruct k; cbn; try discriminate; split; discriminate. Qed.
Lemma exchanges_algorithm k : exchanges k -> exists a, algorithm k = Some a /\ algorithm_fits a k = true.
Proof. unfold exchanges, algorithm_fits. destruct k; cbn; intros [A B]; try congruence; eauto. Qed.

Section Reached.
Context (L : lib) (l : list op).
Let w := fst (run L l start).
Let k := heard (snd (run L l start)).
Context (N : handles_new (snd (run L l start)) nothing).
Let I : Inv k w := run_inv L l nothing start inv_start N.
Lemma derive_step c q h g x g' p room ok h' : s_ctx k c = Some q -> q_key q = Some (h, g, x) -> q_peer q = Some (g', p) ->
  step L (Derive c room ok h') w = if room <? 8 then (w, Refused) else match algorithm (g_kind g) with Some a => exchange L w a h g' p ok h' | None => (w, Refused) end.
Proof.
  intros Q K P. pose proof (i_ctx _ _ I c) as C. rewrite Q in C. destruct (w_ctx w c) as [y|] eqn:F; [|contradiction]. destruct C as [C1 C2]. cbn [step]. rewrite F, C1, C2, K, P.
  destruct (room <? 8); [reflexivity|]. destruct (algorithm (g_kind g)); reflexivity.
Qed.
Theorem value c q h g x g' p room ok h' : s_ctx k c = Some q -> q_key q = Some (h, g, x) -> q_peer q = Some (g', p) ->
  let '(w', a) := step L (Derive c room ok h') w in
  (a = Secret h' -> 8 <= room /\ exchanges (g_kind g) /\ g = g' /\ w_keys w' h' = Some (Shared (l_agree L g x p)) /\ forall y, y <> h' -> w_keys w' y = w_keys w y) /\
  (a <> Secret h' -> w' = w /\ a <> Crash).
Proof.
  intros Q K P. rewrite (derive_step c q h g x g' p room ok h' Q K P). destruct (Z.ltb_spec room 8); [split; [discriminate|split; [reflexivity|discriminate]]|].
  destruct (algorithm (g_kind g)) as [a|] eqn:A; [|split; [discriminate|split; [reflexivity|discriminate]]].
  destruct (exchange_spec L w a h g' p ok h') as [(r & E & R)|(g1 & x1 & E & KE & _ & _ & _ & G)]; rewrite E.
  - split; [destruct R; subst; discriminate|]. intros _. split; [reflexivity|]. destruct R; subst; discriminate.
  - destruct (i_held _ _ I c q h g x Q K) as [H1|H1]; [|congruence]. rewrite H1 in KE. injection KE as <- <-. apply group_eq in G. split; [|contradiction]. intros _.
    split; [assumption|]. split; [exact (algorithm_exchanges _ _ A)|]. split; [exact G|]. cbn. rewrite Z.eqb_refl. split; [reflexivity|]. intros y NE. rewrite (proj2 (Z.eqb_neq y h') NE). reflexivity.
Qed.
Theorem given c q h g x p room h' : s_ctx k c = Some q -> q_key q = Some (h, g, x) -> q_peer q = Some (g, p) -> exchanges (g_kind g) -> 8 <= room ->
  s_key k h <> None -> w_keys w h' = None -> snd (step L (Derive c room true h') w) = Secret h'.
Proof.
  intros Q K P X R S F. rewrite (derive_step c q h g x g p room true h' Q K P). destruct (Z.ltb_spec room 8); [lia|]. destruct (exchanges_algorithm _ X) as (a & A & AF). rewrite A.
  unfold exchange. destruct (i_held _ _ I c q h g x Q K) as [E|E].
  - rewrite E, AF, (proj2 (group_eq g g) eq_refl). cbn. rewrite F. reflexivity.
  - exfalso. apply S. pose proof (i_key _ _ I h) as H1. rewrite E in H1. exact H1.
Qed.
Theorem agree c d p q h1 h2 g x y room ok h room' ok' h' w1 w2 : commutes L -> s_ctx k c = Some p -> s_ctx k d = Some q ->
  q_key p = Some (h1, g, x) -> q_peer p = Some (g, l_pub L g y) -> q_key q = Some (h2, g, y) -> q_peer q = Some (g, l_pub L g x) ->
  step L (Derive c room ok h) w = (w1, Secret h) -> step L (Derive d room' ok' h') w1 = (w2, Secret h') ->
  exists v, w_keys w2 h = Some (Shared v) /\ w_keys w2 h' = Some (Shared v).
Proof.
  intros CM C D KC PC KD PD S1 S2. exists (l_agree L g x (l_pub L g y)).
  pose proof (value c p h1 g x g (l_pub L g y) room ok h C KC PC) as V. rewrite S1 in V. destruct V as [V _]. destruct (V eq_refl) as (_ & _ & _ & V1 & V2).
  assert (W1 : w_ctx w1 = w_ctx w).
  { rewrite (derive_step c p h1 g x g _ room ok h C KC PC) in S1. destruct (room <? 8); [congruence|]. destruct (algorithm (g_kind g)) as [a|]; [|congruence].
    destruct (exchange_spec L w a h1 g (l_pub L g y) ok h) as [(r & E & R)|(g1 & x1 & E & _)]; rewrite E in S1; [destruct R; congruence|]. injection S1 as <-. reflexivity. }
  assert (NH : w_keys w h = None).
  { rewrite (derive_step c p h1 g x g _ room ok h C KC PC) in S1. destruct (room <? 8); [congruence|]. destruct (algorithm (g_kind g)) as [a|]; [|congruence].
    destruct (exchange_spec L w a h1 g (l_pub L g y) ok h) as [(r & E & R)|(g1 & x1 & _ & _ & E & _)]; [rewrite E in S1; destruct R; congruence|exact E]. }
  pose proof (i_ctx _ _ I d) as CD. rewrite D in CD. destruct (w_ctx w d) as [xd|] eqn:F; [|contradiction]. destruct CD as [D1 D2]. cbn [step] in S2. rewrite W1, F, D1, D2, KD, PD in S2.
  destruct (room' <? 8); [congruence|]. destruct (algorithm (g_kind g)) as [a|]; [|congruence].
  destruct (exchange_spec L w1 a h2 g (l_pub L g x) ok' h') as [(r & E & R)|(g1 & x1 & E & KE & FE & _)]; rewrite E in S2; [destruct R; congruence|]. injection S2 as <-.
  assert (KE' : g1 = g /\ x1 = y).
  { destruct (Z.eq_dec h2 h) as [->|NE]; [congruence|]. rewrite V2 in KE by exact NE. destruct (i_held _ _ I d q h2 g y D KD) as [H1|H1]; rewrite H1 in KE; [injection KE as <- <-; auto|discriminate]. }
  destruct KE' as [-> ->]. cbn. rewrite Z.eqb_refl, (CM g y x). destruct (Z.eqb_spec h h') as [->|NE]; [congruence|]. split; [exact V1|reflexivity].
Qed.
Theorem no_crash c q : s_ctx k c = Some q -> q_key q <> None -> q_peer q <> None ->
  (forall room ok h, snd (step L (Derive c room ok h) w) <> Crash) /\ (forall d ok, snd (step L (Dup c d ok) w) <> Crash) /\ snd (step L (Size c) w) = Told 8.
Proof.
  intros Q K P. pose proof (i_ctx _ _ I c) as C. rewrite Q in C. destruct (w_ctx w c) as [x|] eqn:F; [|contradiction]. destruct C as [C1 C2].
  destruct (q_key q) as [[[h g] y]|] eqn:KQ; [|contradiction]. destruct (q_peer q) as [[g' p]|] eqn:PQ; [|contradiction]. split; [|split].
  - intros room ok h'. pose proof (value c q h g y g' p room ok h' Q KQ PQ) as V. destruct (step L (Derive c room ok h') w) as [w' a]. destruct V as [_ V]. cbn. intros ->. destruct V; [discriminate|contradiction].
  - intros d ok. cbn [step]. rewrite F, C1, C2. destruct (w_ctx w d); [discriminate|]. destruct ok; discriminate.
  - cbn [step]. rewrite F. reflexivity.
Qed.
End Reached.
Theorem refused_keeps : forall L o w, snd (step L o w) = Refused -> fst (step L o w) = w.
Proof.
  intros L o w. destruct o as [h g x|h|c|c h|c g p|c d ok|c|c room ok h|c]; cbn [step].
  - destruct (w_keys w h); [reflexivity|discriminate].
  - destruct (w_keys w h); [discriminate|reflexivity].
  - destruct (w_ctx w c); [reflexivity|discriminate].
  - destruct (w_ctx w c); [|reflexivity]. destruct (w_keys w h) as [[? ?|?]|]; [discriminate|reflexivity..].
  - destruct (w_ctx w c); [discriminate|reflexivity].
  - destruct (w_ctx w c) as [x|]; [|reflexivity]. destruct (w_ctx w d); [reflexivity|]. destruct ok; cbn [negb]; [|reflexivity]. destruct (c_key x), (c_peer x); try reflexivity; discriminate.
  - destruct (w_ctx w c); reflexivity.
  - destruct (w_ctx w c) as [x|]; [|reflexivity]. destruct (room <? 8); [reflexivity|]. destruct (c_key x) as [[g h0]|]; [|reflexivity]. destruct (algorithm (g_kind g)) as [a|]; [|reflexivity].
    destruct (c_peer x) as [[g' p]|]; [|reflexivity]. destruct (exchange_spec L w a h0 g' p ok h) as [(r & E & R)|(g1 & x1 & E & _)]; rewrite E; [reflexivity|discriminate].
  - destruct (w_ctx w c); [discriminate|reflexivity].
Qed.
Theorem both_right : handles_new (snd (run toy both start)) nothing /\ commutes toy /\
  s_ctx (heard (snd (run toy both start))) 2%nat = Some (Say (Some (1, P256, 5)) (Some (P256, 21))) /\
  (let '(w, a) := step toy (Derive 2 8 true 3) (fst (run toy both start)) in a = Secret 3 /\ w_keys w 3 = Some (Shared 105) /\
   let '(w, a) := step toy (Derive 1 8 true 4) w in a = Secret 4 /\ w_keys w 4 = Some (Shared 105)).
Proof.
  assert (E : snd (run toy both start) = combine both [Fine; Fine; Fine; Fine; Fine; Fine; Fine; Fine; Fine]) by (vm_compute; reflexivity).
  split; [|split; [intros g x y; cbn; lia|vm_compute; repeat split; reflexivity]].
  rewrite E. cbn. unfold handle_new. cbn. repeat split; try exact Logic.I; intros; discriminate.
Qed.
Theorem empty_wrong : Forall (fun e => snd e = Fine) (snd (run toy no_peer start)) /\ snd (step toy (Derive 0 8 true 2) (fst (run toy no_peer start))) = Crash /\
  snd (step toy (Dup 0 1 true) (fst (run toy no_peer start))) = Crash /\
  Forall (fun e => snd e = Fine) (snd (run toy no_key start)) /\ snd (step toy (Derive 0 8 true 2) (fst (run toy no_key start))) = Crash.
Proof. vm_compute. repeat split; repeat constructor. Qed.
Theorem again_wrong : exists q, s_ctx (heard (snd (run toy again start))) 0%nat = Some q /\ q_key q = Some (1, P256, 5) /\ q_peer q = Some (P256, 21) /\
  let '(w, a) := step toy (Derive 0 8 true 2) (fst (run toy again start)) in a = Secret 2 /\ w_keys w 2 = Some (Shared (l_agree toy P256 9 21)) /\ l_agree toy P256 9 21 <> l_agree toy P256 5 21.
Proof. exists (Say (Some (1, P256, 5)) (Some (P256, 21))). vm_compute. repeat split; try reflexivity; discriminate. Qed.
