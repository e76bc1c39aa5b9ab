(** Memory safety of the whole system: freeing. *)
From Verif Require Import Base M_Slots M_ObjectStore S_ObjectStore P_ObjectStore M_Rights S_Rights P_Rights M_Svp M_Prog
  M_ApiKey M_ApiCipher M_ApiMac M_ApiSvp M_Api S_Api M_World S_World P_Prog P_ApiGuard P_ApiAccount P_Api P_Birth P_WorldReach P_WorldBirth
  S_Safe P_Accounts.

Definition alive (w : world) (p : Z) : Prop := exists o, w_heap w p = Some o.
(** The same but for the heap. *)
Definition beside_heap (w w' : world) : Prop :=
  w_stores w' = w_stores w /\ w_next w' = w_next w /\ w_mutex w' = w_mutex w.
Definition without (w w' : world) (l : list Z) : Prop :=
  (forall p, In p l -> w_heap w' p = None) /\ (forall p, ~ In p l -> w_heap w' p = w_heap w p).
Lemma free_all_ok l : forall w, NoDup l -> (forall p, In p l -> alive w p /\ locked w p = false) ->
  exists w', free_all w l = Some w' /\ beside_heap w w' /\ without w w' l.
Proof.
  induction l as [|p l IH]; intros w D H; cbn [free_all].
  - exists w. repeat split; auto. intros p [].
  - inversion D as [|? ? N D']; subst. destruct (H p (or_introl eq_refl)) as [[o Eo] El]. rewrite Eo, El.
    destruct (IH (set_heap w p None) D') as (w'&E&(B1&B2&B3)&W1&W2).
    { intros q Hq. destruct (H q (or_intror Hq)) as [[o' Eo'] El']. split; [|exact El']. exists o'. cbn.
      destruct (q =? p) eqn:Eq; [apply Z.eqb_eq in Eq; congruence|exact Eo']. }
    exists w'. split; [exact E|]. split; [now repeat split|]. split.
    + intros q [<-|Hq]; [|now apply W1]. rewrite W2 by exact N. cbn. now rewrite Z.eqb_refl.
    + intros q Hq. rewrite W2 by (intros Hin; apply Hq; now right). cbn.
      destruct (q =? p) eqn:Eq; [apply Z.eqb_eq in Eq; subst; exfalso; apply Hq; now left|reflexivity].
Qed.
Definition block (w : world) (q : Z) : list Z :=
  q :: match w_heap w q with Some o => children o | None => [] end.
Lemma destroy_ok w q : NoDup (block w q) -> (forall p, In p (block w q) -> alive w p /\ locked w p = false) ->
  exists w', destroy w q = Some w' /\ beside_heap w w' /\ without w w' (block w q).
Proof.
  intros D H. unfold destroy, block in *. destruct (H q (or_introl eq_refl)) as [[o Eo] _]. rewrite Eo in *.
  now apply free_all_ok.
Qed.
Lemma NoDup_app_parts {A} (l m : list A) : NoDup (l ++ m) -> NoDup l /\ NoDup m /\ forall x, In x l -> ~ In x m.
Proof.
  induction l as [|a l IH]; cbn; intros D; [repeat split; auto; constructor|].
  inversion D as [|? ? N D']; subst. destruct (IH D') as (D1&D2&D3). repeat split; auto.
  - constructor; [|exact D1]. intros H. apply N, in_or_app. now left.
  - intros x [<-|Hx]; [intros Hm; apply N, in_or_app; now right|now apply D3].
Qed.
Lemma destroy_all_ok l : forall w, NoDup (flat_map (block w) l) ->
  (forall p, In p (flat_map (block w) l) -> alive w p /\ locked w p = false) ->
  exists w', destroy_all w l = Some w' /\ beside_heap w w' /\ without w w' (flat_map (block w) l).
Proof.
  induction l as [|q l IH]; intros w D H; cbn [destroy_all flat_map].
  - exists w. repeat split; auto. intros p [].
  - cbn [flat_map] in D, H. apply NoDup_app_parts in D as (D1&D2&D3).
    destruct (destroy_ok w q D1) as (w1&E1&(B1&B2&B3)&W1&W2).
    { intros p Hp. apply H, in_or_app. now left. }
    rewrite E1. assert (flat_map (block w1) l = flat_map (block w) l) as Eb.
    { rewrite !flat_map_concat_map. f_equal. apply map_ext_in. intros a Ha. unfold block. rewrite W2; [reflexivity|].
      intros Hin. apply (D3 a Hin). apply in_flat_map. exists a. split; [exact Ha|now left]. }
    destruct (IH w1) as (w2&E2&(C1&C2&C3)&X1&X2).
    { now rewrite Eb. }
    { rewrite Eb. intros p Hp. destruct (H p) as [[o Ho] L]; [apply in_or_app; now right|]. split.
      - exists o. rewrite W2; [exact Ho|]. intros Hin. exact (D3 p Hin Hp).
      - unfold locked in *. now rewrite B3. }
    rewrite Eb in X1, X2. exists w2. split; [exact E2|]. split; [repeat split; congruence|]. split.
    + intros p Hp. apply in_app_or in Hp as [Hp|Hp]; [|now apply X1]. rewrite X2; [now apply W1|]. now apply D3.
    + intros p Hp. rewrite X2 by (intros Hin; apply Hp, in_or_app; now right).
      apply W2. intros Hin. apply Hp, in_or_app. now left.
Qed.
Lemma NoDup_flat_map {A B} (f : A -> list B) l : (forall i a, nth_error l i = Some a -> NoDup (f a)) ->
  (forall i j a b x, nth_error l i = Some a -> nth_error l j = Some b -> In x (f a) -> In x (f b) -> i = j) ->
  NoDup (flat_map f l).
Proof.
  induction l as [|a l IH]; cbn [flat_map]; intros H1 H2; [constructor|].
  assert (NoDup (flat_map f l)) as D.
  { apply IH; [intros i b Hb; apply (H1 (S i) b Hb)|].
    intros i j b c x Hb Hc Hx Hy. now injection (H2 (S i) (S j) b c x Hb Hc Hx Hy). }
  assert (forall x, In x (f a) -> ~ In x (flat_map f l)) as N.
  { intros x Hx Hin. apply in_flat_map in Hin as (b&Hb&Hin). apply In_nth_error in Hb as [j Hj].
    discriminate (H2 0%nat (S j) a b x eq_refl Hj Hx Hin). }
  pose proof (H1 0%nat a eq_refl) as Da. clear IH H1 H2. induction Da as [|x l0 Nx Da IH]; cbn; [exact D|].
  constructor.
  - intros Hin. apply in_app_or in Hin as [Hin|Hin]; [now apply Nx|]. apply (N x); [now left|exact Hin].
  - apply IH. intros y Hy. apply N. now right.
Qed.

(** ** The objects of a store *)
Lemma objects_in st x q u n : view st x = Some (q, u, n) -> In q (objects_of st).
Proof.
  intros V. pose proof (view_range _ _ _ V) as Hr. rewrite view_in in V by exact Hr.
  destruct (e_object (get_entry st x)) as [q'|] eqn:E; [|discriminate]. injection V as -> _ _.
  unfold objects_of. apply in_flat_map. exists (get_entry st x). split; [|rewrite E; now left].
  unfold get_entry in *. destruct (Nat.lt_ge_cases (Z.to_nat x) (length (st_objects st))) as [L|L]; [now apply nth_In|].
  rewrite nth_overflow in E by exact L. discriminate.
Qed.
Lemma nth_view st j e q : store_wf st -> nth_error (st_objects st) j = Some e -> e_object e = Some q ->
  view st (Z.of_nat j) = Some (q, e_owner e, e_refs e).
Proof.
  intros W Hj Hq. assert (j < length (st_objects st))%nat as L by (apply nth_error_Some; congruence).
  rewrite view_in by (rewrite (wf_len _ W); lia). unfold get_entry. rewrite Nat2Z.id.
  rewrite (nth_error_nth _ _ empty_entry Hj). now rewrite Hq.
Qed.
Lemma in_objects st q : store_wf st -> In q (objects_of st) -> exists x u n, view st x = Some (q, u, n).
Proof.
  intros W H. unfold objects_of in H. apply in_flat_map in H as (e&He&H). apply In_nth_error in He as [j Hj].
  destruct (e_object e) as [q'|] eqn:E; [|destruct H]. destruct H as [->|[]].
  exists (Z.of_nat j), (e_owner e), (e_refs e). now apply nth_view.
Qed.
Lemma not_busy st : store_wf st -> (forall x q u n, view st x = Some (q, u, n) -> n = 0) -> busy st = false.
Proof.
  intros W H. destruct (busy st) eqn:B; [|reflexivity]. exfalso.
  unfold busy in B. apply existsb_exists in B as (e&He&B). apply In_nth_error in He as [j Hj].
  assert (j < length (st_objects st))%nat as L by (apply nth_error_Some; congruence).
  destruct (e_object e) as [q|] eqn:E.
  - rewrite (H _ _ _ _ (nth_view _ _ _ _ W Hj E)) in B. discriminate.
  - assert (get_entry st (Z.of_nat j) = e) as G.
    { unfold get_entry. rewrite Nat2Z.id. now apply nth_error_nth. }
    pose proof (wf_empty _ W (Z.of_nat j) ltac:(rewrite (wf_len _ W); lia)) as Hn.
    rewrite G in Hn. rewrite (Hn E) in B. discriminate.
Qed.

(** ** Shutting down stores *)
Definition stands (w : world) (s : sid) (x q : Z) : Prop := exists u n, handle w s x = Some (q, u, n).
Lemma belongs_stands w s x p : belongs w s x p <-> exists q o, stands w s x q /\ w_heap w q = Some o /\ In p (q :: children o).
Proof.
  split.
  - intros (q&u&n&o&H1&H2&H3). exists q, o. split; [now exists u, n|auto].
  - intros (q&o&(u&n&H1)&H2&H3). now exists q, u, n, o.
Qed.
Lemma stands_fun w s x q q' : stands w s x q -> stands w s x q' -> q = q'.
Proof. intros (u&n&E) (u'&n'&E'). congruence. Qed.
Record closable (w : world) (l : list sid) : Prop := MkClosable {
  cl_there : forall s, In s l -> w_stores w s <> None;
  cl_idle : forall s x q u n, In s l -> handle w s x = Some (q, u, n) -> n = 0;
  cl_live : forall s x q, In s l -> stands w s x q -> alive w q;
  cl_part : forall s x p, In s l -> belongs w s x p -> alive w p /\ locked w p = false;
  cl_distinct : forall s x q o, In s l -> stands w s x q -> w_heap w q = Some o -> NoDup (q :: children o);
  cl_apart : forall s x s' x' p, In s l -> In s' l -> belongs w s x p -> belongs w s' x' p -> s = s' /\ x = x'
}.
Lemma block_belongs w s st x q : w_stores w s = Some st -> stands w s x q -> alive w q ->
  forall p, In p (block w q) <-> belongs w s x p.
Proof.
  intros Es St [o Eo] p. rewrite belongs_stands. unfold block. rewrite Eo. split.
  - intros H. now exists q, o.
  - intros (q'&o'&S'&E'&H). rewrite (stands_fun _ _ _ _ _ St S') in *. congruence.
Qed.
Lemma shut_one w s l : stores_good w -> closable w (s :: l) -> NoDup (s :: l) ->
  exists w1, shut_store w s = Some (Some w1) /\ w_next w1 = w_next w /\ w_mutex w1 = w_mutex w /\
    w_stores w1 s = None /\ (forall s', s' <> s -> w_stores w1 s' = w_stores w s') /\
    (forall p x, belongs w s x p -> w_heap w1 p = None) /\
    (forall p, (forall x, ~ belongs w s x p) -> w_heap w1 p = w_heap w p).
Proof.
  intros G [C1 C2 C3 C4 C5 C6] D. pose proof (or_introl eq_refl : In s (s :: l)) as Hs.
  destruct (w_stores w s) as [st|] eqn:Es; [|now destruct (C1 s Hs)].
  destruct (G _ _ Es) as (W&_&_).
  assert (forall x q u n, view st x = Some (q, u, n) -> handle w s x = Some (q, u, n)) as Hv.
  { intros. unfold handle. now rewrite Es. }
  unfold shut_store. rewrite Es, (not_busy st W) by (intros; eapply C2; eauto).
  assert (forall p, In p (flat_map (block w) (objects_of st)) <-> exists x, belongs w s x p) as Hb.
  { intros p. rewrite in_flat_map. split.
    - intros (q&Hq&Hp). apply in_objects in Hq as (x&u&n&V); [|exact W]. exists x.
      assert (stands w s x q) as St by (exists u, n; auto).
      eapply block_belongs; eauto.
    - intros (x&Hx). pose proof Hx as (q&u&n&o&H1&H2&H3). exists q. split.
      + unfold handle in H1. rewrite Es in H1. eapply objects_in; eauto.
      + unfold block. now rewrite H2. }
  destruct (destroy_all_ok (objects_of st) w) as (w1&E1&(B1&B2&B3)&W1&W2).
  { assert (flat_map (block w) (objects_of st) =
            flat_map (fun e => match e_object e with Some q => block w q | None => [] end) (st_objects st)) as ->.
    { unfold objects_of. clear. induction (st_objects st) as [|e es IH]; [reflexivity|].
      cbn [flat_map]. rewrite flat_map_app, IH. destruct (e_object e); cbn [flat_map]; now rewrite ?app_nil_r. }
    apply NoDup_flat_map.
    - intros j e Hj. destruct (e_object e) as [q|] eqn:Eq; [|constructor].
      assert (stands w s (Z.of_nat j) q) as St.
      { exists (e_owner e), (e_refs e). apply Hv. now apply nth_view. }
      unfold block. destruct (C3 _ _ _ Hs St) as [o Eo]. rewrite Eo. eauto.
    - intros j j' e e' p Hj Hj' Hp Hp'.
      destruct (e_object e) as [q|] eqn:Eq; [|destruct Hp]. destruct (e_object e') as [q'|] eqn:Eq'; [|destruct Hp'].
      assert (stands w s (Z.of_nat j) q) as St.
      { exists (e_owner e), (e_refs e). apply Hv. now apply nth_view. }
      assert (stands w s (Z.of_nat j') q') as St'.
      { exists (e_owner e'), (e_refs e'). apply Hv. now apply nth_view. }
      destruct (C6 s (Z.of_nat j) s (Z.of_nat j') p Hs Hs) as [_ E].
      + eapply block_belongs; eauto.
      + eapply block_belongs; eauto.
      + lia. }
  { intros p Hp. apply Hb in Hp as [x Hx]. eauto. }
  rewrite E1. exists (set_store w1 s None). split; [reflexivity|]. cbn [set_store w_next w_mutex w_stores w_heap].
  split; [exact B2|]. split; [exact B3|]. split.
  { unfold sid_eqb. now destruct (sid_dec s s). }
  split.
  { intros s' N. unfold sid_eqb. destruct (sid_dec s' s); [contradiction|]. now rewrite B1. }
  split.
  - intros p x Hx. apply W1, Hb. eauto.
  - intros p Hx. apply W2. rewrite Hb. intros [x H]. eapply Hx; eauto.
Qed.
Lemma good_fewer w w' : stores_good w -> (forall s, w_stores w' s = None \/ w_stores w' s = w_stores w s) -> stores_good w'.
Proof. intros G H s st E. destruct (H s) as [H1|H1]; rewrite H1 in E; [discriminate|eauto]. Qed.
Lemma shut_ok l : forall w, stores_good w -> closable w l -> NoDup l ->
  exists w', shut_stores w l = Some (Some w') /\ w_next w' = w_next w /\ w_mutex w' = w_mutex w /\
    (forall s, In s l -> w_stores w' s = None) /\ (forall s, ~ In s l -> w_stores w' s = w_stores w s) /\
    (forall p s x, In s l -> belongs w s x p -> w_heap w' p = None) /\
    (forall p, (forall s x, In s l -> ~ belongs w s x p) -> w_heap w' p = w_heap w p).
Proof.
  induction l as [|s l IH]; intros w G C D; cbn [shut_stores].
  - exists w. repeat split; auto; intros; contradiction.
  - destruct (shut_one w s l G C D) as (w1&E1&A1&A2&A3&A4&A5&A6). rewrite E1. destruct C as [C1 C2 C3 C4 C5 C6].
    inversion D as [|? ? Ns D']; subst.
    assert (forall s', In s' l -> s' <> s) as Ne by congruence.
    assert (forall s' x, In s' l -> handle w1 s' x = handle w s' x) as Eh.
    { intros s' x H. unfold handle. now rewrite A4 by auto. }
    assert (forall s' x q, In s' l -> stands w1 s' x q <-> stands w s' x q) as Est.
    { intros s' x q H. unfold stands. now rewrite Eh by exact H. }
    assert (forall s' x p, In s' l -> belongs w s' x p -> w_heap w1 p = w_heap w p) as Same.
    { intros s' x p H B. apply A6. intros y B'. destruct (C6 s' x s y p) as [E _]; cbn; auto. now apply Ne in H. }
    assert (forall s' x q, In s' l -> stands w s' x q -> w_heap w1 q = w_heap w q) as Same'.
    { intros s' x q H St. destruct (C3 s' x q) as [o Eo]; cbn; auto. apply (Same s' x q H). rewrite belongs_stands.
      exists q, o. split; [exact St|]. split; [exact Eo|now left]. }
    assert (forall s' x p, In s' l -> belongs w1 s' x p <-> belongs w s' x p) as Eb.
    { intros s' x p H. rewrite !belongs_stands. split; intros (q&o&S&Eo&Hp); exists q, o.
      - apply Est in S; [|exact H]. rewrite (Same' _ _ _ H S) in Eo. auto.
      - split; [now apply Est|]. rewrite (Same' _ _ _ H S). auto. }
    destruct (IH w1) as (w'&E&B1&B2&B3&B4&B5&B6).
    { apply (good_fewer w); [exact G|]. intros s'. destruct (sid_dec s' s) as [->|N]; [now left|right; auto]. }
    { constructor.
      - intros s' H. rewrite A4 by auto. apply C1. now right.
      - intros s' x q u n H. rewrite Eh by exact H. apply C2. now right.
      - intros s' x q H. rewrite Est by exact H. intros S. unfold alive. rewrite (Same' _ _ _ H S). apply (C3 s' x); [now right|exact S].
      - intros s' x p H. rewrite Eb by exact H. intros B. unfold alive, locked. rewrite (Same _ _ _ H B), A2.
        apply (C4 s' x); [now right|exact B].
      - intros s' x q o H. rewrite Est by exact H. intros S. rewrite (Same' _ _ _ H S). apply (C5 s' x); [now right|exact S].
      - intros s1 x1 s2 x2 p H1 H2. rewrite !Eb by assumption. apply C6; now right. }
    { exact D'. }
    rewrite E. exists w'. split; [reflexivity|]. split; [congruence|]. split; [congruence|]. split.
    { intros s' [<-|H]; [|now apply B3]. rewrite B4 by exact Ns. exact A3. }
    split.
    { intros s' H. rewrite B4 by (intros Hin; apply H; now right). apply A4. intros ->. apply H. now left. }
    split.
    + intros p s' x [<-|H] B.
      * rewrite B6; [eapply A5; eauto|]. intros s2 x2 H2 B'. apply Eb in B'; [|exact H2].
        destruct (C6 s2 x2 s x p) as [E2 _]; cbn; auto. now apply Ne in H2.
      * apply (B5 p s' x H). now apply Eb.
    + intros p H. rewrite B6; [apply A6; intros x; apply H; now left|].
      intros s' x Hs' B'. apply Eb in B'; [|exact Hs']. eapply H; [right; exact Hs'|exact B'].
Qed.
