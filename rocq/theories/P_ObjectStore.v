(** The object store refines the handle table of S_ObjectStore.v. *)
From Verif Require Import Base M_Slots P_Slots M_ObjectStore S_ObjectStore.

Definition view (st : store) (h : Z) : option (Z * uuid * Z) :=
  if (0 <=? h) && (h <? st_count st) then
    match e_object (get_entry st h) with
    | Some o => Some (o, e_owner (get_entry st h), e_refs (get_entry st h))
    | None => None
    end
  else None.

Record store_wf (st : store) : Prop := {
  wf_slots : slots_wf (st_slots st);
  wf_count : slot_count (st_slots st) = st_count st;
  wf_len : st_count st = Z.of_nat (length (st_objects st));
  wf_bits : forall k, 0 <= k < st_count st ->
      allocatedb (st_slots st) k =
      match e_object (get_entry st k) with Some _ => true | None => false end;
  wf_refs : forall k, 0 <= k < st_count st -> 0 <= e_refs (get_entry st k);
  wf_empty : forall k, 0 <= k < st_count st ->
      e_object (get_entry st k) = None -> e_refs (get_entry st k) = 0
}.

Definition R (st : store) (s : table * bool) : Prop :=
  store_wf st /\ snd s = st_shutting st /\ forall h, fst s h = view st h.

Lemma get_set_eq st k e : 0 <= k < Z.of_nat (length (st_objects st)) ->
  get_entry (set_entry st k e) k = e.
Proof. intros H. unfold get_entry, set_entry; cbn. apply nth_update_eq. lia. Qed.

Lemma get_set_neq st k j e : 0 <= k -> 0 <= j -> j <> k ->
  get_entry (set_entry st k e) j = get_entry st j.
Proof. intros H H2 H3. unfold get_entry, set_entry; cbn. apply nth_update_neq. lia. Qed.

Lemma get_set_slots st sl j : get_entry (set_slots st sl) j = get_entry st j.
Proof. reflexivity. Qed.

Lemma store_init_wf c st : 0 <= c < INVALID_HANDLE -> store_init c = Some st ->
  R st (empty_table, false) /\ st_count st = c.
Proof.
  intros Hc H. unfold store_init in H.
  destruct (c mod 32 =? 0) eqn:E; [|discriminate].
  destruct (slots_init c) as [sl|] eqn:E2; [|discriminate]. injection H as <-.
  destruct (slots_init_wf c sl Hc E2) as (H1 & H2 & H3).
  assert (forall k, get_entry (MkStore sl (repeat empty_entry (Z.to_nat c)) c false 0) k = empty_entry) as G.
  { intros k. unfold get_entry; cbn. apply nth_repeat. }
  split; [|reflexivity]. split; [|split; [reflexivity|]].
  - constructor; cbn [st_slots st_count st_objects]; intros; rewrite ?G, ?repeat_length, ?H3;
      try reflexivity; auto; cbn; lia.
  - intros h. unfold view. rewrite G. cbn. destruct ((0 <=? h) && (h <? c)); reflexivity.
Qed.

(** Updating one entry without touching the allocation bits. *)
Lemma wf_set_entry st k e : store_wf st -> 0 <= k < st_count st ->
  (e_object e = None <-> e_object (get_entry st k) = None) ->
  0 <= e_refs e -> (e_object e = None -> e_refs e = 0) -> store_wf (set_entry st k e).
Proof.
  intros [W1 W2 W3 W4 W5 W6] Hk Hn Hr He.
  assert (forall j, 0 <= j < st_count st ->
     get_entry (set_entry st k e) j = if j =? k then e else get_entry st j) as G.
  { intros j Hj. destruct (j =? k) eqn:E.
    - assert (j = k) by lia; subst j. apply get_set_eq. lia.
    - apply get_set_neq; lia. }
  constructor; cbn [set_entry st_slots st_count st_objects st_shutting st_releases] in *; auto.
  - rewrite update_length. exact W3.
  - intros j Hj. fold (set_entry st k e). rewrite G by exact Hj. rewrite W4 by exact Hj.
    destruct (j =? k) eqn:E; [|reflexivity]. assert (j = k) by lia; subst j.
    destruct (e_object e) eqn:E1, (e_object (get_entry st k)) eqn:E2; auto.
    + exfalso. intuition congruence.
    + exfalso. intuition congruence.
  - intros j Hj. fold (set_entry st k e). rewrite G by exact Hj. destruct (j =? k); auto.
  - intros j Hj. fold (set_entry st k e). rewrite G by exact Hj. destruct (j =? k); auto.
Qed.

Lemma view_set_entry st k e h : store_wf st -> 0 <= k < st_count st ->
  view (set_entry st k e) h =
  if h =? k then match e_object e with Some o => Some (o, e_owner e, e_refs e) | None => None end
  else view st h.
Proof.
  intros W Hk. pose proof (wf_len _ W) as Hl. unfold view. cbn [set_entry st_count].
  fold (set_entry st k e).
  destruct (h =? k) eqn:E.
  - assert (h = k) by lia; subst h. rewrite get_set_eq by lia.
    replace ((0 <=? k) && (k <? st_count st)) with true by lia. reflexivity.
  - destruct ((0 <=? h) && (h <? st_count st)) eqn:E2; [|reflexivity].
    rewrite get_set_neq by lia. reflexivity.
Qed.

Lemma view_range st h o : view st h = Some o -> 0 <= h < st_count st.
Proof. unfold view. destruct ((0 <=? h) && (h <? st_count st)) eqn:E; [lia|discriminate]. Qed.

Lemma view_in st h : 0 <= h < st_count st ->
  view st h = match e_object (get_entry st h) with
              | Some o => Some (o, e_owner (get_entry st h), e_refs (get_entry st h))
              | None => None end.
Proof. intros H. unfold view. replace ((0 <=? h) && (h <? st_count st)) with true by lia. reflexivity. Qed.

Lemma add_wf st o u st' s h : store_wf st -> store_add st o u = (st', s, h) ->
  st_shutting st' = st_shutting st /\ st_count st' = st_count st /\ st_releases st' = st_releases st /\
  ((st_shutting st = true /\ st' = st /\ s = INTERNAL_ERROR /\ h = INVALID_HANDLE) \/
   (st_shutting st = false /\ (forall k, 0 <= k < st_count st -> view st k <> None) /\
      st' = st /\ s = NO_AVAILABLE_RESOURCE_SLOT /\ h = INVALID_HANDLE) \/
   (st_shutting st = false /\ 0 <= h < st_count st /\ view st h = None /\ s = OK /\
    store_wf st' /\ forall k, view st' k = if k =? h then Some (o, u, 0) else view st k)).
Proof.
  intros W H. unfold store_add in H. pose proof W as [W1 W2 W3 W4 W5 W6].
  destruct (st_shutting st) eqn:Esh.
  { injection H as <- <- <-. split; [solve [auto]|]. split; [reflexivity|]. split; [reflexivity|]. left; auto. }
  destruct (slots_allocate (st_slots st)) as [sl r] eqn:Ea.
  destruct (slots_dec (st_slots st) W1) as [Hfree|Hfull].
  - destruct (slots_allocate_ok _ _ _ W1 Ea Hfree) as (Hr & Hf & Wsl & Hc & Hbits).
    unfold in_range in Hr. rewrite W2 in Hr.
    assert (r =? INVALID_HANDLE = false) as Er.
    { destruct W1 as [_ W1]. rewrite W2 in W1. lia. }
    rewrite Er in H. injection H as <- <- <-.
    cbn [set_entry set_slots st_shutting st_count st_releases].
    split; [solve [auto]|]. split; [reflexivity|]. split; [reflexivity|]. right. right.
    rewrite W4 in Hf by exact Hr.
    destruct (e_object (get_entry st r)) eqn:Eo; [discriminate|].
    assert (forall j, 0 <= j < st_count st ->
       get_entry (set_entry (set_slots st sl) r (MkEntry (Some o) (e_refs (get_entry st r)) u)) j
       = if j =? r then MkEntry (Some o) 0 u else get_entry st j) as G.
    { intros j Hj. destruct (j =? r) eqn:E.
      - assert (j = r) by lia; subst j. rewrite get_set_eq by (cbn; lia).
        rewrite (W6 r Hr Eo). reflexivity.
      - rewrite get_set_neq by lia. apply get_set_slots. }
    split; [reflexivity|]. split; [exact Hr|].
    split. { rewrite view_in by exact Hr. rewrite Eo. reflexivity. }
    split; [reflexivity|]. split.
    + constructor; cbn [set_entry set_slots st_slots st_count st_objects]; auto.
      * congruence.
      * rewrite update_length. exact W3.
      * intros j Hj. fold (set_slots st sl).
        fold (set_entry (set_slots st sl) r (MkEntry (Some o) (e_refs (get_entry st r)) u)).
        match goal with |- _ = match e_object (get_entry ?x j) with _ => _ end =>
          change x with (set_entry (set_slots st sl) r (MkEntry (Some o) (e_refs (get_entry st r)) u)) end.
        rewrite G by exact Hj. rewrite Hbits by lia. rewrite W4 by exact Hj.
        destruct (j =? r) eqn:E; reflexivity.
      * intros j Hj.
        match goal with |- _ <= e_refs (get_entry ?x j) =>
          change x with (set_entry (set_slots st sl) r (MkEntry (Some o) (e_refs (get_entry st r)) u)) end.
        rewrite G by exact Hj. destruct (j =? r); cbn; auto. lia.
      * intros j Hj.
        match goal with |- e_object (get_entry ?x j) = _ -> _ =>
          change x with (set_entry (set_slots st sl) r (MkEntry (Some o) (e_refs (get_entry st r)) u)) end.
        rewrite G by exact Hj. destruct (j =? r); cbn; auto.
    + intros k. unfold view at 1. cbn [set_entry set_slots st_count].
      match goal with |- context [e_object (get_entry ?x k)] =>
          change x with (set_entry (set_slots st sl) r (MkEntry (Some o) (e_refs (get_entry st r)) u)) end.
      destruct ((0 <=? k) && (k <? st_count st)) eqn:E2.
      * rewrite G by lia. destruct (k =? r) eqn:E; [reflexivity|].
        rewrite view_in by lia. reflexivity.
      * replace (k =? r) with false by lia. unfold view. rewrite E2. reflexivity.
  - destruct (slots_allocate_full _ _ _ W1 Ea Hfull) as [-> ->].
    rewrite Z.eqb_refl in H. injection H as <- <- <-.
    cbn [set_slots st_shutting st_count st_releases]. destruct st; cbn in *.
    split; [solve [auto]|]. split; [reflexivity|]. split; [reflexivity|]. right. left.
    split; [solve [auto]|]. split; [|auto].
    intros k Hk. rewrite view_in by exact Hk. cbn.
    assert (in_range st_slots k) as Hr by (unfold in_range; lia).
    specialize (Hfull k Hr). rewrite W4 in Hfull by exact Hk.
    destruct (e_object _); discriminate.
Qed.

Lemma acquire_wf st h u st' s o : store_wf st -> 0 <= h -> store_acquire st h u = (st', s, o) ->
  st_shutting st' = st_shutting st /\ st_count st' = st_count st /\ st_releases st' = st_releases st /\
  store_wf st' /\
  ((st' = st /\ o = None /\
     ((st_shutting st = true /\ h < st_count st /\ s = INTERNAL_ERROR) \/
      (s = INVALID_PARAMETER /\ view st h = None /\ (h < st_count st -> st_shutting st = false)) \/
      (s = OPERATION_NOT_ALLOWED /\ st_shutting st = false /\
       exists o' w n, view st h = Some (o', w, n) /\ w <> u))) \/
   (s = OK /\ st_shutting st = false /\ exists o' n, o = Some o' /\ view st h = Some (o', u, n) /\
      forall k, view st' k = if k =? h then Some (o', u, n + 1) else view st k)).
Proof.
  intros W Hh H. unfold store_acquire in H.
  destruct (st_count st <=? h) eqn:E1.
  { injection H as <- <- <-. repeat (split; [auto; fail|]). left. repeat (split; [auto; fail|]).
    right. left. split; [reflexivity|]. split; [unfold view|lia].
    replace ((0 <=? h) && (h <? st_count st)) with false by lia. reflexivity. }
  destruct (st_shutting st) eqn:E2.
  { injection H as <- <- <-. repeat (split; [auto; fail|]). left. repeat (split; [auto; fail|]).
    left. split; [reflexivity|]. split; [lia|reflexivity]. }
  assert (0 <= h < st_count st) as Hr by lia.
  pose proof (view_in st h Hr) as Hv.
  destruct (e_object (get_entry st h)) as [o1|] eqn:E3.
  2: { injection H as <- <- <-. repeat (split; [auto; fail|]). left. repeat (split; [auto; fail|]).
       right. left. auto. }
  destruct (e_owner (get_entry st h) =? u) eqn:E4; cbn [negb] in H.
  - injection H as <- <- <-. cbn [set_entry st_shutting st_count st_releases].
    split; [solve [auto]|]. split; [reflexivity|]. split; [reflexivity|].
    pose proof (wf_refs _ W h Hr) as Hrefs.
    split. { apply wf_set_entry; cbn; rewrite ?E3; auto; try lia; try discriminate; split; discriminate. }
    right. split; [reflexivity|]. split; [reflexivity|].
    exists o1, (e_refs (get_entry st h)). split; [reflexivity|].
    assert (e_owner (get_entry st h) = u) by lia.
    split; [congruence|]. intros k.
    change (view (set_entry st h (MkEntry (Some o1) (e_refs (get_entry st h) + 1) (e_owner (get_entry st h)))) k =
      if k =? h then Some (o1, u, e_refs (get_entry st h) + 1) else view st k).
    rewrite view_set_entry by assumption. cbn. destruct (k =? h); congruence.
  - injection H as <- <- <-. repeat (split; [auto; fail|]). left. repeat (split; [auto; fail|]).
    right. right. split; [reflexivity|]. split; [reflexivity|].
    exists o1, (e_owner (get_entry st h)), (e_refs (get_entry st h)). split; [exact Hv|lia].
Qed.

Lemma release_wf st h o u st' s : store_wf st -> 0 <= h -> store_release st h o u = (st', s) ->
  st_shutting st' = st_shutting st /\ st_count st' = st_count st /\ st_releases st' = st_releases st /\
  store_wf st' /\
  ((st' = st /\ s <> OK /\ forall n, view st h = Some (o, u, n) -> n = 0) \/
   (s = OK /\ exists n, view st h = Some (o, u, n) /\ 0 < n /\
      forall k, view st' k = if k =? h then Some (o, u, n - 1) else view st k)).
Proof.
  intros W Hh H. unfold store_release in H.
  destruct (st_count st <=? h) eqn:E1.
  { injection H as <- <-. repeat (split; [auto; fail|]). left. split; [auto|]. split; [discriminate|].
    intros n Hn. apply view_range in Hn. lia. }
  assert (0 <= h < st_count st) as Hr by lia.
  pose proof (view_in st h Hr) as Hv. pose proof (wf_refs _ W h Hr) as Hrefs.
  destruct (e_owner (get_entry st h) =? u) eqn:E2; cbn [negb] in H.
  2: { injection H as <- <-. repeat (split; [auto; fail|]). left. split; [auto|]. split; [discriminate|].
       intros n Hn. rewrite Hv in Hn. destruct (e_object (get_entry st h)); [|discriminate].
       injection Hn as _ Hn _. lia. }
  destruct (e_object (get_entry st h)) as [o1|] eqn:E3; cbn [negb] in H.
  2: { injection H as <- <-. repeat (split; [auto; fail|]). left. split; [auto|]. split; [discriminate|].
       intros n Hn. congruence. }
  destruct (o1 =? o) eqn:E4; cbn [negb] in H.
  2: { injection H as <- <-. repeat (split; [auto; fail|]). left. split; [auto|]. split; [discriminate|].
       intros n Hn. rewrite Hv in Hn. injection Hn as Hn _ _. lia. }
  assert (o1 = o) by lia. assert (e_owner (get_entry st h) = u) by lia. subst o1.
  destruct (e_refs (get_entry st h) =? 0) eqn:E5.
  { injection H as <- <-. repeat (split; [auto; fail|]). left. split; [auto|]. split; [discriminate|].
    intros n Hn. rewrite Hv in Hn. injection Hn as _ Hn. lia. }
  injection H as <- <-. cbn [set_entry st_shutting st_count st_releases].
  repeat (split; [reflexivity|]).
  split. { apply wf_set_entry; cbn; rewrite ?E3; auto; try lia; try discriminate; split; discriminate. }
  right. split; [reflexivity|]. exists (e_refs (get_entry st h)).
  split; [congruence|]. split; [lia|]. intros k.
  change (view (set_entry st h (MkEntry (Some o) (e_refs (get_entry st h) - 1) (e_owner (get_entry st h)))) k =
      if k =? h then Some (o, u, e_refs (get_entry st h) - 1) else view st k).
  rewrite view_set_entry by assumption. cbn. destruct (k =? h); congruence.
Qed.

Lemma remove_wf st h c st' r : store_wf st -> 0 <= h < st_count st -> remove_pass st h c = (st', r) ->
  st_shutting st' = st_shutting st /\ st_count st' = st_count st /\ st_releases st' = st_releases st /\
  store_wf st' /\
  ((st' = st /\
     ((r = RemDone INVALID_PARAMETER None /\ view st h = None) \/
      (exists u o w n, c = Some u /\ view st h = Some (o, w, n) /\ w <> u /\
          r = RemDone OPERATION_NOT_ALLOWED None) \/
      (exists o w n, view st h = Some (o, w, n) /\ 0 < n /\ (c = None \/ c = Some w) /\ r = RemRetry))) \/
   (exists o w, view st h = Some (o, w, 0) /\ (c = None \/ c = Some w) /\ r = RemDone OK (Some o) /\
     forall k, view st' k = if k =? h then None else view st k)).
Proof.
  intros W Hr H. unfold remove_pass in H.
  pose proof (view_in st h Hr) as Hv. pose proof (wf_refs _ W h Hr) as Hrefs.
  destruct (e_object (get_entry st h)) as [o|] eqn:E1.
  2: { injection H as <- <-. repeat (split; [auto; fail|]). left. auto. }
  destruct (match c with Some u => negb (e_owner (get_entry st h) =? u) | None => false end) eqn:E2.
  { injection H as <- <-. repeat (split; [auto; fail|]). left. split; [auto|]. right. left.
    destruct c as [u|]; [|discriminate]. do 4 eexists. split; [reflexivity|]. split; [exact Hv|].
    split; [lia|reflexivity]. }
  assert (c = None \/ c = Some (e_owner (get_entry st h))) as Hc.
  { destruct c as [u|]; [right; f_equal; lia|left; reflexivity]. }
  destruct (e_refs (get_entry st h) =? 0) eqn:E3.
  2: { injection H as <- <-. repeat (split; [auto; fail|]). left. split; [auto|]. right. right.
       do 3 eexists. split; [exact Hv|]. split; [lia|]. split; [exact Hc|reflexivity]. }
  injection H as <- <-. pose proof W as [W1 W2 W3 W4 W5 W6].
  assert (e_refs (get_entry st h) = 0) as Hz by lia.
  destruct (slots_free_spec (st_slots st) h W1) as (S1 & S2 & S3); [lia|].
  set (st1 := set_entry st h (MkEntry None (e_refs (get_entry st h)) (e_owner (get_entry st h)))).
  assert (forall j, 0 <= j < st_count st ->
     get_entry (set_slots st1 (slots_free (st_slots st) h)) j =
     if j =? h then MkEntry None 0 (e_owner (get_entry st h)) else get_entry st j) as G.
  { intros j Hj. rewrite get_set_slots. unfold st1. destruct (j =? h) eqn:E.
    - assert (j = h) by lia; subst j. rewrite get_set_eq by lia. rewrite Hz. reflexivity.
    - apply get_set_neq; lia. }
  split; [reflexivity|]. split; [reflexivity|]. split; [reflexivity|]. split.
  - constructor; cbn [set_slots st_slots st_count st_objects]; change (st_count st1) with (st_count st).
    + exact S1.
    + congruence.
    + unfold st1; cbn. rewrite update_length. exact W3.
    + intros j Hj. fold (set_slots st1 (slots_free (st_slots st) h)).
      match goal with |- _ = match e_object (get_entry ?x j) with _ => _ end =>
          change x with (set_slots st1 (slots_free (st_slots st) h)) end.
      rewrite G by exact Hj. rewrite S3 by (unfold in_range; lia). rewrite W4 by exact Hj.
      destruct (j =? h); reflexivity.
    + intros j Hj.
      match goal with |- _ <= e_refs (get_entry ?x j) => change x with (set_slots st1 (slots_free (st_slots st) h)) end.
      rewrite G by exact Hj. destruct (j =? h); cbn; auto. lia.
    + intros j Hj.
      match goal with |- e_object (get_entry ?x j) = _ -> _ => change x with (set_slots st1 (slots_free (st_slots st) h)) end.
      rewrite G by exact Hj. destruct (j =? h); cbn; auto.
  - right. exists o, (e_owner (get_entry st h)). split; [congruence|]. split; [exact Hc|]. split; [reflexivity|].
    intros k. destruct (k =? h) eqn:E.
    + assert (k = h) by lia; subst k. rewrite view_in by exact Hr. rewrite G by exact Hr.
      rewrite Z.eqb_refl. reflexivity.
    + unfold view. change (st_count (set_slots st1 (slots_free (st_slots st) h))) with (st_count st).
      destruct ((0 <=? k) && (k <? st_count st)) eqn:E2b; [|reflexivity]. rewrite G by lia. rewrite E. reflexivity.
Qed.

Lemma step_simulates count st s ev st' a :
  st_count st = count -> R st s -> event_ok ev -> step st ev = (st', a) ->
  exists s', spec_step count s ev a s' /\ R st' s' /\ st_count st' = count.
Proof.
  intros Hc (W & Hd & Hv) Hev H. destruct s as [t d]. cbn [fst snd] in *. subst d.
  destruct ev as [o u|h u|h o u|h c| | |]; cbn [step event_ok] in *.
  - destruct (store_add st o u) as [[st1 s1] h1] eqn:E. injection H as <- <-.
    destruct (add_wf _ _ _ _ _ _ W E) as (P1 & P2 & P3 & [Q|[Q|Q]]).
    + destruct Q as (Q1 & -> & -> & ->). exists (t, true). rewrite Q1. split; [constructor|].
      split; [|exact Hc]. split; [exact W|]. split; auto.
    + destruct Q as (Q1 & Q2 & -> & -> & ->). exists (t, false). rewrite Q1. split.
      * constructor. intros h Hh. rewrite Hv. apply Q2. lia.
      * split; [|exact Hc]. split; [exact W|]. split; auto.
    + destruct Q as (Q1 & Q2 & Q3 & -> & Q4 & Q5). exists (tset t h1 (Some (o, u, 0)), false). rewrite Q1. split.
      * constructor; [lia|]. rewrite Hv. exact Q3.
      * split; [|congruence]. split; [exact Q4|]. split; [cbn; congruence|]. intros k. cbn. unfold tset.
        rewrite Q5, Hv. reflexivity.
  - destruct (store_acquire st h u) as [[st1 s1] o1] eqn:E. injection H as <- <-.
    destruct (acquire_wf _ _ _ _ _ _ W Hev E) as (P1 & P2 & P3 & P4 & [Q|Q]).
    + destruct Q as (-> & -> & [Q|[Q|Q]]).
      * destruct Q as (Q1 & Q2 & ->). exists (t, true). rewrite Q1. split; [constructor; lia|].
        split; [|exact Hc]. split; [exact W|]. split; auto.
      * destruct Q as (-> & Q1 & Q2). exists (t, st_shutting st). split; [constructor; [congruence|]|].
        { intros; apply Q2; lia. }
        split; [|exact Hc]. split; [exact W|]. split; auto.
      * destruct Q as (-> & Q1 & o2 & w & n & Q2 & Q3). exists (t, false). rewrite Q1.
        split; [eapply SAcqForeign; [rewrite Hv; exact Q2|exact Q3]|].
        split; [|exact Hc]. split; [exact W|]. split; auto.
    + destruct Q as (-> & Q1 & o2 & n & -> & Q2 & Q3). exists (tset t h (Some (o2, u, n + 1)), false). rewrite Q1.
      split; [apply SAcqOk; rewrite Hv; exact Q2|]. split; [|congruence]. split; [exact P4|]. split; [cbn; congruence|].
      intros k. cbn. unfold tset. rewrite Q3, Hv. reflexivity.
  - destruct (store_release st h o u) as [st1 s1] eqn:E. injection H as <- <-.
    destruct (release_wf _ _ _ _ _ _ W Hev E) as (P1 & P2 & P3 & P4 & [Q|Q]).
    + destruct Q as (-> & Q1 & Q2). exists (t, st_shutting st). split; [constructor; auto|].
      { intros n Hn. apply Q2. rewrite <- Hv. exact Hn. }
      split; [|exact Hc]. split; [exact W|]. split; auto.
    + destruct Q as (-> & n & Q1 & Q2 & Q3). exists (tset t h (Some (o, u, n - 1)), st_shutting st).
      split; [apply SRelOk; [rewrite Hv; exact Q1|exact Q2]|]. split; [|congruence]. split; [exact P4|].
      split; [cbn; congruence|]. intros k. cbn. unfold tset. rewrite Q3, Hv. reflexivity.
  - destruct (st_count st <=? h) eqn:E1.
    { injection H as <- <-. exists (t, st_shutting st). split; [constructor|].
      { rewrite Hv. unfold view. replace ((0 <=? h) && (h <? st_count st)) with false by lia. reflexivity. }
      split; [|exact Hc]. split; [exact W|]. split; auto. }
    assert (0 <= h < st_count st) as Hr by lia.
    destruct (remove_pass st h c) as [st1 r] eqn:E.
    destruct (remove_wf _ _ _ _ _ W Hr E) as (P1 & P2 & P3 & P4 & [Q|Q]).
    + destruct Q as (-> & [Q|[Q|Q]]).
      * destruct Q as (-> & Q1). injection H as <- <-. exists (t, st_shutting st).
        split; [constructor; rewrite Hv; exact Q1|]. split; [|exact Hc]. split; [exact W|]. split; auto.
      * destruct Q as (u & o & w & n & -> & Q1 & Q2 & ->). injection H as <- <-. exists (t, st_shutting st).
        split; [eapply SRemForeign; [rewrite Hv; exact Q1|exact Q2]|]. split; [|exact Hc]. split; [exact W|]. split; auto.
      * destruct Q as (o & w & n & Q1 & Q2 & Q3 & ->). injection H as <- <-. exists (t, st_shutting st).
        split; [eapply SRemBusy; [rewrite Hv; exact Q1|exact Q2|exact Q3]|].
        split; [|exact Hc]. split; [exact W|]. split; auto.
    + destruct Q as (o & w & Q1 & Q2 & -> & Q3). injection H as <- <-. exists (tset t h None, st_shutting st).
      split; [eapply SRemOk; [rewrite Hv; exact Q1|exact Q2]|]. split; [|congruence]. split; [exact P4|].
      split; [cbn; congruence|]. intros k. cbn. unfold tset. rewrite Q3, Hv. reflexivity.
  - unfold increment_release_count in H. exists (t, st_shutting st).
    destruct (st_shutting st) eqn:E; injection H as <- <-.
    + split; [apply (SInc count t true)|]. split; [|exact Hc]. split; [exact W|]. split; auto.
    + split; [apply (SInc count t false)|]. split; [|exact Hc]. split; [destruct W; constructor; auto|]. split; auto.
  - injection H as <- <-. exists (t, st_shutting st). split; [constructor|]. split; [|exact Hc].
    split; [destruct W; constructor; auto|]. split; auto.
  - injection H as <- <-. exists (t, true). split; [constructor|]. split; [|exact Hc].
    split; [destruct W; constructor; auto|]. split; auto.
Qed.

Lemma run_accepted count evs : forall st s, st_count st = count -> R st s -> Forall event_ok evs ->
  accepts count s (fst (run st evs)).
Proof.
  induction evs as [|ev evs IH]; intros st s Hc HR Hok; cbn [run]; [constructor|].
  inversion Hok as [|x y Hev Hevs]; subst x y.
  destruct (step st ev) as [st1 a] eqn:E.
  destruct (step_simulates _ _ _ _ _ _ Hc HR Hev E) as (s' & Hs & HR' & Hc').
  specialize (IH st1 s' Hc' HR' Hevs). destruct (run st1 evs) as [tr st2]. cbn [fst] in *.
  econstructor; eauto.
Qed.

Theorem transcript_accepted count evs : 0 <= count < INVALID_HANDLE -> count mod 32 = 0 ->
  Forall event_ok evs -> accepts count (empty_table, false) (transcript count evs).
Proof.
  intros Hc Hm Hok. unfold transcript. destruct (store_init count) as [st|] eqn:E; [|constructor].
  destruct (store_init_wf _ _ Hc E) as [HR Hc']. apply run_accepted; assumption.
Qed.
