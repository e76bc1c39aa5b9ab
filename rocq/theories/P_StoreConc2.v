From Verif Require Import Base M_Slots P_Slots M_ObjectStore S_ObjectStore P_ObjectStore M_StoreConc P_StoreConc.
From Coq Require Import Permutation.

Lemma in_mid {A} (x a : A) l1 l2 : In x (l1 ++ a :: l2) <-> x = a \/ In x (l1 ++ l2).
Proof. rewrite !in_app_iff. cbn. intuition. Qed.

Lemma stored_set_flags st : stored (set_shutting st) = stored st.
Proof. reflexivity. Qed.

Lemma flat_map_mid {A} (f : A -> list Z) l1 a l2 :
  Permutation (flat_map f (l1 ++ a :: l2)) (f a ++ flat_map f (l1 ++ l2)).
Proof.
  rewrite !flat_map_app. cbn [flat_map].
  rewrite Permutation_app_swap_app. reflexivity.
Qed.

Lemma uses_mid h l1 a l2 : uses h (l1 ++ a :: l2) = uses h [a] + uses h (l1 ++ l2).
Proof. rewrite !uses_app, !uses_cons. change (uses h []) with 0. lia. Qed.

Lemma removers_mid l1 a l2 : removers (l1 ++ a :: l2) = removers [a] + removers (l1 ++ l2).
Proof. rewrite !removers_app, !removers_cons. change (removers []) with 0. lia. Qed.

Ltac inj H := injection H as H.

Lemma inv_step c c' : inv c -> cstep c c' -> inv c'.
Proof.
  intros I S. destruct S; destruct I as [W Lt Use Refs Rem Rel Perm Nd Sh Sw Fr Gn]; cbn in *.
  - (* add *)
    destruct (add_wf _ _ _ _ _ _ W H0) as (P1 & P2 & P3 & [Q|[Q|Q]]).
    + destruct Q as (Q1 & -> & -> & ->). cbn. constructor; auto.
    + destruct Q as (Q1 & Q2 & -> & -> & ->). cbn. constructor; auto.
    + destruct Q as (Q1 & Q2 & Q3 & -> & Q4 & Q5). cbn.
      destruct (add_ok_entries _ _ _ _ _ W H0) as [E1 E2].
      assert (ph = PUp) as ->. { destruct ph; auto; rewrite Sh in Q1 by discriminate; discriminate. }
      constructor; cbn; auto.
      * intros; congruence.
      * intros h0 o0 u0 Hin. destruct (Use _ _ _ Hin) as [n Hn]. exists n. rewrite Q5.
        destruct (h0 =? h) eqn:E; [|exact Hn]. assert (h0 = h) by lia. congruence.
      * intros k Hk. rewrite E2 by congruence. apply Refs. congruence.
      * intros. rewrite P2. eauto.
      * intros; congruence.
      * rewrite E1. cbn. apply perm_skip. exact Perm.
      * constructor; [apply fresh_new|exact Nd].
      * intros i [Hi|[o Hi]]; discriminate.
      * intros; discriminate.
      * intros; discriminate.
  - (* acquire *)
    destruct o as [o|].
    2: { apply acquire_none_same in H1. subst st'. constructor; auto. }
    pose proof (acquire_some_ok _ _ _ _ _ _ H1); subst s.
    destruct (acquire_wf _ _ _ _ _ _ W H0 H1) as (P1 & P2 & P3 & P4 & [Q|Q]); [destruct Q as (_ & Q & _); discriminate|].
    destruct Q as (_ & Q1 & o' & n & Q2 & Q3 & Q4). injection Q2 as <-.
    destruct (acquire_entries _ _ _ _ _ W H0 H1) as [E1 E2].
    assert (ph = PUp) as ->. { destruct ph; auto; rewrite Sh in Q1 by discriminate; discriminate. }
    constructor; cbn; auto.
    + intros; congruence.
    + intros h0 o0 u0 [Hin|Hin].
      * injection Hin as <- <- <-. exists (n + 1). rewrite Q4, Z.eqb_refl. reflexivity.
      * destruct (Use _ _ _ Hin) as [m Hm]. rewrite Q4. destruct (h0 =? h) eqn:E; [|eauto].
        assert (h0 = h) by lia; subst. rewrite Q3 in Hm. injection Hm as -> -> ->. eauto.
    + intros k Hk. rewrite E2 by congruence. rewrite Refs by congruence. rewrite uses_cons. lia.
    + intros h0 u0 t [Hin|Hin]; destruct Hin as [Hin|Hin]; try discriminate; rewrite P2; eauto.
    + rewrite P3, Rel, removers_cons. lia.
    + rewrite E1. exact Perm.
    + intros i [Hi|[o0 Hi]]; discriminate.
    + intros; discriminate.
    + intros; discriminate.
  - (* release *)
    assert (In (AUse h o u) (l1 ++ AUse h o u :: l2)) as Hin by (apply in_mid; auto).
    pose proof (Use _ _ _ Hin) as [n0 Hv0]. pose proof (view_range _ _ _ Hv0) as Hr0.
    assert (s = OK) as ->.
    { destruct (held_release_ok (MkConfig st (l1 ++ AUse h o u :: l2) ph made dead false) h o u) as [st2 Hs]; cbn; auto.
      - constructor; auto.
      - cbn in Hs. congruence. }
    destruct (release_wf _ _ _ _ _ _ W (proj1 Hr0) H0) as (P1 & P2 & P3 & P4 & [Q|Q]); [destruct Q as (_ & Q & _); congruence|].
    destruct Q as (_ & n & Q1 & Q2 & Q3).
    destruct (release_entries _ _ _ _ _ W (proj1 Hr0) H0) as [E1 E2].
    assert (forall k, view st k = None -> view st' k = None) as Vn.
    { intros k Hk. rewrite Q3. destruct (k =? h) eqn:E; auto. assert (k = h) by lia; congruence. }
    constructor; cbn; auto.
    + intros; congruence.
    + intros h0 o0 u0 Hin0. destruct (Use h0 o0 u0) as [m Hm]; [apply in_mid; auto|].
      rewrite Q3. destruct (h0 =? h) eqn:E; [|eauto]. assert (h0 = h) by lia; subst. rewrite Q1 in Hm. injection Hm as -> -> ->. eauto.
    + intros k Hk. rewrite E2 by congruence. rewrite Refs by congruence. rewrite uses_mid, uses_cons.
      change (uses k []) with 0; lia.
    + intros h0 u0 t Hi. rewrite P2. apply (Rem h0 u0 t). rewrite !in_mid. tauto.
    + rewrite P3, Rel, removers_mid, removers_cons. change (removers []) with 0; lia.
    + rewrite E1. rewrite Perm. rewrite flat_map_mid. reflexivity.
    + rewrite P1. exact Sh.
    + intros i Hi. destruct (Sw i Hi) as (S1 & S2 & S3). split; [exact S1|]. split; [|auto].
      rewrite removers_mid, removers_cons in S2. change (removers []) with 0 in S2; lia.
    + intros i o0 Hi. destruct (Fr _ _ Hi). rewrite P2. auto.
    + intros Hi. congruence.
  - (* remove called *)
    constructor; cbn; auto.
    + intros h0 o0 u0 [Hin|Hin]; [discriminate|eauto].
    + intros h0 u0 t [[Hi|Hi]|[Hi|Hi]]; try discriminate; eauto. injection Hi as <- <- <-. exact H0.
  - (* increment *)
    unfold increment_release_count in H0. destruct (st_shutting st) eqn:Es; injection H0 as <- <-; cbn [app].
    + constructor; cbn; auto.
      * intros h0 o0 u0 Hin. apply (Use h0 o0 u0). apply in_mid; auto.
      * intros k Hk. rewrite Refs by exact Hk. rewrite uses_mid, uses_cons. change (uses k []) with 0; lia.
      * intros h0 u0 t0 Hi. apply (Rem h0 u0 t0). rewrite !in_mid. tauto.
      * rewrite Rel, removers_mid, removers_cons. change (removers []) with 0; lia.
      * rewrite Perm, flat_map_mid. reflexivity.
      * intros i Hi. destruct (Sw i Hi) as (S1 & S2 & S3). split; [exact S1|]. split; [|exact S3].
        rewrite removers_mid, removers_cons in S2. change (removers []) with 0 in S2; lia.
      * intros Hi; congruence.
    + assert (ph = PUp) as ->. { destruct ph; auto; specialize (Sh ltac:(discriminate)); discriminate. }
      constructor; cbn; auto.
      * destruct W; constructor; auto.
      * intros h0 o0 u0 Hin. apply (Use h0 o0 u0). rewrite in_mid in Hin |- *. destruct Hin; [discriminate|auto].
      * intros k Hk.
        change (e_refs (get_entry st k) = uses k (l1 ++ ARem1 h u t :: l2)).
        rewrite Refs by exact Hk. rewrite !uses_mid, !uses_cons. reflexivity.
      * intros h0 u0 t0 Hi. rewrite !in_mid in Hi.
        destruct Hi as [[Hi|Hi]|[Hi|Hi]]; try discriminate.
        -- apply (Rem h0 u0 t0). rewrite !in_mid. tauto.
        -- injection Hi as <- <- <-. apply (Rem h0 u0 t0). rewrite !in_mid. tauto.
        -- apply (Rem h0 u0 t0). rewrite !in_mid. tauto.
      * rewrite Rel, !removers_mid, !removers_cons. change (removers []) with 0; lia.
      * rewrite Perm, !flat_map_mid. reflexivity.
      * intros i [Hi|[o0 Hi]]; discriminate.
      * intros; discriminate.
  - (* remove pass *)
    assert (0 <= h < st_count st) as Hr. { apply (Rem h u t). right. apply in_mid; auto. }
    destruct (remove_wf _ _ _ _ _ W Hr H0) as (P1 & P2 & P3 & P4 & Q).
    assert (forall k, view st k = None -> view st' k = None) as Vn.
    { intros k Hk. destruct Q as [(-> & _)|(o & w & _ & _ & _ & Q3)]; [exact Hk|]. rewrite Q3. destruct (k =? h); auto. }
    assert (forall i, ph = PSweep i \/ (exists o, ph = PFree i o) -> False) as NoSw.
    { intros i Hi. destruct (Sw i Hi) as (_ & S2 & _). rewrite removers_mid, removers_cons in S2.
      pose proof (removers_nonneg (l1 ++ l2)). change (removers []) with 0 in S2; lia. }
    assert (r = RemRetry \/ exists s o, r = RemDone s o) as [->|(s & o & ->)] by (destruct r; eauto).
    + assert (st' = st) as ->. { destruct Q as [(-> & _)|(o & w & _ & _ & Q & _)]; [auto|discriminate]. }
      constructor; auto.
    + destruct (remove_entries _ _ _ _ _ _ W Hr H0) as [E1 E2].
      assert (forall h0 o0 u0, In (AUse h0 o0 u0) (l1 ++ l2) -> exists n, view st' h0 = Some (o0, u0, n)) as U.
      { intros h0 o0 u0 Hin. destruct (Use h0 o0 u0) as [m Hm]; [apply in_mid; auto|].
        destruct Q as [(-> & _)|(o1 & w & Q1 & Q2 & Q3 & Q4)]; [eauto|]. rewrite Q4. destruct (h0 =? h) eqn:E; [|eauto].
        exfalso. assert (h0 = h) by lia; subst h0.
        assert (0 < uses h (l1 ++ ARem1 h u t :: l2)) as Hp by (eapply uses_pos; apply in_mid; eauto).
        rewrite <- Refs in Hp by exact Hr. rewrite view_in in Q1 by exact Hr. destruct (e_object (get_entry st h)); [|discriminate].
        injection Q1 as _ _ Q1. lia. }
      constructor; cbn; auto.
      * intros; congruence.
      * intros h0 o0 u0 Hin. rewrite in_mid in Hin. destruct Hin as [Hin|Hin]; [discriminate|]. eauto.
      * intros k Hk. rewrite E2 by congruence. rewrite Refs by congruence. rewrite !uses_mid, !uses_cons. reflexivity.
      * intros h0 u0 t0 Hi. rewrite P2. apply (Rem h0 u0 t0). rewrite !in_mid in *.
        destruct Hi as [[Hi|Hi]|[Hi|Hi]]; try discriminate; tauto.
      * rewrite P3, Rel, !removers_mid, !removers_cons. reflexivity.
      * rewrite Perm. rewrite !flat_map_mid. cbn [act_pending app]. rewrite E1.
        rewrite <- !app_assoc. rewrite Permutation_app_swap_app. reflexivity.
      * rewrite P1. exact Sh.
      * intros i Hi. exfalso. eauto.
      * intros i o0 Hi. exfalso. eauto.
      * intros Hi; congruence.
  - (* decrement *)
    assert (forall i, ph = PSweep i \/ (exists o, ph = PFree i o) -> False) as NoSw.
    { intros i Hi. destruct (Sw i Hi) as (_ & S2 & _). rewrite removers_mid, removers_cons in S2.
      pose proof (removers_nonneg (l1 ++ l2)). change (removers []) with 0 in S2; lia. }
    constructor; cbn; auto.
    + destruct W; constructor; auto.
    + intros h0 o0 u0 Hin. apply (Use h0 o0 u0). rewrite in_mid in Hin |- *. destruct Hin; [discriminate|auto].
    + intros k Hk. change (e_refs (get_entry st k) = uses k (l1 ++ ARem3 o t :: l2)).
      rewrite Refs by exact Hk. rewrite !uses_mid, !uses_cons. reflexivity.
    + intros h0 u0 t0 Hi. apply (Rem h0 u0 t0). rewrite !in_mid in *.
      destruct Hi as [[Hi|Hi]|[Hi|Hi]]; try discriminate; tauto.
    + rewrite Rel, !removers_mid, !removers_cons. change (removers []) with 0; lia.
    + rewrite Perm, !flat_map_mid. reflexivity.
    + intros i Hi. exfalso. eauto.
    + intros Hi; congruence.
  - (* free *)
    constructor; cbn; auto.
    + intros h0 o0 u0 Hin. apply (Use h0 o0 u0). apply in_mid; auto.
    + intros k Hk. rewrite Refs by exact Hk. rewrite uses_mid, uses_cons. change (uses k []) with 0; lia.
    + intros h0 u0 t0 Hi. apply (Rem h0 u0 t0). rewrite !in_mid. tauto.
    + rewrite Rel, removers_mid, removers_cons. change (removers []) with 0; lia.
    + rewrite Perm, flat_map_mid. cbn [act_pending]. apply Permutation_app_head.
      rewrite <- !app_assoc. rewrite Permutation_app_swap_app. apply Permutation_app_head.
      apply Permutation_app_swap_app.
    + intros i Hi. destruct (Sw i Hi) as (S1 & S2 & S3). split; [exact S1|]. split; [|exact S3].
      rewrite removers_mid, removers_cons in S2. change (removers []) with 0 in S2; lia.
    + intros Hi; congruence.
  - (* shutdown flag *)
    constructor; cbn; auto.
    + destruct W; constructor; auto.
    + intros i [Hi|[o Hi]]; discriminate.
    + intros; discriminate.
    + intros; discriminate.
  - (* shutdown wait *)
    destruct (st_releases st =? 0) eqn:E; constructor; cbn; auto; try discriminate.
    + intros _. apply Sh. discriminate.
    + intros i [Hi|[o Hi]]; [|discriminate]. injection Hi as <-. split; [lia|]. split; [lia|]. lia.
  - (* shutdown pass *)
    destruct (Sw i (or_introl eq_refl)) as (S1 & S2 & S3).
    assert (0 <= i < st_count st) as Hr by lia.
    destruct (remove_wf _ _ _ _ _ W Hr H0) as (P1 & P2 & P3 & P4 & Q).
    assert (forall k, view st k = None -> view st' k = None) as Vn.
    { intros k Hk. destruct Q as [(-> & _)|(o & w & _ & _ & _ & Q3)]; [exact Hk|]. rewrite Q3. destruct (k =? i); auto. }
    assert (r = RemRetry \/ exists s o, r = RemDone s o) as [->|(s & o & ->)] by (destruct r; eauto).
    + assert (st' = st) as ->. { destruct Q as [(-> & _)|(o & w & _ & _ & Q & _)]; [auto|discriminate]. }
      constructor; auto.
    + destruct (remove_entries _ _ _ _ _ _ W Hr H0) as [E1 E2].
      assert (view st' i = None) as Vi.
      { destruct Q as [(-> & [Q|[Q|Q]])|Q].
        - destruct Q as [_ Q]. exact Q.
        - destruct Q as (u & o1 & w & n & Q & _). discriminate.
        - destruct Q as (o1 & w & n & _ & _ & _ & Q). discriminate.
        - destruct Q as (o1 & w & _ & _ & _ & Q). rewrite Q, Z.eqb_refl. reflexivity. }
      constructor; cbn; auto.
      * intros; congruence.
      * intros h0 o0 u0 Hin. destruct (Use _ _ _ Hin) as [m Hm].
        destruct Q as [(-> & _)|(o1 & w & Q1 & Q2 & Q3 & Q4)]; [eauto|]. rewrite Q4. destruct (h0 =? i) eqn:E; [|eauto].
        exfalso. assert (h0 = i) by lia; subst h0. apply uses_pos in Hin. rewrite <- Refs in Hin by exact Hr.
        rewrite view_in in Q1 by exact Hr. destruct (e_object (get_entry st i)); [|discriminate].
        injection Q1 as _ _ Q1. lia.
      * intros k Hk. rewrite E2 by congruence. apply Refs. congruence.
      * intros. rewrite P2. eauto.
      * intros; congruence.
      * rewrite Perm, E1. cbn. rewrite <- !app_assoc.
        rewrite (Permutation_app_comm (opt_list o) (stored st' ++ _)). rewrite <- !app_assoc.
        apply Permutation_app_head. apply Permutation_app_head. apply Permutation_app_comm.
      * intros _. rewrite P1. apply Sh. discriminate.
      * intros j [Hj|[o0 Hj]]; [discriminate|]. injection Hj as <- <-. auto.
      * intros j o0 Hj. injection Hj as <- <-. split; [lia|exact Vi].
      * intros; discriminate.
  - (* shutdown free *)
    destruct (Sw i (or_intror (ex_intro _ o eq_refl))) as (S1 & S2 & S3). destruct (Fr _ _ eq_refl) as [F1 F2].
    constructor; cbn; auto; try discriminate.
    + intros _. apply Sh. discriminate.
    + intros j [Hj|[o0 Hj]]; [|discriminate]. injection Hj as <-. split; [lia|]. split; [exact S2|].
      intros k Hk. destruct (Z.eq_dec k i) as [->|]; auto. apply S3. lia.
  - (* shutdown end *)
    destruct (Sw i (or_introl eq_refl)) as (S1 & S2 & S3).
    constructor; cbn; auto; try discriminate.
    + intros _. apply Sh. discriminate.
    + intros j [Hj|[o0 Hj]]; discriminate.
    + intros _. split; [exact S2|]. intros k. destruct (view st k) as [v|] eqn:E; [|reflexivity].
      pose proof (view_range _ _ _ E). rewrite <- E. apply S3. lia.
  - (* access after free *)
    constructor; auto.
  - (* return after free *)
    destruct (Gn eq_refl) as [G1 G2]. constructor; cbn; auto; try discriminate.
    + intros h0 o0 u0 Hin. apply (Use h0 o0 u0). apply in_mid; auto.
    + intros k Hk. rewrite Refs by exact Hk. rewrite uses_mid, uses_cons. change (uses k []) with 0; lia.
    + intros h0 u0 t0 Hi. apply (Rem h0 u0 t0). rewrite !in_mid. tauto.
    + rewrite Rel, removers_mid, removers_cons. change (removers []) with 0; lia.
    + rewrite Perm, flat_map_mid. reflexivity.
    + intros i [Hi|[o0 Hi]]; discriminate.
    + intros _. split; [|exact G2]. rewrite removers_mid, removers_cons in G1. change (removers []) with 0 in G1; lia.
Qed.
