From Verif Require Import Base M_Slots P_Slots M_ObjectStore S_ObjectStore P_ObjectStore M_StoreConc.
From Coq Require Import Permutation.

(** Objects in the table, in slot order. *)
Definition stored (st : store) : list Z :=
  flat_map (fun e => opt_list (e_object e)) (st_objects st).

Definition act_pending (a : act) : list Z :=
  match a with ARem2 o _ | ARem3 o _ => opt_list o | _ => [] end.
Definition phase_pending (p : phase) : list Z :=
  match p with PFree _ o => opt_list o | _ => [] end.

Definition uses (h : Z) (acts : list act) : Z :=
  Z.of_nat (length (filter (fun a => match a with AUse h' _ _ => h' =? h | _ => false end) acts)).
Definition removers (acts : list act) : Z :=
  Z.of_nat (length (filter (fun a => match a with ARem1 _ _ _ | ARem2 _ _ => true | _ => false end) acts)).

Record inv (c : config) : Prop := {
  i_wf : store_wf (c_store c);
  i_lt : st_count (c_store c) < INVALID_HANDLE;
  i_use : forall h o u, In (AUse h o u) (c_acts c) -> exists n, view (c_store c) h = Some (o, u, n);
  i_refs : forall h, 0 <= h < st_count (c_store c) -> e_refs (get_entry (c_store c) h) = uses h (c_acts c);
  i_rem : forall h u t, In (ARem0 h u t) (c_acts c) \/ In (ARem1 h u t) (c_acts c) -> 0 <= h < st_count (c_store c);
  i_rel : st_releases (c_store c) = removers (c_acts c);
  i_perm : Permutation (c_made c)
     (stored (c_store c) ++ flat_map act_pending (c_acts c) ++ phase_pending (c_phase c) ++ c_dead c);
  i_nodup : NoDup (c_made c);
  i_shut : c_phase c <> PUp -> st_shutting (c_store c) = true;
  i_sweep : forall i, (c_phase c = PSweep i \/ exists o, c_phase c = PFree i o) ->
     0 <= i /\ removers (c_acts c) = 0 /\ (forall k, 0 <= k < i -> view (c_store c) k = None);
  i_freed : forall i o, c_phase c = PFree i o -> i < st_count (c_store c) /\ view (c_store c) i = None;
  i_gone : c_phase c = PGone -> removers (c_acts c) = 0 /\ forall k, view (c_store c) k = None
}.

(** ** List facts *)
Lemma fresh_new made : ~ In (fresh made) made.
Proof.
  assert (forall l x, In x l -> x <= fold_right Z.max 0 l) as H.
  { induction l as [|y l IH]; cbn; intros x; [tauto|]. intros [->|Hx]; [lia|]. specialize (IH _ Hx). lia. }
  intros Hin. specialize (H _ _ Hin). unfold fresh in H. lia.
Qed.

Lemma uses_app h l1 l2 : uses h (l1 ++ l2) = uses h l1 + uses h l2.
Proof. unfold uses. rewrite filter_app, app_length. lia. Qed.
Lemma uses_cons h a l : uses h (a :: l) = (match a with AUse h' _ _ => if h' =? h then 1 else 0 | _ => 0 end) + uses h l.
Proof. unfold uses. cbn [filter]. destruct a; cbn; try lia. destruct (h0 =? h); cbn [length]; lia. Qed.
Lemma uses_nonneg h l : 0 <= uses h l.
Proof. unfold uses. lia. Qed.
Lemma removers_app l1 l2 : removers (l1 ++ l2) = removers l1 + removers l2.
Proof. unfold removers. rewrite filter_app, app_length. lia. Qed.
Lemma removers_cons a l : removers (a :: l) = (match a with ARem1 _ _ _ | ARem2 _ _ => 1 | _ => 0 end) + removers l.
Proof. unfold removers. cbn [filter]. destruct a; cbn [length]; lia. Qed.
Lemma removers_nonneg l : 0 <= removers l.
Proof. unfold removers. lia. Qed.

Lemma uses_pos h o u l : In (AUse h o u) l -> 0 < uses h l.
Proof.
  intros H. apply in_split in H as (l1 & l2 & ->). rewrite uses_app, uses_cons, Z.eqb_refl.
  pose proof (uses_nonneg h l1). pose proof (uses_nonneg h l2). lia.
Qed.

(** ** [stored] under entry updates *)
Definition stored_list (l : list entry) := flat_map (fun e => opt_list (e_object e)) l.

Lemma stored_update_perm l : forall i e, (i < length l)%nat ->
  Permutation (opt_list (e_object (nth i l empty_entry)) ++ stored_list (update i e l))
              (opt_list (e_object e) ++ stored_list l).
Proof.
  induction l as [|x l IH]; intros [|i] e H; cbn in H; try lia; cbn [nth update stored_list flat_map].
  - fold (stored_list l). apply Permutation_app_swap_app.
  - fold (stored_list l). fold (stored_list (update i e l)).
    specialize (IH i e ltac:(lia)).
    rewrite Permutation_app_swap_app. rewrite IH. rewrite Permutation_app_swap_app. reflexivity.
Qed.

Lemma stored_set_entry st k e : 0 <= k < Z.of_nat (length (st_objects st)) ->
  Permutation (opt_list (e_object (get_entry st k)) ++ stored (set_entry st k e))
              (opt_list (e_object e) ++ stored st).
Proof. intros H. apply (stored_update_perm (st_objects st) (Z.to_nat k) e). lia. Qed.

Lemma stored_set_slots st sl : stored (set_slots st sl) = stored st.
Proof. reflexivity. Qed.

(** ** Effects of the locked regions on stored objects and entries *)
Lemma add_ok_entries st o u st' h : store_wf st -> store_add st o u = (st', OK, h) ->
  Permutation (stored st') (o :: stored st) /\
  (forall k, 0 <= k < st_count st -> e_refs (get_entry st' k) = e_refs (get_entry st k)).
Proof.
  intros W H. destruct (add_wf _ _ _ _ _ _ W H) as (_ & _ & _ & [Q|[Q|Q]]).
  1,2: destruct Q as (? & ? & ?); intuition congruence.
  destruct Q as (Q1 & Q2 & Q3 & _ & Q4 & Q5).
  unfold store_add in H. rewrite Q1 in H.
  destruct (slots_allocate (st_slots st)) as [sl r]. destruct (r =? INVALID_HANDLE); [discriminate|].
  injection H as <- <-. rewrite view_in in Q3 by exact Q2.
  destruct (e_object (get_entry st r)) eqn:E; [discriminate|].
  pose proof (wf_len _ W) as Hl.
  pose proof (stored_set_entry (set_slots st sl) r (MkEntry (Some o) (e_refs (get_entry st r)) u)) as P.
  rewrite get_set_slots, E in P. cbn [opt_list e_object app] in P.
  rewrite stored_set_slots in P. split; [apply P; cbn; lia|].
  intros k Hk. destruct (Z.eq_dec k r) as [->|Hne].
  - rewrite get_set_eq by (cbn; lia). reflexivity.
  - rewrite get_set_neq by lia. reflexivity.
Qed.

Lemma acquire_entries st h u st' o : store_wf st -> 0 <= h -> store_acquire st h u = (st', OK, Some o) ->
  Permutation (stored st') (stored st) /\
  (forall k, 0 <= k < st_count st ->
     e_refs (get_entry st' k) = e_refs (get_entry st k) + (if h =? k then 1 else 0)).
Proof.
  intros W Hh H. unfold store_acquire in H. pose proof (wf_len _ W) as Hl.
  destruct (st_count st <=? h) eqn:E1; [discriminate|].
  destruct (st_shutting st) eqn:E2; [discriminate|].
  destruct (e_object (get_entry st h)) as [o1|] eqn:E3; [|discriminate].
  destruct (negb (e_owner (get_entry st h) =? u)); [discriminate|]. injection H as <- ->.
  pose proof (stored_set_entry st h (MkEntry (Some o) (e_refs (get_entry st h) + 1) (e_owner (get_entry st h)))) as P.
  rewrite E3 in P. cbn [opt_list e_object] in P. split.
  - eapply Permutation_app_inv_l. apply P. lia.
  - intros k Hk. destruct (h =? k) eqn:E.
    + assert (k = h) by lia; subst k. rewrite get_set_eq by lia. reflexivity.
    + rewrite get_set_neq by lia. lia.
Qed.

Lemma release_entries st h o u st' : store_wf st -> 0 <= h -> store_release st h o u = (st', OK) ->
  Permutation (stored st') (stored st) /\
  (forall k, 0 <= k < st_count st ->
     e_refs (get_entry st' k) = e_refs (get_entry st k) - (if h =? k then 1 else 0)).
Proof.
  intros W Hh H. unfold store_release in H. pose proof (wf_len _ W) as Hl.
  destruct (st_count st <=? h) eqn:E1; [discriminate|].
  destruct (negb (e_owner (get_entry st h) =? u)); [discriminate|].
  destruct (e_object (get_entry st h)) as [o1|] eqn:E3; [|discriminate].
  destruct (negb (o1 =? o)); [discriminate|]. destruct (e_refs (get_entry st h) =? 0) eqn:E4; [discriminate|].
  injection H as <-.
  pose proof (stored_set_entry st h (MkEntry (Some o1) (e_refs (get_entry st h) - 1) (e_owner (get_entry st h)))) as P.
  rewrite E3 in P. cbn [opt_list e_object] in P. split.
  - eapply Permutation_app_inv_l. apply P. lia.
  - intros k Hk. destruct (h =? k) eqn:E.
    + assert (k = h) by lia; subst k. rewrite get_set_eq by lia. reflexivity.
    + rewrite get_set_neq by lia. lia.
Qed.

Lemma remove_entries st h c st' s o : store_wf st -> 0 <= h < st_count st ->
  remove_pass st h c = (st', RemDone s o) ->
  Permutation (stored st) (opt_list o ++ stored st') /\
  (forall k, 0 <= k < st_count st -> e_refs (get_entry st' k) = e_refs (get_entry st k)).
Proof.
  intros W Hh H. unfold remove_pass in H. pose proof (wf_len _ W) as Hl.
  destruct (e_object (get_entry st h)) as [o1|] eqn:E1; [|injection H as <- <- <-; split; reflexivity].
  destruct (match c with Some u => negb (e_owner (get_entry st h) =? u) | None => false end);
    [injection H as <- <- <-; split; reflexivity|].
  destruct (e_refs (get_entry st h) =? 0) eqn:E2; [|discriminate]. injection H as <- <- <-.
  rewrite stored_set_slots.
  pose proof (stored_set_entry st h (MkEntry None (e_refs (get_entry st h)) (e_owner (get_entry st h)))) as P.
  rewrite E1 in P. cbn [opt_list e_object app] in P |- *. split.
  - symmetry. apply P. lia.
  - intros k Hk. rewrite get_set_slots. destruct (Z.eq_dec k h) as [->|Hne].
    + rewrite get_set_eq by lia. reflexivity.
    + rewrite get_set_neq by lia. reflexivity.
Qed.

Lemma acquire_some_ok st h u st' s o : store_acquire st h u = (st', s, Some o) -> s = OK.
Proof.
  unfold store_acquire. destruct (st_count st <=? h); [discriminate|].
  destruct (st_shutting st); [discriminate|]. destruct (e_object (get_entry st h)); [|discriminate].
  destruct (negb _); [discriminate|]. intros H; injection H; auto.
Qed.

Lemma acquire_none_same st h u st' s : store_acquire st h u = (st', s, None) -> st' = st.
Proof.
  unfold store_acquire. destruct (st_count st <=? h); [intros H; injection H; auto|].
  destruct (st_shutting st); [intros H; injection H; auto|].
  destruct (e_object (get_entry st h)); [|intros H; injection H; auto].
  destruct (negb _); [intros H; injection H; auto|]. discriminate.
Qed.

(** A caller that holds a reference gives it back successfully. *)
Lemma held_release_ok c h o u : inv c -> In (AUse h o u) (c_acts c) ->
  exists st', store_release (c_store c) h o u = (st', OK).
Proof.
  intros I Hin. destruct (i_use _ I _ _ _ Hin) as [n Hv]. pose proof (view_range _ _ _ Hv) as Hr.
  pose proof (i_refs _ I h Hr) as Hrefs. pose proof (uses_pos _ _ _ _ Hin) as Hp.
  destruct (store_release (c_store c) h o u) as [st' s] eqn:E.
  destruct (release_wf _ _ _ _ _ _ (i_wf _ I) (proj1 Hr) E) as (_ & _ & _ & _ & [Q|Q]).
  - exfalso. destruct Q as (_ & _ & Q). specialize (Q _ Hv). subst n.
    rewrite view_in in Hv by exact Hr. destruct (e_object _); [|discriminate].
    injection Hv as _ _ Hv. lia.
  - exists st'. destruct Q as (-> & _). reflexivity.
Qed.
