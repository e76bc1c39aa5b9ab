From Verif Require Import Base M_Slots P_Slots M_ObjectStore S_ObjectStore P_ObjectStore M_StoreConc P_StoreConc P_StoreConc2.
From Coq Require Import Permutation.

Lemma inv_initial count c : 0 <= count < INVALID_HANDLE -> initial count c -> inv c.
Proof.
  intros Hc (st & Hi & ->). destruct (store_init_wf _ _ Hc Hi) as [(W & Hd & Hv) Hcount].
  cbn in Hd, Hv.
  assert (st_objects st = repeat empty_entry (Z.to_nat count) /\ st_releases st = 0) as [Ho Hr].
  { unfold store_init in Hi. destruct (count mod 32 =? 0); [|discriminate].
    destruct (slots_init count); [|discriminate]. injection Hi as <-. auto. }
  constructor; cbn; auto; try tauto; try discriminate.
  - lia.
  - intros h Hh. unfold get_entry. rewrite Ho, nth_repeat. reflexivity.
  - unfold stored. rewrite Ho. clear. induction (Z.to_nat count); cbn; auto.
  - constructor.
  - intros i [Hi'|[o Hi']]; discriminate.
Qed.

Lemma inv_steps c c' : inv c -> csteps c c' -> inv c'.
Proof. intros I S. induction S as [|c1 c2 c3 S IH St]; [exact I|]. apply (inv_step c2 c3); auto. Qed.

Lemma inv_reachable count c : 0 <= count < INVALID_HANDLE -> reachable count c -> inv c.
Proof. intros Hc (c0 & H0 & S). eapply inv_steps; [|exact S]. eapply inv_initial; eauto. Qed.

Lemma csteps_trans c1 c2 c3 : csteps c1 c2 -> csteps c2 c3 -> csteps c1 c3.
Proof. intros H1 H2. induction H2 as [|c2 c3 c4 S IH St]; auto. apply (cs_step c1 c3); auto. Qed.

Lemma dead_mono c c' o : csteps c c' -> In o (c_dead c) -> In o (c_dead c').
Proof.
  intros S. induction S as [|c1 c2 c3 S IH St]; auto. intros Hin. specialize (IH Hin).
  destruct St; cbn in *; auto; apply in_or_app; auto.
Qed.

(** ** C04 *)
Lemma in_stored st h o u n : store_wf st -> view st h = Some (o, u, n) -> In o (stored st).
Proof.
  intros W H. pose proof (view_range _ _ _ H) as Hr. rewrite view_in in H by exact Hr.
  unfold stored. apply in_flat_map. exists (get_entry st h). split.
  - unfold get_entry. apply nth_In. pose proof (wf_len _ W). lia.
  - destruct (e_object (get_entry st h)); [|discriminate]. injection H as -> _ _. left. reflexivity.
Qed.

Definition being_destroyed (c : config) (o : Z) : Prop :=
  In o (c_dead c) \/ (exists a, In a (c_acts c) /\ In o (act_pending a)) \/ In o (phase_pending (c_phase c)).

Lemma stored_not_destroyed c o : inv c -> In o (stored (c_store c)) -> ~ being_destroyed c o.
Proof.
  intros I Hs Hd.
  assert (NoDup (stored (c_store c) ++ flat_map act_pending (c_acts c) ++ phase_pending (c_phase c) ++ c_dead c)) as Nd.
  { eapply Permutation_NoDup; [apply (i_perm _ I)|apply (i_nodup _ I)]. }
  assert (In o (flat_map act_pending (c_acts c) ++ phase_pending (c_phase c) ++ c_dead c)) as Hin.
  { rewrite !in_app_iff, in_flat_map. destruct Hd as [H|[(a & H)|H]]; [auto|left; eauto|auto]. }
  revert Nd Hs Hin. generalize (flat_map act_pending (c_acts c) ++ phase_pending (c_phase c) ++ c_dead c).
  intros l Nd Hs Hin. induction (stored (c_store c)) as [|x xs IH]; [destruct Hs|].
  cbn in Nd. inversion Nd; subst. destruct Hs as [->|Hs]; [|auto].
  apply H1. apply in_or_app. auto.
Qed.

Lemma no_destroy_in_use count c h o u : 0 <= count < INVALID_HANDLE -> reachable count c ->
  In (AUse h o u) (c_acts c) ->
  ~ being_destroyed c o /\ designated (c_store c) h = Some o /\
  exists st', store_release (c_store c) h o u = (st', OK).
Proof.
  intros Hc Hr Hin. pose proof (inv_reachable _ _ Hc Hr) as I.
  destruct (i_use _ I _ _ _ Hin) as [n Hv]. split; [|split].
  - apply stored_not_destroyed; [exact I|]. eapply in_stored; [apply (i_wf _ I)|exact Hv].
  - pose proof (view_range _ _ _ Hv) as Hrange. unfold designated. replace (h <? st_count (c_store c)) with true by lia.
    rewrite view_in in Hv by exact Hrange. destruct (e_object _); [|discriminate]. congruence.
  - apply held_release_ok; assumption.
Qed.

Lemma destroyed_never_used_again count c c' o h u : 0 <= count < INVALID_HANDLE -> reachable count c ->
  In o (c_dead c) -> csteps c c' -> ~ In (AUse h o u) (c_acts c').
Proof.
  intros Hc (c0 & H0 & S0) Hd S Hin.
  destruct (no_destroy_in_use count c' h o u Hc) as [H _]; auto.
  { exists c0. split; [exact H0|]. eapply csteps_trans; eauto. }
  apply H. left. eapply dead_mono; eauto.
Qed.

Lemma nodup_app_tail (l1 l2 : list Z) : NoDup (l1 ++ l2) -> NoDup l2.
Proof. induction l1; cbn; auto. intros H; inversion H; auto. Qed.

Lemma destroyed_once count c : 0 <= count < INVALID_HANDLE -> reachable count c ->
  NoDup (c_dead c) /\ incl (c_dead c) (c_made c).
Proof.
  intros Hc Hr. pose proof (inv_reachable _ _ Hc Hr) as I. split.
  - pose proof (Permutation_NoDup (i_perm _ I) (i_nodup _ I)) as Nd.
    do 3 apply nodup_app_tail in Nd. exact Nd.
  - intros x Hx. eapply Permutation_in; [symmetry; apply (i_perm _ I)|]. rewrite !in_app_iff. auto.
Qed.

(** ** C05 *)
Lemma all_none_stored st : store_wf st -> (forall k, view st k = None) -> stored st = [].
Proof.
  intros W H. unfold stored. destruct (flat_map _ (st_objects st)) as [|o l] eqn:E; [reflexivity|].
  assert (In o (flat_map (fun e => opt_list (e_object e)) (st_objects st))) as Hin by (rewrite E; left; auto).
  apply in_flat_map in Hin as (e & He & Ho). apply In_nth with (d := empty_entry) in He as (n & Hn & <-).
  specialize (H (Z.of_nat n)). rewrite view_in in H by (pose proof (wf_len _ W); lia).
  unfold get_entry in H. rewrite Nat2Z.id in H. destruct (e_object _); [discriminate|destruct Ho].
Qed.

Lemma shutdown_complete count c : 0 <= count < INVALID_HANDLE -> reachable count c -> c_phase c = PGone ->
  (forall h o u, ~ In (AUse h o u) (c_acts c)) /\
  (forall o, In o (c_made c) -> In o (c_dead c) \/ exists t, In (ARem3 (Some o) t) (c_acts c)).
Proof.
  intros Hc Hr Hp. pose proof (inv_reachable _ _ Hc Hr) as I. destruct (i_gone _ I Hp) as [Hrem Hv].
  split.
  - intros h o u Hin. destruct (i_use _ I _ _ _ Hin) as [n Hn]. rewrite Hv in Hn. discriminate.
  - intros o Ho. apply (Permutation_in _ (i_perm _ I)) in Ho.
    rewrite (all_none_stored _ (i_wf _ I) Hv), Hp in Ho. cbn in Ho. rewrite in_app_iff, in_flat_map in Ho.
    destruct Ho as [(a & Ha & Hpa)|Ho]; [right|left; exact Ho].
    destruct a as [| | |o' t|o' t]; try destruct Hpa.
    + exfalso. apply in_split in Ha as (l1 & l2 & E). rewrite E, removers_mid, removers_cons in Hrem.
      pose proof (removers_nonneg (l1 ++ l2)). change (removers []) with 0 in Hrem. lia.
    + destruct o' as [o'|]; [|destruct Hpa]. destruct Hpa as [->|[]]. eauto.
Qed.

Lemma idle_shutdown_destroys_all count c : 0 <= count < INVALID_HANDLE -> reachable count c ->
  c_phase c = PGone -> c_acts c = [] -> Permutation (c_made c) (c_dead c).
Proof.
  intros Hc Hr Hp Ha. pose proof (inv_reachable _ _ Hc Hr) as I. destruct (i_gone _ I Hp) as [Hrem Hv].
  pose proof (i_perm _ I) as P. rewrite (all_none_stored _ (i_wf _ I) Hv), Hp, Ha in P. exact P.
Qed.

Lemma refused_after_shutdown count c u h o s st' :
  0 <= count < INVALID_HANDLE -> reachable count c -> c_phase c <> PUp ->
  (store_add (c_store c) o u = (st', s, h) -> s = INTERNAL_ERROR /\ h = INVALID_HANDLE /\ st' = c_store c) /\
  (forall r, 0 <= h -> store_acquire (c_store c) h u = (st', s, r) -> s <> OK /\ r = None /\ st' = c_store c).
Proof.
  intros Hc Hr Hp. pose proof (inv_reachable _ _ Hc Hr) as I. pose proof (i_shut _ I Hp) as Hs. split.
  - unfold store_add. rewrite Hs. intros H; injection H; auto.
  - intros r Hh. unfold store_acquire. rewrite Hs. destruct (st_count (c_store c) <=? h);
      intros H; injection H as <- <- <-; repeat split; discriminate.
Qed.

(** Progress measure of a shutdown. *)
Definition act_weight (a : act) : nat :=
  match a with AUse _ _ _ => 1 | ARem0 _ _ _ => 4 | ARem1 _ _ _ => 3 | ARem2 _ _ => 2 | ARem3 _ _ => 1 end%nat.
Definition phase_weight (count : Z) (p : phase) : nat :=
  match p with
  | PUp => 2 * Z.to_nat count + 4
  | PWait => 2 * Z.to_nat count + 3
  | PSweep i => 2 * Z.to_nat (count - i) + 1
  | PFree i _ => 2 * Z.to_nat (count - i)
  | PGone => 0
  end%nat.
Definition weight (c : config) : nat :=
  (fold_right (fun a n => act_weight a + n) 0 (c_acts c) + phase_weight (st_count (c_store c)) (c_phase c))%nat.

Lemma fold_weight_mid l1 a l2 :
  (fold_right (fun a n => act_weight a + n) 0 (l1 ++ a :: l2) =
   act_weight a + fold_right (fun a n => act_weight a + n) 0 (l1 ++ l2))%nat.
Proof. induction l1; cbn; lia. Qed.

Lemma uses_exists h acts : 0 < uses h acts -> exists o u, In (AUse h o u) acts.
Proof.
  unfold uses. intros H. destruct (filter _ acts) as [|a l] eqn:E; [cbn in H; lia|].
  assert (In a (filter (fun a => match a with AUse h' _ _ => h' =? h | _ => false end) acts)) as Hin by (rewrite E; left; auto).
  apply filter_In in Hin as [Hin Hp]. destruct a as [h' o u| | | |]; try discriminate.
  assert (h' = h) by lia; subst. eauto.
Qed.

Lemma removers_exists acts : 0 < removers acts ->
  exists a, In a acts /\ match a with ARem1 _ _ _ | ARem2 _ _ => True | _ => False end.
Proof.
  unfold removers. intros H. destruct (filter _ acts) as [|a l] eqn:E; [cbn in H; lia|].
  assert (In a (filter (fun a => match a with ARem1 _ _ _ | ARem2 _ _ => true | _ => false end) acts)) as Hin by (rewrite E; left; auto).
  apply filter_In in Hin as [Hin Hp]. exists a. split; [exact Hin|]. destruct a; auto; discriminate.
Qed.

Lemma release_decreases c h o u : inv c -> c_uaf c = false -> c_phase c <> PGone -> In (AUse h o u) (c_acts c) ->
  exists c', cstep c c' /\ (weight c' < weight c)%nat /\ c_uaf c' = false /\ c_phase c' <> PUp \/ c_phase c = PUp.
Proof.
  intros I Hu Hp Hin. destruct (held_release_ok _ _ _ _ I Hin) as [st' Hs].
  pose proof (i_use _ I _ _ _ Hin) as [n Hv]. pose proof (view_range _ _ _ Hv) as Hr.
  destruct (release_wf _ _ _ _ _ _ (i_wf _ I) (proj1 Hr) Hs) as (_ & P2 & _).
  destruct c as [st acts ph made dead uaf]. cbn in *. subst uaf.
  apply in_split in Hin as (l1 & l2 & ->).
  exists (MkConfig st' (l1 ++ l2) ph made dead false).
  destruct ph; [right; reflexivity| | | |congruence]; left;
   (split; [eapply CRelease; [discriminate|exact Hs]|]);
   unfold weight; cbn [c_acts c_store c_phase c_uaf]; rewrite fold_weight_mid, P2; cbn [act_weight];
   (split; [lia|split; [reflexivity|discriminate]]).
Qed.

Lemma retry_used c h r : inv c -> 0 <= h < st_count (c_store c) ->
  snd (remove_pass (c_store c) h r) = RemRetry -> exists o u, In (AUse h o u) (c_acts c).
Proof.
  intros I Hr H. apply uses_exists. rewrite <- (i_refs _ I) by exact Hr.
  destruct (remove_pass (c_store c) h r) as [st' x] eqn:E. cbn in H. subst x.
  destruct (remove_wf _ _ _ _ _ (i_wf _ I) Hr E) as (_ & _ & _ & _ & [(_ & [Q|[Q|Q]])|Q]).
  - destruct Q; discriminate.
  - destruct Q as (? & ? & ? & ? & _ & _ & _ & Q). discriminate.
  - destruct Q as (o & w & n & Q1 & Q2 & _). rewrite view_in in Q1 by exact Hr.
    destruct (e_object _); [|discriminate]. injection Q1 as _ _ Q1. lia.
  - destruct Q as (? & ? & _ & _ & Q & _). discriminate.
Qed.

Lemma shutdown_progress c : inv c -> c_uaf c = false -> c_phase c <> PUp -> c_phase c <> PGone ->
  exists c', cstep c c' /\ (weight c' < weight c)%nat /\ c_uaf c' = false /\ c_phase c' <> PUp.
Proof.
  intros I Hu Hup Hg.
  assert (forall h o u, In (AUse h o u) (c_acts c) ->
     exists c', cstep c c' /\ (weight c' < weight c)%nat /\ c_uaf c' = false /\ c_phase c' <> PUp) as Urel.
  { intros h o u Hin. destruct (release_decreases c h o u I Hu Hg Hin) as [c' [Hx|Hx]]; [eauto|congruence]. }
  destruct c as [st acts ph made dead uaf]. cbn in Hu, Hup, Hg. subst uaf.
  destruct ph as [| |i|i o|]; try congruence.
  - destruct (st_releases st =? 0) eqn:E.
    + eexists. split; [apply CShutWait|]. rewrite E. unfold weight; cbn. split; [lia|split; [reflexivity|discriminate]].
    + assert (0 < removers acts) as Hpos.
      { pose proof (i_rel _ I). cbn in H. pose proof (removers_nonneg acts). lia. }
      destruct (removers_exists _ Hpos) as (a & Hin & Ha).
      destruct a as [| |h u t|o t|]; try destruct Ha.
      * assert (0 <= h < st_count st) as Hr. { apply (i_rem _ I h u t). right. exact Hin. }
        destruct (remove_pass st h (Some u)) as [st' r] eqn:Er.
        destruct r as [|s o].
        { destruct (retry_used _ h (Some u) I Hr) as (o & w & Huse); [cbn; rewrite Er; reflexivity|]. eauto. }
        destruct (remove_wf _ _ _ _ _ (i_wf _ I) Hr Er) as (_ & P2 & _).
        apply in_split in Hin as (l1 & l2 & ->).
        eexists. split; [eapply CRemPass; [discriminate|exact Er]|].
        unfold weight; cbn [c_acts c_store c_phase c_uaf]. rewrite !fold_weight_mid, P2. cbn.
        split; [lia|split; [reflexivity|discriminate]].
      * apply in_split in Hin as (l1 & l2 & ->).
        eexists. split; [eapply CRemDec; discriminate|].
        unfold weight; cbn [c_acts c_store c_phase c_uaf]. rewrite !fold_weight_mid. cbn.
        split; [lia|split; [reflexivity|discriminate]].
  - destruct (i_sweep _ I i (or_introl eq_refl)) as (S1 & _).
    destruct (Z_lt_dec i (st_count st)) as [Hlt|Hge].
    + destruct (remove_pass st i None) as [st' r] eqn:Er.
      destruct r as [|s o].
      { destruct (retry_used _ i None I (conj S1 Hlt)) as (o & w & Huse); [cbn; rewrite Er; reflexivity|]. eauto. }
      destruct (remove_wf _ _ _ _ _ (i_wf _ I) (conj S1 Hlt) Er) as (_ & P2 & _).
      eexists. split; [eapply CShutPass; [exact Hlt|exact Er]|].
      unfold weight; cbn [c_acts c_store c_phase c_uaf phase_weight]. rewrite P2. cbn.
      split; [lia|split; [reflexivity|discriminate]].
    + eexists. split; [eapply CShutEnd; lia|]. unfold weight; cbn.
      split; [lia|split; [reflexivity|discriminate]].
  - destruct (i_freed _ I i o eq_refl) as (F1 & _). cbn in F1.
    eexists. split; [apply CShutFree|]. unfold weight; cbn [c_acts c_store c_phase c_uaf phase_weight].
    split; [lia|split; [reflexivity|discriminate]].
Qed.

Lemma shutdown_can_finish_inv n : forall c, (weight c < n)%nat -> inv c -> c_uaf c = false -> c_phase c <> PUp ->
  exists c', csteps c c' /\ c_phase c' = PGone /\ c_uaf c' = false.
Proof.
  induction n as [|n IH]; intros c Hn I Hu Hp; [lia|].
  destruct (c_phase c) eqn:E; try congruence.
  4: { exists c. split; [constructor|auto]. }
  all: destruct (shutdown_progress c I Hu) as (c1 & S1 & W1 & U1 & P1); [congruence|congruence|];
    (destruct (IH c1) as (c2 & S2 & Hp2 & Hu2); [lia|eapply inv_step; eauto|exact U1|exact P1|]);
    exists c2; (split; [|auto]); (eapply csteps_trans; [|exact S2]); econstructor; [constructor|exact S1].
Qed.

Lemma shutdown_can_finish count c : 0 <= count < INVALID_HANDLE -> reachable count c ->
  c_uaf c = false -> c_phase c <> PUp ->
  exists c', csteps c c' /\ c_phase c' = PGone /\ c_uaf c' = false.
Proof.
  intros Hc Hr Hu Hp. eapply shutdown_can_finish_inv; eauto. eapply inv_reachable; eauto.
Qed.

(** ** Executable schedules, for witnesses *)
Inductive cmd :=
| XAdd (u : uuid) | XAcquire (h : Z) (u : uuid) | XRemove (h : Z) (u : uuid)
| XAct (i : nat) | XShut.

Definition exec (c : config) (x : cmd) : option config :=
  let 'MkConfig st acts ph made dead uaf := c in
  if uaf then None else
  match x with
  | XAdd u => match ph with PGone => None | _ =>
      let '(st', s, h) := store_add st (fresh made) u in
      Some (MkConfig st' acts ph (if status_eqb s OK then fresh made :: made else made) dead false) end
  | XAcquire h u => match ph with PGone => None | _ =>
      if h <? 0 then None else
      let '(st', s, o) := store_acquire st h u in
      Some (MkConfig st' (match o with Some y => AUse h y u :: acts | None => acts end) ph made dead false) end
  | XRemove h u => match ph with PGone => None | _ =>
      if (0 <=? h) && (h <? st_count st)
      then Some (MkConfig st (ARem0 h u (designated st h) :: acts) ph made dead false) else None end
  | XAct i =>
      match nth_error acts i with
      | None => None
      | Some a =>
          let l1 := firstn i acts in let l2 := skipn (S i) acts in
          match ph with
          | PGone => match a with
                     | ARem3 None _ => Some (MkConfig st (l1 ++ l2) ph made dead false)
                     | _ => Some (MkConfig st (l1 ++ a :: l2) ph made dead true) end
          | _ =>
            match a with
            | AUse h o u => let '(st', _) := store_release st h o u in Some (MkConfig st' (l1 ++ l2) ph made dead false)
            | ARem0 h u t => let '(st', b) := increment_release_count st in
                Some (MkConfig st' (l1 ++ (if b then [ARem1 h u t] else []) ++ l2) ph made dead false)
            | ARem1 h u t => let '(st', r) := remove_pass st h (Some u) in
                Some (MkConfig st' (l1 ++ (match r with RemRetry => ARem1 h u t | RemDone _ o => ARem2 o t end) :: l2)
                               ph made dead false)
            | ARem2 o t => Some (MkConfig (decrement_release_count st) (l1 ++ ARem3 o t :: l2) ph made dead false)
            | ARem3 o t => Some (MkConfig st (l1 ++ l2) ph made (opt_list o ++ dead) false)
            end
          end
      end
  | XShut =>
      match ph with
      | PUp => Some (MkConfig (set_shutting st) acts PWait made dead false)
      | PWait => Some (MkConfig st acts (if st_releases st =? 0 then PSweep 0 else PWait) made dead false)
      | PSweep i => if i <? st_count st then
            let '(st', r) := remove_pass st i None in
            Some (MkConfig st' acts (match r with RemRetry => PSweep i | RemDone _ o => PFree i o end) made dead false)
          else Some (MkConfig st acts PGone made dead false)
      | PFree i o => Some (MkConfig st acts (PSweep (i + 1)) made (opt_list o ++ dead) false)
      | PGone => None
      end
  end.

Fixpoint execs (c : config) (xs : list cmd) : option config :=
  match xs with
  | [] => Some c
  | x :: xs' => match exec c x with Some c' => execs c' xs' | None => None end
  end.

Lemma split_at {A} (l : list A) i a : nth_error l i = Some a -> l = firstn i l ++ a :: skipn (S i) l.
Proof.
  revert i; induction l as [|x l IH]; intros [|i] H; try discriminate; cbn in *.
  - injection H as ->. reflexivity.
  - f_equal. apply IH. exact H.
Qed.

Lemma exec_sound c x c' : exec c x = Some c' -> cstep c c'.
Proof.
  destruct c as [st acts ph made dead uaf]. unfold exec. destruct uaf; [discriminate|].
  destruct x as [u|h u|h u|i|].
  - intros H. assert (ph <> PGone) as Hg by (destruct ph; discriminate).
    destruct (store_add st (fresh made) u) as [[st' s] h] eqn:E.
    assert (c' = MkConfig st' acts ph (if status_eqb s OK then fresh made :: made else made) dead false) as -> by (destruct ph; congruence).
    eapply CAdd; eauto.
  - intros H. assert (ph <> PGone) as Hg by (destruct ph; discriminate).
    destruct (h <? 0) eqn:Eh; [destruct ph; discriminate|].
    destruct (store_acquire st h u) as [[st' s] o] eqn:E.
    assert (c' = MkConfig st' (match o with Some y => AUse h y u :: acts | None => acts end) ph made dead false) as -> by (destruct ph; congruence).
    eapply CAcquire; eauto. lia.
  - intros H. assert (ph <> PGone) as Hg by (destruct ph; discriminate).
    destruct ((0 <=? h) && (h <? st_count st)) eqn:E; [|destruct ph; discriminate].
    assert (c' = MkConfig st (ARem0 h u (designated st h) :: acts) ph made dead false) as -> by (destruct ph; congruence).
    apply CRemCall; auto. lia.
  - destruct (nth_error acts i) as [a|] eqn:E; [|discriminate]. apply split_at in E.
    set (l1 := firstn i acts) in *. set (l2 := skipn (S i) acts) in *. clearbody l1 l2. subst acts.
    intros H.
    destruct ph as [| |i0|i0 o0|]; try (destruct a as [h o u|h u t|h u t|o t|o t];
     [destruct (store_release st h o u) as [st' s] eqn:E; injection H as <-; eapply CRelease; [discriminate|exact E]
     |destruct (increment_release_count st) as [st' b] eqn:E; injection H as <-; eapply CRemInc; [discriminate|exact E]
     |destruct (remove_pass st h (Some u)) as [st' r] eqn:E; injection H as <-; eapply CRemPass; [discriminate|exact E]
     |injection H as <-; eapply CRemDec; discriminate
     |injection H as <-; eapply CRemFree; discriminate]).
    destruct a as [h o u|h u t|h u t|o t|[o|] t]; injection H as <-;
      try (apply CUseAfterFree; exact Logic.I). apply CRemEnd.
  - destruct ph; try discriminate; intros H.
    + injection H as <-. apply CShutFlag.
    + injection H as <-. apply CShutWait.
    + destruct (i <? st_count st) eqn:E.
      * destruct (remove_pass st i None) as [st' r] eqn:E2. injection H as <-. eapply CShutPass; [lia|exact E2].
      * injection H as <-. apply CShutEnd. lia.
    + injection H as <-. apply CShutFree.
Qed.

Lemma execs_sound xs : forall c c', execs c xs = Some c' -> csteps c c'.
Proof.
  induction xs as [|x xs IH]; intros c c' H; cbn in H; [injection H as <-; constructor|].
  destruct (exec c x) as [c1|] eqn:E; [|discriminate].
  apply (csteps_trans c c1 c'); [|apply IH; exact H]. apply (cs_step c c c1); [constructor|apply (exec_sound c x); exact E].
Qed.

Definition start (count : Z) : option config :=
  match store_init count with Some st => Some (MkConfig st [] PUp [] [] false) | None => None end.

Lemma execs_reachable count c0 xs c : start count = Some c0 -> execs c0 xs = Some c -> reachable count c.
Proof.
  unfold start. destruct (store_init count) as [st|] eqn:E; [|discriminate]. intros H H2. injection H as <-.
  exists (MkConfig st [] PUp [] [] false). split; [exists st; auto|]. eapply execs_sound; eauto.
Qed.

Definition play (xs : list cmd) : option config :=
  match start 256 with Some c0 => execs c0 xs | None => None end.

Lemma play_reachable xs c : play xs = Some c -> reachable 256 c.
Proof. unfold play. destruct (start 256) as [c0|] eqn:E; [|discriminate]. apply execs_reachable. exact E. Qed.

Definition summary (c : config) := (c_acts c, c_phase c, c_made c, c_dead c, c_uaf c).

Lemma play_summary xs a p m d u : option_map summary (play xs) = Some (a, p, m, d, u) ->
  exists c, reachable 256 c /\ c_acts c = a /\ c_phase c = p /\ c_made c = m /\ c_dead c = d /\ c_uaf c = u.
Proof.
  destruct (play xs) as [c|] eqn:E; [|discriminate]. cbn. intros H. exists c.
  split; [eapply play_reachable; exact E|]. unfold summary in H. injection H; auto 10.
Qed.

(** A release call that has given back its release count but not yet freed its object
    reads the store's free function after shutdown has freed the store. *)
Definition uaf_schedule : list cmd :=
  [XAdd 7; XRemove 31 7; XAct 0; XAct 0; XAct 0; XShut; XShut] ++ repeat XShut 513 ++ [XAct 0].

Lemma store_use_after_free : exists c, reachable 256 c /\
  c_acts c = [ARem3 (Some 1) (Some 1)] /\ c_phase c = PGone /\ c_made c = [1] /\ c_dead c = [] /\ c_uaf c = true.
Proof. apply (play_summary uaf_schedule). vm_compute. reflexivity. Qed.

(** Two release calls for the same handle by the same client, and a creation between
    them: the second call destroys the new object. *)
Definition aba_schedule : list cmd :=
  [XAdd 7; XRemove 31 7; XAct 0; XRemove 31 7; XAct 0; XAct 1; XAdd 7; XAct 0; XAct 0].

Lemma release_hits_new_object : exists c, reachable 256 c /\
  c_acts c = [ARem3 (Some 2) (Some 1); ARem2 (Some 1) (Some 1)] /\ c_phase c = PUp /\
  c_made c = [2; 1] /\ c_dead c = [] /\ c_uaf c = false.
Proof. apply (play_summary aba_schedule). vm_compute. reflexivity. Qed.

(** A busy configuration: one object in use by its owner, another client's object, a
    release call waiting for the use to end, and a shutdown waiting for that call. *)
Definition busy_schedule : list cmd :=
  [XAdd 7; XAdd 8; XAcquire 31 7; XRemove 31 7; XAct 0; XAct 0; XShut; XShut].

Lemma busy_config : exists c, reachable 256 c /\ c_acts c = [ARem1 31 7 (Some 1); AUse 31 1 7] /\
  c_phase c = PWait /\ c_made c = [2; 1] /\ c_dead c = [] /\ c_uaf c = false.
Proof. apply (play_summary busy_schedule). vm_compute. reflexivity. Qed.

(** ...which then runs to completion: both objects destroyed. *)
Lemma finished_config : exists c, reachable 256 c /\ c_acts c = [] /\
  c_phase c = PGone /\ c_made c = [2; 1] /\ c_dead c = [2; 1] /\ c_uaf c = false.
Proof.
  apply (play_summary (busy_schedule ++ [XAct 1; XAct 0; XAct 0; XAct 0] ++ repeat XShut 514)).
  vm_compute. reflexivity.
Qed.
