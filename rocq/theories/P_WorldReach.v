(** Every call of a reachable system is somewhere on a path of its program. *)
From Verif Require Import Base M_Slots M_ObjectStore S_ObjectStore P_ObjectStore M_Rights M_Svp M_Prog
  M_ApiKey M_ApiCipher M_Api S_Api M_World S_World.

Definition store_good (st : store) : Prop :=
  store_wf st /\ st_count st = 256 /\ st_shutting st = false.
Definition stores_good (w : world) : Prop := forall s st, w_stores w s = Some st -> store_good st.

Lemma init_good st : store_init NUM_SLOTS = Some st -> store_good st.
Proof.
  intros H. destruct (store_init_wf NUM_SLOTS st) as [[W [E _]] C]; [now compute|exact H|].
  split; [exact W|]. split; [exact C|]. now rewrite <- E.
Qed.
Lemma init_some : exists st, store_init NUM_SLOTS = Some st.
Proof. eexists. reflexivity. Qed.

Lemma good_set w s st : stores_good w -> (forall x, st = Some x -> store_good x) -> stores_good (set_store w s st).
Proof.
  intros H1 H2 s' st'. cbn. destruct (sid_eqb s' s); [apply H2|apply H1].
Qed.
Lemma good_heap w p o : stores_good w -> stores_good (set_heap w p o).
Proof. exact (fun H => H). Qed.
Lemma good_init w c : stores_good w -> stores_good (init_stores w c).
Proof.
  intros H. unfold init_stores, client_stores. cbn [fold_left].
  repeat apply good_set; auto; apply init_good.
Qed.
Lemma free_all_stores l : forall w w', free_all w l = Some w' ->
  w_stores w' = w_stores w /\ w_next w' = w_next w /\ w_mutex w' = w_mutex w.
Proof.
  induction l as [|p l IH]; cbn; intros w w' H; [injection H as <-; auto|].
  destruct (w_heap w p); [|discriminate]. destruct (locked w p); [discriminate|].
  apply IH in H. exact H.
Qed.
Lemma destroy_stores w p w' : destroy w p = Some w' ->
  w_stores w' = w_stores w /\ w_next w' = w_next w /\ w_mutex w' = w_mutex w.
Proof. unfold destroy. destruct (w_heap w p); [|discriminate]. apply free_all_stores. Qed.
Lemma destroy_all_stores l : forall w w', destroy_all w l = Some w' ->
  w_stores w' = w_stores w /\ w_next w' = w_next w /\ w_mutex w' = w_mutex w.
Proof.
  induction l as [|p l IH]; cbn; intros w w' H; [injection H as <-; auto|].
  destruct (destroy w p) as [w1|] eqn:E; [|discriminate].
  apply destroy_stores in E as (E1&E2&E3). apply IH in H as (H1&H2&H3).
  rewrite H1, H2, H3. auto.
Qed.
Lemma shut_good l : forall w w', stores_good w -> shut_stores w l = Some (Some w') -> stores_good w'.
Proof.
  induction l as [|s l IH]; cbn; intros w w' G H; [injection H as <-; auto|].
  unfold shut_store in H. destruct (w_stores w s) as [st|] eqn:E; [|discriminate].
  destruct (busy st); [discriminate|].
  destruct (destroy_all w (objects_of st)) as [w1|] eqn:D; [|discriminate].
  apply IH in H; [exact H|]. apply good_set; [|discriminate].
  intros s' st'. apply destroy_all_stores in D as (->&_). apply G.
Qed.

Lemma serve_good w i ch c w' r : stores_good w -> serve w i ch c = Served w' r -> stores_good w' /\ legal c r.
Proof.
  intros G H. destruct c; cbn [serve legal] in *;
    try (unfold or_crash, read in H; destruct (w_heap w p) as [o|]; [destruct o|]; try discriminate;
         injection H as <- <-; split; [exact G|exact I]).
  - (* acquire *)
    destruct (w_stores w s) as [st|] eqn:E; [|discriminate]. pose proof (G _ _ E) as (W&C&S).
    destruct (h <? 0) eqn:En; [injection H as <- <-; split; [exact G|discriminate]|].
    destruct (store_acquire st h u) as [[st' e] o] eqn:A.
    apply acquire_wf in A as (A1&A2&A3&A4&A5); [|exact W|lia].
    destruct o as [p|]; injection H as <- <-.
    + split; [|exact I]. apply good_set; [exact G|]. intros x X. injection X as <-.
      split; [exact A4|]. split; congruence.
    + split; [exact G|]. destruct A5 as [(_&_&[(_&_&->)|[(->&_)|(->&_)]])|(_&_&o&n&A5&_)]; discriminate.
  - (* release *)
    destruct (w_stores w s) as [st|] eqn:E; [|discriminate]. pose proof (G _ _ E) as (W&C&S).
    injection H as <- <-. split; [|exact I]. apply good_set; [exact G|]. intros x X. injection X as <-.
    destruct (store_release st h p u) as [st' e] eqn:R. cbn.
    destruct (Z_lt_ge_dec h 0) as [Hn|Hp].
    + unfold store_release in R.
      destruct (st_count st <=? h); [injection R as <- <-; split; auto|].
      destruct (negb (e_owner (get_entry st h) =? u)); [injection R as <- <-; split; auto|].
      (* a negative handle would be entry 0 *)
      replace (get_entry st h) with (get_entry st 0) in R by (unfold get_entry; now destruct h).
      replace (set_entry st h) with (set_entry st 0) in R by (unfold set_entry; now destruct h).
      destruct (e_object (get_entry st 0)) as [o|] eqn:Eo; cbn [negb] in R;
        [|injection R as <- <-; split; auto].
      destruct (o =? p); cbn [negb] in R; [|injection R as <- <-; split; auto].
      destruct (e_refs (get_entry st 0) =? 0) eqn:Er; injection R as <- <-; [split; auto|].
      split; [|auto]. pose proof (wf_refs _ W 0). apply wf_set_entry; cbn [e_object e_refs].
      * exact W.
      * lia.
      * split; [discriminate|congruence].
      * lia.
      * discriminate.
    + apply release_wf in R as (A1&A2&A3&A4&A5); [|exact W|lia]. split; [exact A4|]. split; congruence.
  - (* add *)
    destruct (w_stores w s) as [st|] eqn:E; [|discriminate]. pose proof (G _ _ E) as (W&C&S).
    destruct (w_heap w p) as [o'|]; [|discriminate].
    destruct (store_add st p u) as [[st' e] x] eqn:A.
    apply add_wf in A as (A1&A2&A3&A5); [|exact W].
    destruct A5 as [(_&->&->&->)|[(_&_&->&->&->)|(A6&A7&A8&->&A9&A10)]]; injection H as <- <-;
      try (split; [exact G|discriminate]).
    split.
    + assert (stores_good (set_store (set_heap w p (Some o)) s (Some st'))) as G'.
      { apply good_set; [exact G|]. intros y Y. injection Y as <-. split; [exact A9|]. split; congruence. }
      destruct s; auto using good_init.
    + rewrite C in A7. change INVALID_HANDLE with (2^64 - 1). lia.
  - (* remove *)
    destruct (w_stores w s) as [st|] eqn:E; [|discriminate]. pose proof (G _ _ E) as (W&C&S).
    destruct ((h <? 0) || (st_count st <=? h)) eqn:En; [injection H as <- <-; split; [exact G|exact I]|].
    apply orb_false_iff in En as [E1 E2].
    destruct (remove_pass st h (Some u)) as [st' e] eqn:R.
    apply remove_wf in R as (A1&A2&A3&A4&A5); [|exact W|lia].
    destruct e as [|e [p|]]; [discriminate| |injection H as <- <-; split; [exact G|exact I]].
    split; [|destruct w'; exact I].
    assert (stores_good (set_store w s (Some st'))) as G'.
    { apply good_set; [exact G|]. intros y Y. injection Y as <-. split; [exact A4|]. split; congruence. }
    assert (forall wa wb, stores_good wa -> destroy wa p = Some wb -> stores_good wb) as GD.
    { intros wa wb Ga D s' x. apply destroy_stores in D as (->&_). apply Ga. }
    destruct s.
    1: destruct (shut_stores (set_store w SClients (Some st')) (client_stores p)) as [[w1|]|] eqn:Sh;
         try discriminate; apply shut_good in Sh; [|exact G'];
       destruct (destroy w1 p) as [w2|] eqn:D; [|discriminate]; injection H as <- <-; eauto.
    all: match type of H with match ?d with _ => _ end = _ => destruct d as [w2|] eqn:D end;
         [|discriminate]; injection H as <- <-; eauto.
  - (* lock *)
    destruct (w_heap w p); [|discriminate]. destruct (locked_by_other w p i); [discriminate|].
    injection H as <- <-. split; [exact G|exact I].
  - destruct (w_heap w p); [|discriminate]. destruct (locked_by w p i); [|discriminate].
    injection H as <- <-. split; [exact G|exact I].
  - destruct (ch_alloc ch); injection H as <- <-; split; try exact I; exact G.
  - destruct (free_all w (p :: children o)) as [w1|] eqn:F; [|discriminate].
    injection H as <- <-. split; [|exact I]. intros s st. apply free_all_stores in F as (->&_). apply G.
  - destruct (w_heap w p); [|discriminate]. injection H as <- <-. split; [exact G|exact I].
  - injection H as <- <-. split; [exact G|exact I].
  - injection H as <- <-. split; [exact G|exact I].
  - destruct (w_heap w p) as [o|]; [destruct o|]; try discriminate; injection H as <- <-; split; try exact I; exact G.
  - injection H as <- <-. split; [exact G|exact I].
  - injection H as <- <-. split; [exact G|exact I].
  - discriminate.
Qed.

Lemma reach_snoc {A} (p : prog A) h c k h' r :
  reach p h (Do c k) h' -> legal c r -> reach p h (k r) (event c r :: h').
Proof.
  intros HR. remember (Do c k) as q eqn:Eq. revert Eq. induction HR; intros Eq L.
  - subst. eapply reach_step; [exact L|]. apply reach_refl.
  - eapply reach_step; eauto.
Qed.

Definition on_path (t : thread) : Prop := reach (api (t_call t) (t_slot t) (t_user t)) [] (t_prog t) (t_hist t).

Lemma nth_error_update_in {A} i (x : A) l j y :
  nth_error (update i x l) j = Some y -> (i = j /\ y = x) \/ nth_error l j = Some y.
Proof.
  destruct (Nat.eq_dec i j) as [->|N].
  - intros H. left. split; [reflexivity|].
    assert (j < length l)%nat as L. { rewrite <- (update_length j x l). apply nth_error_Some. congruence. }
    rewrite nth_error_update_eq in H by exact L. congruence.
  - rewrite nth_error_update_neq by exact N. auto.
Qed.

Lemma reaches_paths sy : reaches sy -> stores_good (s_world sy) /\
  forall i t, nth_error (s_threads sy) i = Some t -> on_path t.
Proof.
  induction 1 as [|sy k slot u H [G P]|sy i ch sy' H [G P] R].
  - split; [|intros [|i] t; discriminate]. intros s st. destruct s; cbn [boot s_world w_stores]; try discriminate.
    apply init_good.
  - split; [exact G|]. cbn. intros i t Ht.
    destruct (Nat.lt_ge_cases i (length (s_threads sy))) as [L|L].
    + rewrite nth_error_app1 in Ht by exact L. eauto.
    + rewrite nth_error_app2 in Ht by exact L. destruct (i - length (s_threads sy))%nat as [|[|n]]; try discriminate.
      injection Ht as <-. apply reach_refl.
  - unfold run_step in R. destruct (nth_error (s_threads sy) i) as [t|] eqn:Et; [|discriminate].
    destruct (t_prog t) as [|c k] eqn:Ep; [discriminate|].
    destruct (serve (s_world sy) i ch c) as [w r| |] eqn:S; try discriminate. injection R as <-. cbn.
    apply serve_good in S as [G' L]; [|exact G]. split; [exact G'|].
    intros j t' Hj. apply nth_error_update_in in Hj as [[<- ->]|Hj]; [|eauto].
    unfold on_path. cbn. apply reach_snoc; [|exact L]. rewrite <- Ep. exact (P _ _ Et).
Qed.

Lemma steps_reaches n i ch : forall sy sy', reaches sy -> steps n sy i ch = Some sy' -> reaches sy'.
Proof.
  induction n as [|n IH]; cbn [steps]; intros sy sy' H S; [injection S as <-; exact H|].
  destruct (run_step sy i ch) as [sy1| | |] eqn:R; try discriminate.
  eapply IH; [|exact S]. econstructor; eauto.
Qed.
Lemma finish_reaches n i ch : forall sy sy', reaches sy -> finish n sy i ch = Some sy' -> reaches sy'.
Proof.
  induction n as [|n IH]; cbn [finish]; intros sy sy' H S;
    destruct (run_step sy i ch) as [sy1| | |] eqn:R; try discriminate; try (injection S as <-; exact H).
  eapply IH; [|exact S]. econstructor; eauto.
Qed.
Lemma schedule_reaches l : forall sy sy', reaches sy -> schedule sy l = Some sy' -> reaches sy'.
Proof.
  induction l as [|[k slot u|i n ch|i ch] l IH]; cbn [schedule]; intros sy sy' H S.
  - injection S as <-. exact H.
  - eapply IH; [|exact S]. now constructor.
  - destruct (steps n sy i ch) as [sy1|] eqn:R; [|discriminate]. eapply IH; [|exact S]. eapply steps_reaches; eauto.
  - destruct (finish 1000 sy i ch) as [sy1|] eqn:R; [|discriminate]. eapply IH; [|exact S]. eapply finish_reaches; eauto.
Qed.

(** ** Reading a schedule: what call [i] has done, and what it is about to do or has returned *)
Definition next_cmd (p : prog status) : cmd + status := match p with Ret s => inr s | Do c _ => inl c end.
Definition at_call (sy : option system) (i : nat) : option (call * Z * uuid * list ev * (cmd + status)) :=
  match sy with
  | Some sy => match nth_error (s_threads sy) i with
               | Some t => Some (t_call t, t_slot t, t_user t, t_hist t, next_cmd (t_prog t))
               | None => None
               end
  | None => None
  end.
Lemma schedule_doing l i k slot u h c :
  at_call (schedule boot l) i = Some (k, slot, u, h, inl c) -> exists sy, schedule boot l = Some sy /\ doing sy i k slot u h c.
Proof.
  unfold at_call. destruct (schedule boot l) as [sy|] eqn:S; [|discriminate].
  destruct (nth_error (s_threads sy) i) as [t|] eqn:T; [|discriminate].
  intros E. injection E as <- <- <- <- E. exists sy. split; [reflexivity|].
  apply schedule_reaches in S; [|constructor]. split; [exact S|].
  destruct t as [k' slot' u' p h']. cbn in *. destruct p as [|c' kk]; [discriminate|]. injection E as ->. now exists kk.
Qed.
Lemma schedule_done l i k slot u h s :
  at_call (schedule boot l) i = Some (k, slot, u, h, inr s) -> exists sy, schedule boot l = Some sy /\ done sy i k slot u h s.
Proof.
  unfold at_call. destruct (schedule boot l) as [sy|] eqn:S; [|discriminate].
  destruct (nth_error (s_threads sy) i) as [t|] eqn:T; [|discriminate].
  intros E. injection E as <- <- <- <- E. exists sy. split; [reflexivity|].
  apply schedule_reaches in S; [|constructor]. split; [exact S|].
  destruct t as [k' slot' u' p h']. cbn in *. destruct p as [s'|]; [|discriminate]. injection E as ->. exact T.
Qed.
(** What a call of the system does is among what its program can do. *)
Lemma doing_issues sy i k slot u h c : doing sy i k slot u h c -> issues k slot u c h.
Proof.
  intros [R [cont T]]. destruct (reaches_paths _ R) as [_ P]. specialize (P _ _ T). now exists cont.
Qed.
Lemma done_returns sy i k slot u h s : done sy i k slot u h s -> returns k slot u h s.
Proof. intros [R T]. destruct (reaches_paths _ R) as [_ P]. exact (P _ _ T). Qed.
Lemma schedule_issues l i k slot u h c :
  at_call (schedule boot l) i = Some (k, slot, u, h, inl c) -> issues k slot u c h.
Proof. intros H. apply schedule_doing in H as (sy&_&H). eapply doing_issues; eauto. Qed.
Lemma schedule_returns l i k slot u h s :
  at_call (schedule boot l) i = Some (k, slot, u, h, inr s) -> returns k slot u h s.
Proof. intros H. apply schedule_done in H as (sy&_&H). eapply done_returns; eauto. Qed.

(** Calm, as a check. *)
Definition status_ok (s : status) : bool := match s with OK => true | _ => false end.
Definition known (b : option ubuf) : bool := match b with Some (UBad _) => false | _ => true end.
Definition calmb (k : call) (h : list ev) : bool :=
  match k with
  | KCipherInit _ _ _ _ _ =>
      forallb (fun e => match e with
                        | EAcquire (SCiphers _) _ _ (Failed _) => false
                        | EExt XAlloc a => status_ok (a_status a)
                        | _ => true end) h
  | KCipherProcess out _ inp _ | KCipherProcessLast out _ inp _ _ => known out && known inp
  | KSvpRelease _ | KSvpCheck _ _ _ _ _ => forallb (fun e => match e with ESvp _ None => false | _ => true end) h
  | _ => true
  end.
Lemma calmb_calm k h : calmb k h = true -> calm k h.
Proof.
  assert (forall b, known b = true -> known_buffer b) as K.
  { intros b H t ->. discriminate. }
  destruct k; cbn [calmb calm]; auto; rewrite ?forallb_forall, ?andb_true_iff.
  - intros H. split.
    + intros c x v s Hi. apply H in Hi. discriminate.
    + intros a Hi. apply H in Hi. cbn in Hi. now destruct (a_status a).
  - intros []. auto.
  - intros []. auto.
  - intros H p Hi. apply H in Hi. discriminate.
  - intros H p Hi. apply H in Hi. discriminate.
Qed.
Lemma schedule_calm l sy : schedule boot l = Some sy ->
  match schedule boot l with Some sy => forallb (fun t => calmb (t_call t) (t_hist t)) (s_threads sy) | None => false end = true ->
  calm_system sy.
Proof.
  intros ->. rewrite forallb_forall. intros H i t Ht. apply calmb_calm, H. eapply nth_error_In; eauto.
Qed.
