(** Memory safety of the whole system: results. *)
From Verif Require Import Base M_Slots M_ObjectStore S_ObjectStore P_ObjectStore M_Rights S_Rights P_Rights M_Svp M_Prog
  M_ApiKey M_ApiCipher M_ApiMac M_ApiSvp M_Api S_Api M_World S_World P_Prog P_ApiGuard P_ApiAccount P_Api P_Birth P_WorldReach P_WorldBirth
  S_Safe P_Accounts P_Safe P_Safe2 P_Safe3 P_Safe4.

Section Step.
Variables (sy : system) (i : nat) (t : thread) (ch : choice).
Hypotheses (R : reaches sy) (C : calm_system sy) (S : safe (s_world sy) (s_threads sy)) (T : nth_error (s_threads sy) i = Some t).
Notation w := (s_world sy).
Notation h := (t_hist t).
Lemma own_did e : In e h -> did sy e.
Proof. intros H. eapply in_did; eauto. Qed.
Lemma acquired_is s x v p o : In (EAcquire s x v (Got p)) h -> w_heap w p = Some o ->
  match s with
  | SClients => True | SKeys _ => exists k, o = OWrapped k | SCiphers _ => exists c, o = OCipher c
  | SMacs _ => exists m, o = OMac m | SSvps _ => exists b, o = OSvp b
  end.
Proof.
  intros H E. destruct (acquired_kind _ R C _ _ _ _ (own_did _ H)) as (h0&o0&[_ K]&D&_).
  pose proof (heap_kind _ R _ _ _ D E) as Sk.
  destruct s; [exact Logic.I|..]; destruct o0; try contradiction; destruct o; cbn in Sk; try discriminate Sk; eauto.
Qed.
(** The object that contains a part is held, and the part is alive. *)
Lemma key_part_alive p : key_part h p -> exists o, w_heap w p = Some o /\ exists key, o = OKey key.
Proof.
  intros (q&ci&[Hq _]&Hin&Ek). destruct Hq as (s&x&Hr). destruct (held_stands _ _ S _ _ _ _ _ T Hr) as (n&Hn&_).
  assert (stands w s x q) as St by now exists (t_user t), n.
  destruct (m_live _ _ (sf_mem _ _ S) _ _ _ St) as [oq Eq].
  destruct (read_kind _ R _ _ _ _ (own_did _ Hin) eq_refl Eq) as (o0&S1&S2).
  assert (belongs w s x p) as B.
  { apply belongs_stands. exists q, oq. split; [exact St|]. split; [exact Eq|]. right.
    rewrite <- (similar_children _ _ _ S1 S2). cbn. now left. }
  destruct (m_part _ _ (sf_mem _ _ S) _ _ _ B) as [o E]. exists o. split; [exact E|].
  eapply key_kind; eauto. now apply own_did.
Qed.
Lemma mac_part_alive p : mac_part h p -> exists o, w_heap w p = Some o /\ exists st, o = OMacState st.
Proof.
  intros (q&m&[Hq _]&Hin&Ek). destruct Hq as (s&x&Hr). destruct (held_stands _ _ S _ _ _ _ _ T Hr) as (n&Hn&_).
  assert (stands w s x q) as St by now exists (t_user t), n.
  destruct (m_live _ _ (sf_mem _ _ S) _ _ _ St) as [oq Eq].
  destruct (read_kind _ R _ _ _ _ (own_did _ Hin) eq_refl Eq) as (o0&S1&S2).
  assert (belongs w s x p) as B.
  { apply belongs_stands. exists q, oq. split; [exact St|]. split; [exact Eq|]. right.
    rewrite <- (similar_children _ _ _ S1 S2). cbn. now left. }
  destruct (m_part _ _ (sf_mem _ _ S) _ _ _ B) as [o E]. exists o. split; [exact E|].
  eapply mac_kind; eauto. now apply own_did.
Qed.
Lemma goes_or_crash c (k : resp c -> prog status) (f : obj -> option (resp c)) p o r : w_heap w p = Some o -> f o = Some r ->
  (forall s x q, refs (event c r :: h) s x q = refs h s x q) -> (forall q, locks (event c r :: h) q = locks h q) ->
  (forall q, owned (event c r :: h) q = owned h q) -> goes sy i t k (or_crash w (read w p f)).
Proof.
  intros E F A B D. unfold read. rewrite E, F. cbn [or_crash]. now apply goes_quiet.
Qed.
Lemma step_set p o k : same_kind h p o -> goes sy i t k (serve w i ch (CSetObj p o)).
Proof.
  intros H. cbn [serve].
  assert (exists o1 o0, w_heap w p = Some o1 /\ similar o1 o0 /\ similar o o0) as (o1&o0&E&S1&S2).
  { destruct o as [| | | |ci'|st'| | |b']; cbn in H; try contradiction.
    - destruct H as ([Hh _]&ci&Hin&A). destruct (held_alive _ _ S _ _ _ T Hh) as [o1 E].
      destruct (read_kind _ R _ _ _ _ (own_did _ Hin) eq_refl E) as (o0&S1&S2). exists o1, o0. split; [exact E|].
      split; [exact S2|]. destruct o0; cbn in *; try discriminate S1. unfold alike_cipher in *. intuition congruence.
    - destruct H as (Hm&st&Hin&A). destruct (mac_part_alive _ Hm) as (o1&E&_).
      destruct (read_kind _ R _ _ _ _ (own_did _ Hin) eq_refl E) as (o0&S1&S2). exists o1, o0. split; [exact E|].
      split; [exact S2|]. destruct o0; cbn in *; try discriminate S1. congruence.
    - destruct H as ([Hh _]&b&Hin). destruct (held_alive _ _ S _ _ _ T Hh) as [o1 E].
      destruct (read_kind _ R _ _ _ _ (own_did _ Hin) eq_refl E) as (o0&S1&S2). exists o1, o0. split; [exact E|].
      split; [exact S2|]. destruct o0; cbn in *; try discriminate S1. exact Logic.I. }
  rewrite E. intros Y. eapply (safe_quiet _ _ S _ i t (next_thread t (k tt) (ESetObj p o)) T eq_refl Y); try (intros; reflexivity).
  intros q. cbn [set_heap w_heap]. destruct (q =? p) eqn:Eq; [|reflexivity]. apply Z.eqb_eq in Eq as ->. rewrite E. cbn.
  now rewrite (similar_children _ _ _ S1 S2).
Qed.
Lemma goes_on c k : t_prog t = Do c k -> goes sy i t k (serve w i ch c).
Proof.
  intros P. destruct (reaches_paths sy R) as [G On].
  assert (issues (t_call t) (t_slot t) (t_user t) c h) as Is.
  { exists k. rewrite <- P. exact (On _ _ T). }
  pose proof (born_steps _ _ _ _ _ Is) as B. pose proof (order_steps _ _ _ _ _ Is (C _ _ T)) as O.
  pose proof (guard_steps _ _ _ _ _ Is) as Gd. clear Is On P.
  destruct c; cbn [in_order born guard] in *.
  - destruct Gd as [-> _]. now apply step_acquire.
  - destruct Gd as [-> _]. destruct O as [[O1 _] [O2 _]]. now apply step_release.
  - destruct Gd as [-> _]. destruct O as (O1&O2&_). now apply step_add.
  - destruct Gd as [-> _]. destruct O as [O1 _]. now apply step_remove.
  - destruct O as [O1 _]. now apply step_lock.
  - now apply step_unlock.
  - now apply step_new.
  - now apply step_free.
  - destruct (held_alive _ _ S _ _ _ T O) as [o E]. destruct B as (c&x&v&B).
    destruct (acquired_is _ _ _ _ _ B E) as [key ->]. cbn [serve]. eapply goes_or_crash; [exact E|reflexivity|intros; reflexivity..].
  - destruct (key_part_alive _ O) as (o&E&key&->). cbn [serve]. eapply goes_or_crash; [exact E|reflexivity|intros; reflexivity..].
  - destruct O as [O _]. destruct (held_alive _ _ S _ _ _ T O) as [o E]. destruct B as (c&x&v&B).
    destruct (acquired_is _ _ _ _ _ B E) as [ci ->]. cbn [serve]. eapply goes_or_crash; [exact E|reflexivity|intros; reflexivity..].
  - destruct O as [O _]. destruct (held_alive _ _ S _ _ _ T O) as [o E]. destruct B as (c&x&v&B).
    destruct (acquired_is _ _ _ _ _ B E) as [ci ->]. cbn [serve]. eapply goes_or_crash; [exact E|reflexivity|intros; reflexivity..].
  - destruct (mac_part_alive _ O) as (o&E&st&->). cbn [serve]. eapply goes_or_crash; [exact E|reflexivity|intros; reflexivity..].
  - destruct O as [O _]. destruct (held_alive _ _ S _ _ _ T O) as [o E]. destruct B as (c&x&v&B).
    destruct (acquired_is _ _ _ _ _ B E) as [ci ->]. cbn [serve]. eapply goes_or_crash; [exact E|reflexivity|intros; reflexivity..].
  - now apply step_set.
  - cbn [serve]. apply goes_quiet; auto; intros; reflexivity.
  - cbn [serve]. apply goes_quiet; auto; intros; reflexivity.
  - cbn [serve]. destruct O as [(Ow&Hin)|[(Kp&_)|(Mp&_)]].
    + destruct (m_kept _ _ (sf_mem _ _ S) i p) as [o E]; [now exists t|]. rewrite E.
      pose proof (heap_kind _ R _ _ _ (own_did _ Hin) E) as Sk. destruct o; cbn in Sk; try discriminate Sk.
      apply goes_quiet; auto; intros; reflexivity.
    + destruct (key_part_alive _ Kp) as (o&E&key&->). rewrite E. apply goes_quiet; auto; intros; reflexivity.
    + destruct (mac_part_alive _ Mp) as (o&E&st&->). rewrite E. apply goes_quiet; auto; intros; reflexivity.
  - cbn [serve]. apply goes_quiet; auto; intros; reflexivity.
  - cbn [serve]. apply goes_quiet; auto; intros; reflexivity.
  - contradiction.
Qed.
Lemma ordered c k : t_prog t = Do c k -> in_order h c.
Proof.
  intros P. destruct (reaches_paths sy R) as [_ On]. eapply order_steps; [|exact (C _ _ T)].
  exists k. rewrite <- P. exact (On _ _ T).
Qed.
End Step.

Lemma calm_started sy k slot u : calm_system (MkSystem (s_world sy) (s_threads sy ++ [start k slot u])) -> calm_system sy.
Proof.
  intros H i t T. apply (H i t). cbn. rewrite nth_error_app1; [exact T|]. apply nth_error_Some. congruence.
Qed.
Lemma calm_before sy i t w p e : nth_error (s_threads sy) i = Some t ->
  calm_system (MkSystem w (update i (MkThread (t_call t) (t_slot t) (t_user t) p (e :: t_hist t)) (s_threads sy))) -> calm_system sy.
Proof.
  intros T H j t0 Tj. destruct (Nat.eq_dec i j) as [<-|N].
  - rewrite T in Tj. injection Tj as <-.
    assert (i < length (s_threads sy))%nat as L by (apply nth_error_Some; congruence).
    specialize (H i _ (nth_error_update_eq i _ _ L)). cbn in H.
    apply (calm_less _ _ (e :: t_hist t)); [now right|exact H].
  - apply (H j t0). cbn. now rewrite nth_error_update_neq.
Qed.
Lemma boot_handle s x : handle (s_world boot) s x = None.
Proof.
  unfold handle. cbn [boot s_world w_stores]. destruct s; try reflexivity.
  destruct init_some as [st E]. rewrite E. now apply init_view.
Qed.
Lemma nth_app_one {A} (l : list A) a j b : nth_error (l ++ [a]) j = Some b -> nth_error l j = Some b \/ (j = length l /\ b = a).
Proof.
  intros H. destruct (Nat.lt_ge_cases j (length l)) as [L|L].
  - rewrite nth_error_app1 in H by exact L. now left.
  - rewrite nth_error_app2 in H by exact L. right. destruct (j - length l)%nat as [|[|n]] eqn:E; try discriminate.
    cbn in H. injection H as <-. split; [lia|reflexivity].
Qed.
Lemma safe_boot : safe (s_world boot) [].
Proof.
  assert (forall s x p, ~ belongs (s_world boot) s x p) as N.
  { intros s x p (q&u&n&o&H&_). rewrite boot_handle in H. discriminate. }
  assert (forall s x p, ~ stands (s_world boot) s x p) as N'.
  { intros s x p (u&n&H). rewrite boot_handle in H. discriminate. }
  assert (forall i p, ~ keeps [] i p) as N2.
  { intros i p (t&H&_). destruct i; discriminate. }
  constructor.
  - intros [|i] t H; discriminate.
  - intros [|i] t p H; discriminate.
  - constructor; try (intros; exfalso; first [eapply N; eassumption | eapply N'; eassumption | eapply N2; eassumption]).
    intros p [o H]. discriminate.
  - constructor; [intros [|i] t s x p H; discriminate|]. intros s x p u n H. rewrite boot_handle in H. discriminate.
  - intros p i. cbn. now destruct i.
  - constructor.
    + destruct init_some as [st E]. cbn. rewrite E. discriminate.
    + intros s c H. split; [destruct s; cbn in *; congruence|]. intros [x Hx]. now apply N' in Hx.
Qed.
Lemma safe_start w ts k slot u : safe w ts -> safe w (ts ++ [start k slot u]).
Proof.
  intros [S1 S2 S3 S4 S5 S6].
  assert (forall j p, keeps (ts ++ [start k slot u]) j p <-> keeps ts j p) as HK.
  { intros j p. split; intros (t&H&O).
    - apply nth_app_one in H as [H|[_ ->]]; [now exists t|]. cbn in O. lia.
    - exists t. split; [|exact O]. rewrite nth_error_app1; [exact H|]. apply nth_error_Some. congruence. }
  constructor; auto.
  - intros j t H. apply nth_app_one in H as [H|[_ ->]]; [eauto|]. apply tidy_start.
  - intros j t p H. apply nth_app_one in H as [H|[_ ->]]; [eauto|]. cbn. lia.
  - eapply mem_ext; [exact S3|exact HK|reflexivity|reflexivity].
  - destruct S4 as [R1 R2]. constructor.
    + intros j t s x p H Hr. apply nth_app_one in H as [H|[_ ->]]; [eauto|]. cbn in Hr. lia.
    + intros s x p v n H. unfold total. rewrite sum_app. cbn. rewrite (R2 _ _ _ _ _ H). unfold total. lia.
  - intros p j. rewrite S5. destruct (nth_error (ts ++ [start k slot u]) j) as [t|] eqn:E.
    + apply nth_app_one in E as [E|[-> ->]]; [now rewrite E|].
      assert (nth_error ts (length ts) = None) as -> by now apply nth_error_None. reflexivity.
    + apply nth_error_None in E. rewrite app_length in E. cbn in E.
      assert (nth_error ts j = None) as -> by (apply nth_error_None; lia). reflexivity.
Qed.
Lemma safe_reaches sy : reaches sy -> calm_system sy -> safe (s_world sy) (s_threads sy).
Proof.
  induction 1 as [|sy k slot u H IH|sy i ch sy' H IH Ru]; intros C.
  - exact safe_boot.
  - apply calm_started in C. now apply safe_start, IH.
  - unfold run_step in Ru. destruct (nth_error (s_threads sy) i) as [t|] eqn:T; [|discriminate].
    destruct (t_prog t) as [|c k] eqn:P; [discriminate|].
    destruct (serve (s_world sy) i ch c) as [w r| |] eqn:Se; try discriminate. injection Ru as <-.
    pose proof (calm_before _ _ _ _ _ _ T C) as C0. specialize (IH C0).
    pose proof (goes_on sy i t ch H C0 IH T c k P) as Go. rewrite Se in Go. apply Go.
    apply tidy_step; [exact (sf_tidy _ _ IH _ _ T)|]. eapply ordered; eauto.
Qed.
(** No call ever does anything undefined. *)
Lemma never_crashes sy i ch : reaches sy -> calm_system sy -> run_step sy i ch <> RunCrash.
Proof.
  intros R C E. pose proof (safe_reaches _ R C) as S. unfold run_step in E.
  destruct (nth_error (s_threads sy) i) as [t|] eqn:T; [|discriminate].
  destruct (t_prog t) as [|c k] eqn:P; [discriminate|].
  pose proof (goes_on sy i t ch R C S T c k P) as Go.
  destruct (serve (s_world sy) i ch c) as [w r| |] eqn:Se; try discriminate. exact Go.
Qed.
(** Every allocation has exactly one owner. *)
Lemma owned_by_one sy p : reaches sy -> calm_system sy -> w_heap (s_world sy) p <> None ->
  (exists i, keeps (s_threads sy) i p /\ (forall j, keeps (s_threads sy) j p -> j = i) /\ forall s x, ~ belongs (s_world sy) s x p) \/
  (exists s x, belongs (s_world sy) s x p /\ (forall s' x', belongs (s_world sy) s' x' p -> s' = s /\ x' = x) /\
               forall i, ~ keeps (s_threads sy) i p).
Proof.
  intros R C E. pose proof (safe_reaches _ R C) as S. pose proof (sf_mem _ _ S) as M.
  destruct (w_heap (s_world sy) p) as [o|] eqn:Eo; [|congruence].
  destruct (m_lost _ _ M p (ex_intro _ _ Eo)) as [[i Hi]|(s&x&B)]; [left|right].
  - exists i. split; [exact Hi|]. split.
    + intros j Hj. exact (m_keepers _ _ M _ _ _ Hj Hi).
    + intros s x B. exact (m_apart _ _ M _ _ _ _ Hi B).
  - exists s, x. split; [exact B|]. split.
    + intros s' x' B'. exact (m_handles _ _ M _ _ _ _ _ B' B).
    + intros i Hi. exact (m_apart _ _ M _ _ _ _ Hi B).
Qed.
(** What is owned or named is there. *)
Lemma nothing_dangles sy p : reaches sy -> calm_system sy ->
  (exists i, keeps (s_threads sy) i p) \/ (exists s x u n, handle (s_world sy) s x = Some (p, u, n)) \/
  (exists s x, belongs (s_world sy) s x p) -> w_heap (s_world sy) p <> None.
Proof.
  intros R C H. pose proof (safe_reaches _ R C) as S. pose proof (sf_mem _ _ S) as M.
  assert (alive (s_world sy) p) as [o E].
  { destruct H as [[i H]|[(s&x&u&n&H)|(s&x&H)]].
    - exact (m_kept _ _ M _ _ H).
    - apply (m_live _ _ M s x). now exists u, n.
    - exact (m_part _ _ M _ _ _ H). }
  congruence.
Qed.
(** When all calls have returned. *)
Lemma rest_settled sy i t : reaches sy -> calm_system sy -> at_rest sy -> nth_error (s_threads sy) i = Some t -> settled (t_hist t).
Proof.
  intros R C Q T. destruct (Q _ _ T) as [s P]. destruct (reaches_paths sy R) as [_ On].
  refine (proj1 (final_state (t_call t) (t_slot t) (t_user t) (t_hist t) s _ (C _ _ T))).
  unfold returns. pose proof (On _ _ T) as H. unfold on_path in H. rewrite P in H. exact H.
Qed.
Lemma rest_clean sy : reaches sy -> calm_system sy -> at_rest sy ->
  w_mutex (s_world sy) = [] /\
  (forall s x p u n, handle (s_world sy) s x = Some (p, u, n) -> n = 0) /\
  (forall p, w_heap (s_world sy) p <> None -> exists s x, belongs (s_world sy) s x p).
Proof.
  intros R C Q. pose proof (safe_reaches _ R C) as S.
  assert (forall i t, nth_error (s_threads sy) i = Some t -> settled (t_hist t)) as St by (intros; eapply rest_settled; eauto).
  split; [|split].
  - destruct (w_mutex (s_world sy)) as [|[p i] l] eqn:E; [reflexivity|]. exfalso.
    pose proof (sf_locks _ _ S p i) as L. rewrite E in L. cbn [lock_count fst snd] in L. rewrite Z.eqb_refl, Nat.eqb_refl in L.
    cbn [andb] in L. pose proof (lock_count_nonneg p i l). destruct (nth_error (s_threads sy) i) as [t|] eqn:T; [|lia].
    destruct (St _ _ T) as (_&L0&_). rewrite L0 in L. lia.
  - intros s x p u n H. rewrite (r_count _ _ (sf_refs _ _ S) _ _ _ _ _ H). apply sum_zero. intros t Ht.
    apply In_nth_error in Ht as [i T]. apply (St _ _ T).
  - intros p E. destruct (w_heap (s_world sy) p) as [o|] eqn:Eo; [|congruence].
    destruct (m_lost _ _ (sf_mem _ _ S) p (ex_intro _ _ Eo)) as [[i (t&T&H)]|H]; [|exact H]. exfalso.
    destruct (St _ _ T) as (_&_&O). rewrite O in H. lia.
Qed.
(** ... and all clients are gone. *)
Lemma rest_empty sy : reaches sy -> calm_system sy -> at_rest sy -> (forall x, handle (s_world sy) SClients x = None) ->
  forall p, w_heap (s_world sy) p = None.
Proof.
  intros R C Q N p. pose proof (safe_reaches _ R C) as S. destruct (rest_clean sy R C Q) as (_&_&H).
  destruct (w_heap (s_world sy) p) as [o|] eqn:E; [|reflexivity]. exfalso.
  destruct (H p) as (s&x&q&u&n&o'&Hh&_); [congruence|].
  destruct (client_of s) as [c|] eqn:Ec.
  - destruct (tb_stores _ (sf_tables _ _ S) s c Ec) as [Hs _]. destruct Hs as [y (v&m&Hy)]; [|rewrite N in Hy; discriminate].
    unfold handle in Hh. intros En. rewrite En in Hh. discriminate.
  - destruct s; try discriminate. rewrite N in Hh. discriminate.
Qed.
(** An object stays as long as a call holds it. *)
Lemma held_stays sy i t s x p : reaches sy -> calm_system sy -> nth_error (s_threads sy) i = Some t ->
  1 <= refs (t_hist t) s x p ->
  (exists n, handle (s_world sy) s x = Some (p, t_user t, n) /\ 1 <= n) /\ w_heap (s_world sy) p <> None.
Proof.
  intros R C T H. pose proof (safe_reaches _ R C) as S. destruct (held_stands _ _ S _ _ _ _ _ T H) as (n&Hn&H1).
  split; [eauto|]. destruct (held_alive _ _ S i t p T) as [o E]; [now exists s, x|]. congruence.
Qed.
(** A reference count is the number of references the calls hold. *)
Lemma counts_add_up sy s x p u n : reaches sy -> calm_system sy -> handle (s_world sy) s x = Some (p, u, n) ->
  n = sum_of (fun t => refs (t_hist t) s x p) (s_threads sy).
Proof. intros R C H. exact (r_count _ _ (sf_refs _ _ (safe_reaches _ R C)) _ _ _ _ _ H). Qed.
(** The stores of a client are there as long as the client. *)
Lemma stores_of_clients sy s c : reaches sy -> calm_system sy -> client_of s = Some c ->
  (w_stores (s_world sy) s <> None <-> exists x u n, handle (s_world sy) SClients x = Some (c, u, n)).
Proof. intros R C H. exact (tb_stores _ (sf_tables _ _ (safe_reaches _ R C)) _ _ H). Qed.
