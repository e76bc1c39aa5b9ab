(** Memory safety of the whole system: the invariant holds, and nothing crashes. *)
From Verif Require Import Base M_Slots M_ObjectStore S_ObjectStore P_ObjectStore M_Rights S_Rights P_Rights M_Svp M_Prog
  M_ApiKey M_ApiCipher M_ApiMac M_ApiSvp M_Api S_Api M_World S_World P_Prog P_ApiGuard P_ApiAccount P_Api P_Birth P_WorldReach P_WorldBirth
  S_Safe P_Accounts P_Safe P_Safe2 P_Safe3.

Lemma calm_less k h h' : incl h h' -> calm k h' -> calm k h.
Proof.
  intros H. destruct k; cbn [calm]; auto.
  - intros [A B]. split; [intros c x v s Hin|intros a Hin]; [eapply A|eapply B]; eauto.
  - intros A p Hin. eapply A; eauto.
  - intros A p Hin. eapply A; eauto.
Qed.

Section Kinds.
Variable sy : system.
Hypotheses (R : reaches sy) (C : calm_system sy).
Lemma stored_kind s q o u x : did sy (EAdd s q o u (Got x)) -> exists h, kind_ok h s q o /\ forall e, In e h -> did sy e.
Proof.
  intros (t&h&M). destruct (made_issues _ _ _ _ R M) as (c&r&Is&E).
  assert (calm (t_call t) h) as Ch.
  { destruct M as [[i T] [h' Eh]]. apply (calm_less _ _ (t_hist t)); [|exact (C _ _ T)].
    rewrite Eh. intros a Ha. apply in_or_app. right. now right. }
  pose proof (order_steps _ _ _ _ _ Is Ch) as Ord.
  destruct c; cbn [event] in E; try discriminate; try (destruct r; discriminate).
  injection E as -> -> -> -> _. destruct Ord as (_&_&K). exists h. split; [exact K|]. intros e He. eapply made_before; eauto.
Qed.
Lemma heap_kind p o o0 : did sy (ENew o0 (Some p)) -> w_heap (s_world sy) p = Some o -> similar o o0.
Proof.
  intros D E. pose proof (inv_reaches _ R) as I. destruct (i_heap _ I _ _ E) as (o1&D1&S1).
  now rewrite (i_one _ I _ _ _ D D1).
Qed.
Lemma acquired_kind s x v p : did sy (EAcquire s x v (Got p)) -> exists h o, kind_ok h s p o /\ did sy (ENew o (Some p)) /\
  forall e, In e h -> did sy e.
Proof.
  intros D. destruct (i_acquire _ (inv_reaches _ R) _ _ _ _ D) as [o A]. destruct (stored_kind _ _ _ _ _ A) as (h&K&H).
  exists h, o. split; [exact K|]. split; [apply H, K|exact H].
Qed.
(** What was read is what is still there. *)
Lemma read_kind e p o o' : did sy e -> found e = Some (p, o) -> w_heap (s_world sy) p = Some o' -> exists o0, similar o o0 /\ similar o' o0.
Proof.
  intros D F E. destruct (i_read _ (inv_reaches _ R) _ _ _ D F) as (o0&D0&S0). exists o0. split; [exact S0|]. eapply heap_kind; eauto.
Qed.
Lemma similar_children o o' o0 : similar o o0 -> similar o' o0 -> children o = children o'.
Proof.
  destruct o0, o; cbn [similar]; intros A B; try discriminate; destruct o'; cbn [similar] in B; try discriminate;
    try reflexivity; try congruence.
  destruct A as (_&_&A&A'), B as (_&_&B&B'). cbn. now rewrite A, A', B, B'.
Qed.
(** The parts of a stored object have their kinds. *)
Lemma key_kind s x q p ci o : stands (s_world sy) s x q -> did sy (ECipher q ci) -> ci_key ci = p ->
  w_heap (s_world sy) p = Some o -> exists key, o = OKey key.
Proof.
  intros (u&n&H) Dc Ek Ep. unfold handle in H. destruct (w_stores (s_world sy) s) as [st|] eqn:Es; [|discriminate].
  pose proof (view_range _ _ _ H) as Hr. rewrite view_in in H by exact Hr.
  destruct (e_object (get_entry st x)) as [q'|] eqn:Eo; [|discriminate]. injection H as -> <- <-.
  destruct (i_store _ (inv_reaches _ R) _ _ _ _ Es (proj1 Hr) Eo) as [o1 A].
  destruct (stored_kind _ _ _ _ _ A) as (h&[K1 K2]&H).
  destruct (i_read _ (inv_reaches _ R) _ _ _ Dc eq_refl) as (o0&D0&S0).
  rewrite (i_one _ (inv_reaches _ R) _ _ _ D0 (H _ K1)) in S0.
  destruct o1; cbn in S0; try discriminate. destruct S0 as (_&_&_&Ek'). destruct s; try contradiction.
  destruct K2 as (key&K2&_). rewrite <- Ek', Ek in K2. pose proof (heap_kind _ _ _ (H _ K2) Ep) as Sk.
  destruct o; cbn in Sk; try discriminate. eauto.
Qed.
Lemma mac_kind s x q p m o : stands (s_world sy) s x q -> did sy (EMac q m) -> mc_ctx m = p ->
  w_heap (s_world sy) p = Some o -> exists st, o = OMacState st.
Proof.
  intros (u&n&H) Dc Ek Ep. unfold handle in H. destruct (w_stores (s_world sy) s) as [st|] eqn:Es; [|discriminate].
  pose proof (view_range _ _ _ H) as Hr. rewrite view_in in H by exact Hr.
  destruct (e_object (get_entry st x)) as [q'|] eqn:Eo; [|discriminate]. injection H as -> <- <-.
  destruct (i_store _ (inv_reaches _ R) _ _ _ _ Es (proj1 Hr) Eo) as [o1 A].
  destruct (stored_kind _ _ _ _ _ A) as (h&[K1 K2]&H).
  destruct (i_read _ (inv_reaches _ R) _ _ _ Dc eq_refl) as (o0&D0&S0).
  rewrite (i_one _ (inv_reaches _ R) _ _ _ D0 (H _ K1)) in S0.
  destruct o1; cbn in S0; try discriminate. injection S0 as <-. destruct s; try contradiction.
  destruct K2 as (st0&K2). rewrite Ek in K2. pose proof (heap_kind _ _ _ (H _ K2) Ep) as Sk.
  destruct o; cbn in Sk; try discriminate. eauto.
Qed.
End Kinds.

Lemma handle_set w s st' s1 x1 : handle (set_store w s (Some st')) s1 x1 = if sid_dec s1 s then view st' x1 else handle w s1 x1.
Proof. unfold handle, set_store, sid_eqb. cbn. now destruct (sid_dec s1 s). Qed.
Lemma stores_set w s st' s1 : w_stores (set_store w s (Some st')) s1 = if sid_dec s1 s then Some st' else w_stores w s1.
Proof. unfold set_store, sid_eqb. cbn. now destruct (sid_dec s1 s). Qed.
Lemma init_view st x : store_init NUM_SLOTS = Some st -> view st x = None.
Proof.
  intros E. destruct (view st x) as [[[q u] n]|] eqn:V; [|reflexivity]. pose proof (view_range _ _ _ V) as Hr.
  rewrite view_in, init_entry in V by assumption. discriminate.
Qed.
Lemma in_client_stores s c : In s (client_stores c) <-> client_of s = Some c.
Proof.
  unfold client_stores. cbn [In]. destruct s; cbn [client_of]; split; intros H;
    repeat (destruct H as [H|H]; try discriminate; [..]); try contradiction; try congruence; injection H as ->; auto 6.
Qed.
Lemma init_stores_in w c s : w_stores (init_stores w c) s =
  if in_dec sid_dec s (client_stores c) then store_init NUM_SLOTS else w_stores w s.
Proof.
  unfold init_stores, client_stores. cbn [fold_left set_store w_stores]. unfold sid_eqb.
  destruct (in_dec sid_dec s [SKeys c; SCiphers c; SMacs c; SSvps c]) as [H|H].
  - cbn [In] in H. destruct (sid_dec s (SSvps c)); [reflexivity|]. destruct (sid_dec s (SMacs c)); [reflexivity|].
    destruct (sid_dec s (SCiphers c)); [reflexivity|]. destruct (sid_dec s (SKeys c)); [reflexivity|]. intuition congruence.
  - cbn [In] in H. destruct (sid_dec s (SSvps c)); [intuition congruence|]. destruct (sid_dec s (SMacs c)); [intuition congruence|].
    destruct (sid_dec s (SCiphers c)); [intuition congruence|]. destruct (sid_dec s (SKeys c)); [intuition congruence|]. reflexivity.
Qed.

(** ** One step *)
Section Step.
Variables (sy : system) (i : nat) (t : thread) (ch : choice).
Hypotheses (R : reaches sy) (C : calm_system sy) (S : safe (s_world sy) (s_threads sy)) (T : nth_error (s_threads sy) i = Some t).
Let w := s_world sy.
Let ts := s_threads sy.
Definition next_thread (p : prog status) (e : ev) : thread := MkThread (t_call t) (t_slot t) (t_user t) p (e :: t_hist t).
(** Whom a command waits for. *)
Definition delayed (c : cmd) : Prop :=
  exists j tj, nth_error ts j = Some tj /\
    match c with
    | CRemove s x _ => exists p, 1 <= refs (t_hist tj) s x p
    | CLock p => j <> i /\ 1 <= locks (t_hist tj) p
    | _ => False
    end.
Definition goes {c} (k : resp c -> prog status) (r : served (resp c)) : Prop :=
  match r with
  | Crash => False
  | Blocked => delayed c
  | Served w' r => tidy (event c r :: t_hist t) -> safe w' (update i (next_thread (k r) (event c r)) ts)
  end.
Lemma goes_quiet c (k : resp c -> prog status) r :
  (forall s x p, refs (event c r :: t_hist t) s x p = refs (t_hist t) s x p) ->
  (forall p, locks (event c r :: t_hist t) p = locks (t_hist t) p) ->
  (forall p, owned (event c r :: t_hist t) p = owned (t_hist t) p) -> goes k (Served w r).
Proof. intros. intros Y. eapply safe_quiet; eauto. Qed.
Lemma goes_read A (f : obj -> option A) p (o : obj) : w_heap w p = Some o -> f o <> None ->
  exists a, or_crash w (read w p f) = Served w a.
Proof. intros E N. unfold read. rewrite E. destruct (f o) as [a|] eqn:Ef; [exists a; reflexivity|congruence]. Qed.

Lemma step_acquire s x k : client_held (t_hist t) s -> goes k (serve w i ch (CAcquire s x (t_user t))).
Proof.
  intros H. destruct (store_there _ _ S _ _ _ T H) as [st Es]. cbn [serve]. unfold w. rewrite Es. fold w.
  destruct (proj1 (reaches_paths _ R) _ _ Es) as (W&_&_).
  destruct (x <? 0) eqn:Ex; [apply goes_quiet; intros; reflexivity|].
  destruct (store_acquire st x (t_user t)) as [[st' e] o] eqn:A.
  apply acquire_wf in A as (_&_&_&_&A); [|exact W|lia].
  destruct A as [(->&->&A)|(->&_&p&n&->&V&V')]; [apply goes_quiet; intros; reflexivity|].
  intros Y. eapply (safe_recount _ _ S _ i t (next_thread (k (Got p)) (EAcquire s x (t_user t) (Got p))) T eq_refl Y s x p n 1);
    try (intros; reflexivity).
  - intros s1 x1 p1. cbn [next_thread t_hist refs]. lia.
  - unfold handle. now rewrite Es.
  - intros s1 x1. rewrite handle_set. destruct (sid_dec s1 s) as [->|N].
    + rewrite V'. destruct (x1 =? x) eqn:E.
      * apply Z.eqb_eq in E as ->. now destruct (name_dec (s, x) (s, x)).
      * apply Z.eqb_neq in E. destruct (name_dec (s, x1) (s, x)); [congruence|]. unfold handle. now rewrite Es.
    + now destruct (name_dec (s1, x1) (s, x)); [congruence|].
  - intros s1. rewrite stores_set. destruct (sid_dec s1 s) as [->|N]; [|reflexivity]. rewrite Es. split; discriminate.
Qed.
Lemma step_release s x p k : 1 <= refs (t_hist t) s x p -> client_held (t_hist t) s ->
  goes k (serve w i ch (CRelease s x p (t_user t))).
Proof.
  intros Hr H. destruct (store_there _ _ S _ _ _ T H) as [st Es]. cbn [serve]. unfold w. rewrite Es. fold w.
  destruct (proj1 (reaches_paths _ R) _ _ Es) as (W&_&_).
  destruct (held_stands _ _ S _ _ _ _ _ T Hr) as (n&Hn&H1).
  assert (view st x = Some (p, t_user t, n)) as V by (unfold handle in Hn; now rewrite Es in Hn).
  pose proof (view_range _ _ _ V) as Hx.
  destruct (store_release st x p (t_user t)) as [st' e] eqn:A. cbn [fst].
  apply release_wf in A as (_&_&_&_&A); [|exact W|lia].
  destruct A as [(->&_&A)|(->&n'&V0&_&V')]; [rewrite (A n V) in H1; lia|].
  rewrite V in V0. injection V0 as <-.
  intros Y. eapply (safe_recount _ _ S _ i t (next_thread (k tt) (ERelease s x p (t_user t))) T eq_refl Y s x p n (-1));
    try (intros; reflexivity).
  - intros s1 x1 p1. cbn [next_thread t_hist refs]. lia.
  - exact Hn.
  - intros s1 x1. rewrite handle_set. destruct (sid_dec s1 s) as [->|N].
    + rewrite V'. destruct (x1 =? x) eqn:E.
      * apply Z.eqb_eq in E as ->. now destruct (name_dec (s, x) (s, x)).
      * apply Z.eqb_neq in E. destruct (name_dec (s, x1) (s, x)); [congruence|]. unfold handle. now rewrite Es.
    + now destruct (name_dec (s1, x1) (s, x)); [congruence|].
  - intros s1. rewrite stores_set. destruct (sid_dec s1 s) as [->|N]; [|reflexivity]. rewrite Es. split; discriminate.
Qed.
(** What a call still keeps after giving a list away. *)
Lemma keeps_less t' l : (forall x, count x l <= owned (t_hist t) x) ->
  (forall x, owned (t_hist t') x = owned (t_hist t) x - count x l) ->
  forall j q, keeps (update i t' ts) j q <-> keeps ts j q /\ ~ In q l.
Proof.
  intros H O j q. destruct (owned_list _ _ S _ _ _ T H) as [D L]. unfold ts. rewrite (keeps_update _ _ _ _ _ _ T), O. split.
  - intros [[-> H1]|[N K]].
    + pose proof (count_nonneg q l). split; [exists t; split; [exact T|lia]|]. intros Hin.
      destruct (L q Hin) as (_&E1&E2). lia.
    + split; [exact K|]. intros Hin. destruct (L q Hin) as (K'&_). apply N.
      exact (m_keepers _ _ (sf_mem _ _ S) _ _ _ K K').
  - intros [K N]. destruct (Nat.eq_dec j i) as [->|Nj]; [left|right; auto]. split; [reflexivity|].
    rewrite (count_out _ _ N). destruct K as (t0&E&K). rewrite T in E. injection E as <-. lia.
Qed.
Lemma tables_same w' : (forall s, w_stores w' s = None <-> w_stores w s = None) ->
  (forall x q, stands w' SClients x q <-> stands w SClients x q) -> tables w'.
Proof.
  intros A B. destruct (sf_tables _ _ S) as [B1 B2]. constructor.
  - now rewrite A.
  - intros s c Hc. rewrite A. fold w in B2. rewrite (B2 s c Hc). split; intros [x Hx]; exists x; now apply B.
Qed.
Lemma step_free p o k : (forall x, count x (p :: children o) <= owned (t_hist t) x) -> goes k (serve w i ch (CFree p o)).
Proof.
  intros H. destruct (owned_list _ _ S _ _ _ T H) as [D L]. cbn [serve].
  destruct (free_all_ok (p :: children o) w D) as (w'&E&(B1&B2&B3)&W).
  { intros q Hq. destruct (L q Hq) as (K&_). split; [exact (m_kept _ _ (sf_mem _ _ S) _ _ K)|].
    exact (kept_unlocked _ _ S _ _ K). }
  rewrite E. intros Y.
  assert (forall s x, handle w' s x = handle w s x) as Hh by (intros; unfold handle; now rewrite B1).
  eapply (safe_memory _ _ S w' i t (next_thread (k tt) (EFree p o)) T eq_refl Y); try (intros; reflexivity).
  - intros q. cbn [next_thread t_hist owned]. pose proof (count_nonneg q (p :: children o)).
    pose proof (sf_once _ _ S i t q T). lia.
  - intros *. now rewrite Hh.
  - intros *. rewrite Hh. auto.
  - exact B3.
  - eapply (mem_free _ _ _ _ i (p :: children o) (sf_mem _ _ S)).
    + intros q Hq. apply (L q Hq).
    + apply (keeps_less _ (p :: children o)); [exact H|]. intros q. cbn [next_thread t_hist owned]. lia.
    + intros. unfold stands. now rewrite Hh.
    + exact W.
  - apply tables_same; [now rewrite B1|]. intros. unfold stands. now rewrite Hh.
Qed.
Lemma fresh_none : w_heap w (w_next w) = None.
Proof.
  destruct (w_heap w (w_next w)) as [o|] eqn:E; [|reflexivity]. exfalso.
  pose proof (inv_reaches _ R) as I. destruct (i_heap _ I _ _ E) as (o0&D&_). apply (i_old _ I) in D. unfold w in D. lia.
Qed.
Lemma step_new o k : goes k (serve w i ch (CNew o)).
Proof.
  cbn [serve]. destruct (ch_alloc ch); [|apply goes_quiet; intros; reflexivity]. intros Y. pose proof fresh_none as F.
  assert (owned (t_hist t) (w_next w) = 0) as O0.
  { pose proof (td_owned _ (sf_tidy _ _ S _ _ T) (w_next w)). destruct (Z_lt_dec (owned (t_hist t) (w_next w)) 1); [lia|].
    exfalso. destruct (m_kept _ _ (sf_mem _ _ S) i (w_next w)) as [o' E]; [exists t; split; [exact T|lia]|].
    fold w in E. congruence. }
  eapply (safe_memory _ _ S _ i t (next_thread (k (Some (w_next w))) (ENew o (Some (w_next w)))) T eq_refl Y);
    cbn [w_mutex set_heap]; try (intros; reflexivity).
  - intros q. cbn [next_thread t_hist owned]. unfold hit. destruct (Z.eq_dec (w_next w) q) as [<-|N]; [lia|].
    pose proof (sf_once _ _ S i t q T). lia.
  - auto.
  - auto.
  - eapply (mem_new _ _ w _ i (w_next w) o (sf_mem _ _ S) F).
    + intros j q. unfold ts. rewrite (keeps_update _ _ _ _ _ _ T). cbn [next_thread t_hist owned]. unfold hit.
      destruct (Z.eq_dec (w_next w) q) as [<-|N]; split.
      * intros [[-> _]|[_ K]]; auto.
      * intros [K|[-> _]]; [|left; split; [reflexivity|lia]].
        destruct (m_kept _ _ (sf_mem _ _ S) j (w_next w) K) as [o' E]. fold w in E. congruence.
      * intros [[-> H]|[Nj K]]; [|auto]. left. exists t. split; [exact T|lia].
      * intros [K|[_ E]]; [|congruence]. destruct (Nat.eq_dec j i) as [->|Nj]; [left|right; auto].
        split; [reflexivity|]. destruct K as (t0&E&K). rewrite T in E. injection E as <-. lia.
    + intros. reflexivity.
    + cbn [w_heap set_heap]. now rewrite Z.eqb_refl.
    + intros q N. cbn [w_heap set_heap]. apply Z.eqb_neq in N. now rewrite N.
  - apply tables_same; reflexivity.
Qed.
Lemma step_lock p k : held (t_hist t) p -> goes k (serve w i ch (CLock p)).
Proof.
  intros H. destruct (held_alive _ _ S _ _ _ T H) as [o E]. cbn [serve]. unfold w. rewrite E. fold w.
  destruct (locked_by_other w p i) eqn:Ol; [|intros Y].
  { unfold locked_by_other in Ol. apply existsb_exists in Ol as ([p' j]&Hin&Ej). cbn in Ej. apply andb_true_iff in Ej as [E1 E2].
    apply Z.eqb_eq in E1 as ->. apply negb_true_iff, Nat.eqb_neq in E2.
    assert (1 <= lock_count p j (w_mutex w)) as L.
    { clear -Hin. induction (w_mutex w) as [|e l IH]; [destruct Hin|]. cbn. pose proof (lock_count_nonneg p j l).
      destruct Hin as [->|Hin]; [cbn; rewrite Z.eqb_refl, Nat.eqb_refl; cbn; lia|]. specialize (IH Hin). 
      destruct ((fst e =? p) && Nat.eqb (snd e) j); lia. }
    unfold w in L. rewrite (sf_locks _ _ S p j) in L. fold ts in L. destruct (nth_error ts j) as [tj|] eqn:Tj; [|lia]. exists j, tj. auto. }
  eapply (safe_locks _ _ S _ i t (next_thread (k tt) (ELock p)) T eq_refl Y); try (intros; reflexivity).
  eapply locking_step; [exact (sf_locks _ _ S)|exact T|]. intros q j. cbn [w_mutex lock_count fst snd next_thread t_hist locks].
  unfold hit. destruct (Z.eq_dec p q) as [<-|N].
  - rewrite Z.eqb_refl. destruct (Nat.eqb i j); cbn [andb]; unfold w in *; lia.
  - apply Z.eqb_neq in N. rewrite N. destruct (Nat.eqb i j); cbn [andb]; unfold w in *; lia.
Qed.
Lemma step_unlock p k : held_locked (t_hist t) p -> goes k (serve w i ch (CUnlock p)).
Proof.
  intros [H HL]. destruct (held_alive _ _ S _ _ _ T H) as [o E]. cbn [serve]. unfold w. rewrite E. fold w.
  pose proof (sf_locks _ _ S p i) as L. rewrite T in L. fold w in L.
  assert (locked_by w p i = true) as Lb by (apply locked_by_count; lia). rewrite Lb. intros Y.
  eapply (safe_locks _ _ S _ i t (next_thread (k tt) (EUnlock p)) T eq_refl Y); try (intros; reflexivity).
  eapply locking_step; [exact (sf_locks _ _ S)|exact T|]. intros q j. cbn [w_mutex next_thread t_hist locks].
  rewrite drop_lock_count by lia.
  unfold hit. destruct (Z.eq_dec p q) as [<-|N].
  - rewrite Z.eqb_refl. destruct (Nat.eqb i j); cbn [andb]; unfold w in *; lia.
  - apply Z.eqb_neq in N. rewrite N. destruct (Nat.eqb i j); cbn [andb]; unfold w in *; lia.
Qed.
Lemma step_add s p o k : (forall x, count x (p :: children o) <= owned (t_hist t) x) -> client_held (t_hist t) s ->
  goes k (serve w i ch (CAdd s p o (t_user t))).
Proof.
  intros H Hc. destruct (owned_list _ _ S _ _ _ T H) as [D L].
  destruct (store_there _ _ S _ _ _ T Hc) as [st Es].
  destruct (proj1 (reaches_paths _ R) _ _ Es) as (W&_&_).
  destruct (L p (or_introl eq_refl)) as (Kp&_).
  destruct (m_kept _ _ (sf_mem _ _ S) _ _ Kp) as [o' Ep]. cbn [serve]. unfold w. rewrite Es, Ep. fold w.
  destruct (store_add st p (t_user t)) as [[st' e] x] eqn:A.
  apply add_wf in A as (_&_&_&A); [|exact W].
  destruct A as [(_&->&->&->)|[(_&_&->&->&->)|(_&Hx&V&->&_&V')]]; [apply goes_quiet; intros; reflexivity..|].
  set (w1 := set_store (set_heap w p (Some o)) s (Some st')).
  set (w' := match s with SClients => init_stores w1 p | _ => w1 end). intros Y.
  assert (forall s1 x1, handle w1 s1 x1 = if name_dec (s1, x1) (s, x) then Some (p, t_user t, 0) else handle w s1 x1) as H1.
  { intros s1 x1. unfold w1. rewrite handle_set. destruct (sid_dec s1 s) as [->|N].
    - rewrite V'. destruct (x1 =? x) eqn:E.
      + apply Z.eqb_eq in E as ->. now destruct (name_dec (s, x) (s, x)).
      + apply Z.eqb_neq in E. destruct (name_dec (s, x1) (s, x)); [congruence|]. unfold handle. unfold w. now rewrite Es.
    - now destruct (name_dec (s1, x1) (s, x)); [congruence|]. }
  assert (forall q, ~ stands w s x q) as Free.
  { intros q (u&n&E). unfold handle, w in E. rewrite Es in E. congruence. }
  assert (s = SClients -> forall s1, client_of s1 = Some p -> w_stores w s1 = None) as Young.
  { intros -> s1 Hs1. destruct (w_stores w s1) eqn:E; [|reflexivity]. exfalso.
    destruct (tb_stores _ (sf_tables _ _ S) s1 p Hs1) as [Hx1 _].
    destruct Hx1 as [y Hy]; [fold w; congruence|].
    apply (m_apart _ _ (sf_mem _ _ S) i SClients y p Kp). eapply stands_belongs; [exact (sf_mem _ _ S)|exact Hy]. }
  assert (forall s1 x1, handle w' s1 x1 = handle w1 s1 x1) as Hh.
  { intros s1 x1. unfold w'. destruct s; try reflexivity. unfold handle at 1. rewrite init_stores_in.
    destruct (in_dec sid_dec s1 (client_stores p)) as [Hin|]; [|reflexivity]. apply in_client_stores in Hin.
    destruct (store_init NUM_SLOTS) as [st0|] eqn:E0.
    - rewrite (init_view _ _ E0), H1. destruct (name_dec (s1, x1) (SClients, x)) as [E|N]; [injection E as -> ->; discriminate|].
      unfold handle. now rewrite (Young eq_refl _ Hin).
    - rewrite H1. destruct (name_dec (s1, x1) (SClients, x)) as [E|N]; [injection E as -> ->; discriminate|].
      unfold handle. now rewrite (Young eq_refl _ Hin). }
  assert (w_heap w' = w_heap w1) as He by (unfold w'; destruct s; reflexivity).
  assert (forall s1, w_stores w' s1 <> None <-> w_stores w s1 <> None \/ (s = SClients /\ client_of s1 = Some p)) as Hst.
  { intros s1. assert (w_stores w1 s1 <> None <-> w_stores w s1 <> None) as Hs1.
    { unfold w1. rewrite stores_set. destruct (sid_dec s1 s) as [->|N]; [|reflexivity].
      unfold w. rewrite Es. split; discriminate. }
    unfold w'. destruct s; try (rewrite Hs1; split; [now left|intros [Q|[Q _]]; [exact Q|discriminate]]).
    rewrite init_stores_in. destruct (in_dec sid_dec s1 (client_stores p)) as [Hin|Hin].
    - apply in_client_stores in Hin. split; [intros _; right; auto|]. intros _. now vm_compute.
    - rewrite Hs1. split; [now left|]. intros [Q|[_ Q]]; [exact Q|]. now apply in_client_stores in Q. }
  assert (forall s1 x1 q, stands w' s1 x1 q <-> stands w s1 x1 q \/ (s1 = s /\ x1 = x /\ q = p)) as Hs.
  { intros s1 x1 q. unfold stands. rewrite Hh, H1. destruct (name_dec (s1, x1) (s, x)) as [E|N].
    - injection E as -> ->. split.
      + intros (u&n&E). injection E as <- <- <-. right. auto.
      + intros [Q|(_&_&->)]; [exfalso; exact (Free q Q)|eauto].
    - split; [now left|]. intros [Q|(->&->&_)]; [exact Q|congruence]. }
  eapply (safe_memory _ _ S w' i t (next_thread (k (Got x)) (EAdd s p o (t_user t) (Got x))) T eq_refl Y);
    try (intros; reflexivity).
  - intros q. cbn [next_thread t_hist owned]. pose proof (count_nonneg q (p :: children o)).
    pose proof (sf_once _ _ S i t q T). lia.
  - intros s1 x1 q u n Hn. rewrite Hh, H1. destruct (name_dec (s1, x1) (s, x)) as [E|N]; [|exact Hn].
    injection E as -> ->. exfalso. apply (Free q). now exists u, n.
  - intros s1 x1 q u n. rewrite Hh, H1. destruct (name_dec (s1, x1) (s, x)) as [E|N]; [|auto].
    injection E as -> ->. intros E. injection E as <- <- <-. right. split; [|reflexivity]. unfold handle. now rewrite Es.
  - unfold w'. destruct s; reflexivity.
  - eapply (mem_add _ _ w _ i s x p o (sf_mem _ _ S)).
    + intros q Hq. apply (L q Hq).
    + exact D.
    + apply (keeps_less _ (p :: children o)); [exact H|]. intros q. cbn [next_thread t_hist owned]. lia.
    + exact Free.
    + exact Hs.
    + rewrite He. cbn. now rewrite Z.eqb_refl.
    + intros q N. rewrite He. cbn. apply Z.eqb_neq in N. now rewrite N.
  - destruct (sf_tables _ _ S) as [B1 B2]. constructor.
    + apply Hst. left. exact B1.
    + intros s1 c Hs1. rewrite Hst. fold w in B2. rewrite (B2 s1 c Hs1). split.
      * intros [[y Hy]|[-> Q]]; [exists y; apply Hs; auto|]. exists x. apply Hs. right. repeat split. congruence.
      * intros [y Hy]. apply Hs in Hy as [Hy|(<-&->&->)]; [left; eauto|]. right. split; [reflexivity|exact Hs1].
Qed.
(** The stores of a client nobody holds are idle. *)
Lemma idle_client x p u s y q v n : handle w SClients x = Some (p, u, 0) -> client_of s = Some p ->
  handle w s y = Some (q, v, n) -> n = 0.
Proof.
  intros H0 Hs Hn. pose proof (r_count _ _ (sf_refs _ _ S) _ _ _ _ _ Hn) as En.
  pose proof (total_nonneg _ _ S s y q). destruct (Z_lt_dec (total (s_threads sy) s y q) 1); [lia|]. exfalso.
  destruct (sum_pos (fun t => refs (t_hist t) s y q) (s_threads sy) ltac:(unfold total in *; lia)) as (t0&Ht&Hr).
  apply In_nth_error in Ht as [j Tj]. destruct (td_client _ (sf_tidy _ _ S _ _ Tj) _ _ _ Hr p Hs) as [z Hz].
  destruct (held_stands _ _ S _ _ _ _ _ Tj Hz) as (m&Hm&H1).
  assert (belongs w SClients x p) as Bx by (eapply stands_belongs; [exact (sf_mem _ _ S)|now exists u, 0]).
  assert (belongs w SClients z p) as Bz by (eapply stands_belongs; [exact (sf_mem _ _ S)|now exists (t_user t0), m]).
  destruct (m_handles _ _ (sf_mem _ _ S) _ _ _ _ _ Bx Bz) as [_ <-]. fold w in Hm. rewrite H0 in Hm.
  injection Hm as _ <-. lia.
Qed.
Lemma step_remove s x k : client_held (t_hist t) s -> goes k (serve w i ch (CRemove s x (t_user t))).
Proof.
  intros Hc. destruct (store_there _ _ S _ _ _ T Hc) as [st Es].
  pose proof (proj1 (reaches_paths _ R)) as G. destruct (G _ _ Es) as (W&_&_).
  cbn [serve]. unfold w. rewrite Es. fold w.
  destruct ((x <? 0) || (st_count st <=? x)) eqn:Ex; [apply goes_quiet; intros; reflexivity|].
  destruct (remove_pass st x (Some (t_user t))) as [st' r] eqn:A.
  pose proof (remove_wf st x (Some (t_user t)) st' r W ltac:(lia) A) as (_&_&_&W'&[(->&Q)|(p&u&V&_&->&V')]).
  { destruct Q as [(->&_)|[(u0&o0&w0&n0&_&_&_&->)|(o0&w0&n0&V0&Pos&_&->)]];
      [apply goes_quiet; intros; reflexivity..|].
    assert (handle w s x = Some (o0, w0, n0)) as H0 by (unfold handle, w; now rewrite Es).
    pose proof (r_count _ _ (sf_refs _ _ S) _ _ _ _ _ H0) as Hn. unfold total in Hn.
    rewrite Hn in Pos. apply (Zlt_le_succ 0) in Pos. destruct (sum_pos _ _ Pos) as (tj&Hin&Hj).
    apply In_nth_error in Hin as [j Tj]. exists j, tj. split; [exact Tj|]. exists o0. exact Hj. }
  set (w1 := set_store w s (Some st')).
  assert (handle w s x = Some (p, u, 0)) as H0 by (unfold handle, w; now rewrite Es).
  assert (stands w s x p) as St by now exists u, 0.
  pose proof (stands_belongs _ _ _ _ _ (sf_mem _ _ S) St) as Bp.
  pose proof (m_live _ _ (sf_mem _ _ S) _ _ _ St) as [o Ep].
  assert (forall q, In q (block w p) <-> belongs w s x q) as Hb.
  { eapply block_belongs; [exact Es|exact St|now exists o]. }
  assert (NoDup (block w p)) as Nb.
  { unfold block, w. rewrite Ep. exact (m_distinct _ _ (sf_mem _ _ S) _ _ _ _ St Ep). }
  assert (forall s1 x1, handle w1 s1 x1 = if name_dec (s1, x1) (s, x) then None else handle w s1 x1) as H1.
  { intros s1 x1. unfold w1. rewrite handle_set. destruct (sid_dec s1 s) as [->|N].
    - rewrite V'. destruct (x1 =? x) eqn:E.
      + apply Z.eqb_eq in E as ->. now destruct (name_dec (s, x) (s, x)).
      + apply Z.eqb_neq in E. destruct (name_dec (s, x1) (s, x)); [congruence|]. unfold handle, w. now rewrite Es.
    - now destruct (name_dec (s1, x1) (s, x)); [congruence|]. }
  assert (forall s1, w_stores w1 s1 = None <-> w_stores w s1 = None) as Hn1.
  { intros s1. unfold w1. rewrite stores_set. destruct (sid_dec s1 s) as [->|N]; [|reflexivity].
    unfold w. rewrite Es. split; discriminate. }
  destruct (sid_dec s SClients) as [->|Ns].
  - (* a client with its stores *)
    assert (forall s1 x1, client_of s1 = Some p -> handle w1 s1 x1 = handle w s1 x1) as Hq.
    { intros s1 x1 H. rewrite H1. destruct (name_dec (s1, x1) (SClients, x)) as [E|N]; [injection E as -> ->; discriminate|reflexivity]. }
    assert (forall s1 x1 q, client_of s1 = Some p -> stands w1 s1 x1 q <-> stands w s1 x1 q) as Hqs.
    { intros. unfold stands. now rewrite Hq. }
    assert (forall s1 x1 q, client_of s1 = Some p -> belongs w1 s1 x1 q <-> belongs w s1 x1 q) as Hqb.
    { intros s1 x1 q H. unfold belongs. now rewrite Hq. }
    assert (forall s1 y q, client_of s1 = Some p -> belongs w s1 y q -> ~ In q (block w p)) as Hd.
    { intros s1 y q H B Hin. apply Hb in Hin. destruct (m_handles _ _ (sf_mem _ _ S) _ _ _ _ _ B Hin) as [-> _]. discriminate. }
    destruct (shut_ok (client_stores p) w1) as (w2&E2&A1&A2&A3&A4&A5&A6).
    { intros s1 st1. unfold w1. rewrite stores_set. destruct (sid_dec s1 SClients) as [->|N]; [|apply G].
      intros E. injection E as <-. destruct (G _ _ Es) as (_&G2&G3).
      split; [exact W'|]. unfold remove_pass in A. destruct (e_object (get_entry st x)); [|discriminate].
      destruct (match Some (t_user t) with Some u1 => negb (e_owner (get_entry st x) =? u1) | None => false end); [discriminate|].
      destruct (e_refs (get_entry st x) =? 0); [|discriminate]. injection A as <- _. cbn. auto. }
    { constructor.
      - intros s1 Hin. apply in_client_stores in Hin. rewrite Hn1.
        apply (tb_stores _ (sf_tables _ _ S) s1 p Hin). exists x. exact St.
      - intros s1 x1 q v n Hin. apply in_client_stores in Hin. rewrite (Hq _ _ Hin). intros Hn. eapply idle_client; eauto.
      - intros s1 x1 q Hin. apply in_client_stores in Hin. rewrite (Hqs _ _ _ Hin). apply (m_live _ _ (sf_mem _ _ S)).
      - intros s1 x1 q Hin. apply in_client_stores in Hin. rewrite (Hqb _ _ _ Hin). intros B. split.
        + exact (m_part _ _ (sf_mem _ _ S) _ _ _ B).
        + pose proof B as (a&v&n&oa&Ha&_). rewrite (idle_client _ _ _ _ _ _ _ _ H0 Hin Ha) in Ha.
          exact (idle_unlocked _ _ S _ _ _ _ _ Ha B).
      - intros s1 x1 q oq Hin. apply in_client_stores in Hin. rewrite (Hqs _ _ _ Hin). apply (m_distinct _ _ (sf_mem _ _ S)).
      - intros s1 x1 s2 x2 q I1 I2. apply in_client_stores in I1, I2. rewrite (Hqb _ _ _ I1), (Hqb _ _ _ I2).
        apply (m_handles _ _ (sf_mem _ _ S)). }
    { unfold client_stores. repeat constructor; cbn [In]; intuition discriminate. }
    rewrite E2.
    assert (forall q, In q (block w p) -> w_heap w2 q = w_heap w q) as Keep.
    { intros q Hin. rewrite A6; [reflexivity|]. intros s1 x1 I1 B. apply in_client_stores in I1. apply Hqb in B; [|exact I1].
      exact (Hd _ _ _ I1 B Hin). }
    assert (block w2 p = block w p) as Eb.
    { unfold block. rewrite Keep; [reflexivity|]. unfold block. now left. }
    destruct (destroy_ok w2 p) as (w3&E3&(C1&C2&C3)&W1&W2).
    { rewrite Eb. exact Nb. }
    { rewrite Eb. intros q Hin. unfold alive, locked. rewrite Keep, A2 by exact Hin. apply Hb in Hin. split.
      - exact (m_part _ _ (sf_mem _ _ S) _ _ _ Hin).
      - exact (idle_unlocked _ _ S _ _ _ _ _ H0 Hin). }
    rewrite Eb in W1, W2. rewrite E3. intros Y.
    set (D := fun (s1 : sid) (x1 : Z) => (if name_dec (s1, x1) (SClients, x) then true else false) ||
                      (if in_dec sid_dec s1 (client_stores p) then true else false)).
    assert (forall s1 x1, D s1 x1 = true -> (s1 = SClients /\ x1 = x) \/ client_of s1 = Some p) as HD.
    { intros s1 x1. unfold D. destruct (name_dec (s1, x1) (SClients, x)) as [E|N]; [injection E as -> ->; auto|].
      destruct (in_dec sid_dec s1 (client_stores p)) as [I1|I1]; [apply in_client_stores in I1; auto|discriminate]. }
    assert (forall s1 x1, handle w3 s1 x1 = if D s1 x1 then None else handle w s1 x1) as H3.
    { intros s1 x1. unfold handle at 1. rewrite C1. unfold D. destruct (in_dec sid_dec s1 (client_stores p)) as [I1|I1].
      - rewrite (A3 _ I1). now rewrite orb_true_r.
      - rewrite (A4 _ I1). change (handle w1 s1 x1 = if (if name_dec (s1, x1) (SClients, x) then true else false) || false then None else handle w s1 x1).
        rewrite H1, orb_false_r. now destruct (name_dec (s1, x1) (SClients, x)). }
    eapply (safe_drop _ _ S w3 i t (next_thread (k OK) (ERemove SClients x (t_user t) OK)) T eq_refl Y D); try (intros; reflexivity).
    + intros s1 x1 q v n Hd1 Hn. fold w in Hn. apply HD in Hd1 as [[-> ->]|Hd1]; [rewrite H0 in Hn; now injection Hn as _ _ <-|]. eapply idle_client; eauto.
    + exact H3.
    + intros q s1 x1 Hd1 B. apply HD in Hd1 as [[-> ->]|Hd1]; [apply W1, Hb, B|].
      rewrite W2 by (eapply Hd; eauto). apply (A5 q s1 x1); [now apply in_client_stores|now apply Hqb].
    + intros q Hn. rewrite W2, A6; [reflexivity| |].
      * intros s1 x1 I1 B. pose proof I1 as I2. apply in_client_stores in I2. apply (Hn s1 x1); [|now apply Hqb].
        unfold D. destruct (in_dec sid_dec s1 (client_stores p)); [apply orb_true_r|contradiction].
      * intros Hin. apply Hb in Hin. apply (Hn SClients x); [|exact Hin]. unfold D. now destruct (name_dec (SClients, x) (SClients, x)).
    + rewrite C3, A2. reflexivity.
    + destruct (sf_tables _ _ S) as [B1 B2]. constructor.
      * rewrite C1, A4 by (rewrite in_client_stores; discriminate). rewrite Hn1. exact B1.
      * intros s1 c Hs1. rewrite C1. destruct (in_dec sid_dec s1 (client_stores p)) as [I1|I1].
        -- rewrite (A3 _ I1). apply in_client_stores in I1. assert (c = p) as -> by congruence.
           split; [congruence|]. intros [y (v&n&Hy)]. rewrite H3 in Hy. destruct (D SClients y) eqn:Ey; [discriminate|].
           assert (belongs w SClients y p) as By by (eapply stands_belongs; [exact (sf_mem _ _ S)|now exists v, n]).
           destruct (m_handles _ _ (sf_mem _ _ S) _ _ _ _ _ Bp By) as [_ <-]. unfold D in Ey.
           now destruct (name_dec (SClients, x) (SClients, x)).
        -- rewrite (A4 _ I1), Hn1. fold w in B2. rewrite (B2 s1 c Hs1). rewrite in_client_stores in I1.
           assert (forall y v n, handle w SClients y = Some (c, v, n) -> D SClients y = false) as Ok.
           { intros y v n Hy. destruct (D SClients y) eqn:Ey; [|reflexivity]. apply HD in Ey as [[_ ->]|Ey]; [|discriminate].
             congruence. }
           split; intros [y (v&n&Hy)]; exists y, v, n.
           ++ rewrite H3, (Ok _ _ _ Hy). exact Hy.
           ++ rewrite H3 in Hy. destruct (D SClients y); [discriminate|exact Hy].
  - (* any other object *)
    assert ((match s with SClients => shut_stores w1 (client_stores p) | _ => Some (Some w1) end) = Some (Some w1)) as ->
      by (destruct s; congruence).
    destruct (destroy_ok w1 p) as (w3&E3&(C1&C2&C3)&W1&W2).
    { exact Nb. }
    { intros q Hin. apply Hb in Hin. split.
      - exact (m_part _ _ (sf_mem _ _ S) _ _ _ Hin).
      - exact (idle_unlocked _ _ S _ _ _ _ _ H0 Hin). }
    change (block w1 p) with (block w p) in W1, W2.
    rewrite E3. intros Y.
    set (D := fun (s1 : sid) (x1 : Z) => if name_dec (s1, x1) (s, x) then true else false).
    assert (forall s1 x1, D s1 x1 = true -> s1 = s /\ x1 = x) as HD.
    { intros s1 x1. unfold D. destruct (name_dec (s1, x1) (s, x)) as [E|N]; [injection E as -> ->; auto|discriminate]. }
    assert (forall s1 x1, handle w3 s1 x1 = if D s1 x1 then None else handle w s1 x1) as H3.
    { intros s1 x1. unfold handle at 1. rewrite C1. change (handle w1 s1 x1 = if D s1 x1 then None else handle w s1 x1).
      rewrite H1. unfold D. now destruct (name_dec (s1, x1) (s, x)). }
    eapply (safe_drop _ _ S w3 i t (next_thread (k OK) (ERemove s x (t_user t) OK)) T eq_refl Y D); try (intros; reflexivity).
    + intros s1 x1 q v n Hd1 Hn. apply HD in Hd1 as [-> ->]. fold w in Hn. rewrite H0 in Hn. now injection Hn as _ _ <-.
    + exact H3.
    + intros q s1 x1 Hd1 B. apply HD in Hd1 as [-> ->]. apply W1, Hb, B.
    + intros q Hn. rewrite W2; [reflexivity|].
      intros Hin. apply Hb in Hin. apply (Hn s x); [|exact Hin]. unfold D. now destruct (name_dec (s, x) (s, x)).
    + rewrite C3. reflexivity.
    + apply tables_same.
      * intros s1. rewrite C1. apply Hn1.
      * intros y q. unfold stands. rewrite H3. unfold D. destruct (name_dec (SClients, y) (s, x)) as [E|N]; [injection E as E _; congruence|reflexivity].
Qed.
End Step.
