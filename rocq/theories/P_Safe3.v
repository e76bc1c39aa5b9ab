(** Memory safety of the whole system: each command. *)
From Verif Require Import Base M_Slots M_ObjectStore S_ObjectStore P_ObjectStore M_Rights S_Rights P_Rights M_Svp M_Prog
  M_ApiKey M_ApiCipher M_ApiMac M_ApiSvp M_Api S_Api M_World S_World P_Prog P_ApiGuard P_ApiAccount P_Api P_Birth P_WorldReach P_WorldBirth
  S_Safe P_Accounts P_Safe P_Safe2.

Lemma keeps_update ts i t t' j p : nth_error ts i = Some t ->
  keeps (update i t' ts) j p <-> (j = i /\ 1 <= owned (t_hist t') p) \/ (j <> i /\ keeps ts j p).
Proof.
  intros T. unfold keeps. destruct (Nat.eq_dec i j) as [<-|N].
  - rewrite nth_error_update_eq by (apply nth_error_Some; congruence). split.
    + intros (t0&E&H). injection E as <-. left. auto.
    + intros [[_ H]|[N _]]; [|congruence]. eauto.
  - rewrite nth_error_update_neq by exact N. split; [intros H; right; auto|]. intros [[E _]|[_ H]]; [congruence|exact H].
Qed.
Lemma keeps_same ts i t t' j p : nth_error ts i = Some t -> (forall q, owned (t_hist t') q = owned (t_hist t) q) ->
  keeps (update i t' ts) j p <-> keeps ts j p.
Proof.
  intros T O. rewrite (keeps_update _ _ _ _ _ _ T), O. split.
  - intros [[-> H]|[_ H]]; [now exists t|exact H].
  - intros H. destruct (Nat.eq_dec j i) as [->|N]; [left|right; auto]. split; [reflexivity|].
    destruct H as (t0&E&H). congruence.
Qed.
Lemma update_tidy ts i (t t' : thread) : nth_error ts i = Some t ->
  (forall j t0, nth_error ts j = Some t0 -> tidy (t_hist t0)) -> tidy (t_hist t') ->
  forall j t0, nth_error (update i t' ts) j = Some t0 -> tidy (t_hist t0).
Proof.
  intros T H H' j t0 Tj. apply nth_error_update_in in Tj as [[_ ->]|Tj]; eauto.
Qed.
Lemma update_once ts i (t t' : thread) : nth_error ts i = Some t ->
  (forall j t0 p, nth_error ts j = Some t0 -> owned (t_hist t0) p <= 1) -> (forall p, owned (t_hist t') p <= 1) ->
  forall j t0 p, nth_error (update i t' ts) j = Some t0 -> owned (t_hist t0) p <= 1.
Proof.
  intros T H H' j t0 p Tj. apply nth_error_update_in in Tj as [[_ ->]|Tj]; eauto.
Qed.

Section Safe.
Variables (w : world) (ts : list thread).
Hypothesis S : safe w ts.
Lemma refs_total i t s x p : nth_error ts i = Some t -> refs (t_hist t) s x p <= total ts s x p.
Proof.
  intros T. unfold total. apply (sum_part (fun t => refs (t_hist t) s x p)).
  - intros a Ha. apply In_nth_error in Ha as [j Hj]. apply (td_refs _ (sf_tidy _ _ S _ _ Hj)).
  - eapply nth_error_In; eauto.
Qed.
Lemma total_nonneg s x p : 0 <= total ts s x p.
Proof.
  apply sum_nonneg. intros a Ha. apply In_nth_error in Ha as [j Hj]. apply (td_refs _ (sf_tidy _ _ S _ _ Hj)).
Qed.
Lemma held_stands i t s x p : nth_error ts i = Some t -> 1 <= refs (t_hist t) s x p ->
  exists n, handle w s x = Some (p, t_user t, n) /\ 1 <= n.
Proof.
  intros T H. destruct (r_held _ _ (sf_refs _ _ S) _ _ _ _ _ T H) as [n Hn]. exists n. split; [exact Hn|].
  rewrite (r_count _ _ (sf_refs _ _ S) _ _ _ _ _ Hn). pose proof (refs_total i t s x p T). lia.
Qed.
Lemma held_belongs i t p : nth_error ts i = Some t -> held (t_hist t) p -> exists s x, belongs w s x p.
Proof.
  intros T (s&x&H). destruct (held_stands _ _ _ _ _ T H) as (n&Hn&_). exists s, x.
  eapply stands_belongs; [exact (sf_mem _ _ S)|]. now exists (t_user t), n.
Qed.
Lemma held_alive i t p : nth_error ts i = Some t -> held (t_hist t) p -> alive w p.
Proof. intros T H. destruct (held_belongs _ _ _ T H) as (s&x&B). exact (m_part _ _ (sf_mem _ _ S) _ _ _ B). Qed.
Lemma locked_held p : locked w p = true -> exists i t s x, nth_error ts i = Some t /\ 1 <= refs (t_hist t) s x p.
Proof.
  intros H. apply locked_count in H as [i H]. rewrite (sf_locks _ _ S p i) in H.
  destruct (nth_error ts i) as [t|] eqn:T; [|lia].
  pose proof (td_locks _ (sf_tidy _ _ S _ _ T) p). destruct (refs_on_named (t_hist t) p) as (s&x&Hr); [lia|].
  now exists i, t, s, x.
Qed.
Lemma kept_unlocked i p : keeps ts i p -> locked w p = false.
Proof.
  intros K. destruct (locked w p) eqn:L; [|reflexivity]. exfalso. apply locked_held in L as (j&t&s&x&T&H).
  destruct (held_belongs j t p T) as (s'&x'&B); [now exists s, x|].
  exact (m_apart _ _ (sf_mem _ _ S) _ _ _ _ K B).
Qed.
Lemma idle_unlocked s x q u p : handle w s x = Some (q, u, 0) -> belongs w s x p -> locked w p = false.
Proof.
  intros Hq B. destruct (locked w p) eqn:L; [|reflexivity]. exfalso. apply locked_held in L as (j&t&s'&x'&T&H).
  destruct (held_stands _ _ _ _ _ T H) as (n&Hn&H1).
  assert (belongs w s' x' p) as B' by (eapply stands_belongs; [exact (sf_mem _ _ S)|now exists (t_user t), n]).
  destruct (m_handles _ _ (sf_mem _ _ S) _ _ _ _ _ B B') as [-> ->]. rewrite Hq in Hn. injection Hn as _ _ <-. lia.
Qed.
Lemma store_there i t s : nth_error ts i = Some t -> client_held (t_hist t) s -> exists st, w_stores w s = Some st.
Proof.
  intros T H. destruct (w_stores w s) as [st|] eqn:E; [eauto|]. exfalso.
  destruct (client_of s) as [c|] eqn:Ec.
  - destruct (H c Ec) as [x Hx]. destruct (held_stands _ _ _ _ _ T Hx) as (n&Hn&_).
    apply (tb_stores _ (sf_tables _ _ S) s c Ec); [|exact E]. exists x. now exists (t_user t), n.
  - destruct s; try discriminate. now apply (tb_clients _ (sf_tables _ _ S)).
Qed.
Lemma owned_list i t l : nth_error ts i = Some t -> (forall x, count x l <= owned (t_hist t) x) ->
  NoDup l /\ forall p, In p l -> keeps ts i p /\ owned (t_hist t) p = 1 /\ count p l = 1.
Proof.
  intros T H. split.
  - apply count_nodup. intros p. specialize (H p). pose proof (sf_once _ _ S i t p T). lia.
  - intros p Hp. apply count_in in Hp. specialize (H p). pose proof (sf_once _ _ S i t p T).
    split; [exists t; split; [exact T|lia]|lia].
Qed.

Section Quiet.
Variables (w' : world) (i : nat) (t t' : thread).
Hypotheses (T : nth_error ts i = Some t) (U : t_user t' = t_user t) (Y : tidy (t_hist t')).
Lemma safe_quiet : (forall s x p, refs (t_hist t') s x p = refs (t_hist t) s x p) ->
  (forall p, locks (t_hist t') p = locks (t_hist t) p) -> (forall p, owned (t_hist t') p = owned (t_hist t) p) ->
  (forall s, w_stores w' s = w_stores w s) -> w_mutex w' = w_mutex w ->
  (forall p, option_map children (w_heap w' p) = option_map children (w_heap w p)) -> safe w' (update i t' ts).
Proof.
  intros R L O St Mu He. pose proof S as [S1 S2 S3 S4 S5 S6].
  assert (forall s x, handle w' s x = handle w s x) as Hh by (intros; unfold handle; now rewrite St).
  assert (forall s x q, stands w' s x q <-> stands w s x q) as Hs by (intros; unfold stands; now rewrite Hh).
  constructor.
  - eapply update_tidy; eauto.
  - eapply update_once; eauto. intros p. rewrite O. eauto.
  - eapply mem_ext; [exact S3|intros; eapply keeps_same; eauto|exact Hs|exact He].
  - eapply referenced_step; eauto.
    + intros s x p. rewrite R, Hh. intros H. eapply (r_held _ _ S4); eauto.
    + intros j t0 s x p n Tj N H1 H2. exists n. now rewrite Hh.
    + intros s x p u n. rewrite Hh, R. intros H. rewrite (r_count _ _ S4 _ _ _ _ _ H). lia.
  - eapply locking_step; eauto. intros p j. rewrite Mu, L. destruct (Nat.eqb i j); lia.
  - destruct S6 as [B1 B2]. constructor.
    + now rewrite St.
    + intros s c Hc. rewrite St, (B2 s c Hc). split; intros [x Hx]; exists x; now apply Hs.
Qed.
Lemma safe_recount s x p n d : (forall q, locks (t_hist t') q = locks (t_hist t) q) ->
  (forall q, owned (t_hist t') q = owned (t_hist t) q) ->
  (forall s1 x1 p1, refs (t_hist t') s1 x1 p1 = refs (t_hist t) s1 x1 p1 + d * hit ref_dec (s, x, p) (s1, x1, p1)) ->
  handle w s x = Some (p, t_user t, n) ->
  (forall s1 x1, handle w' s1 x1 = if name_dec (s1, x1) (s, x) then Some (p, t_user t, n + d) else handle w s1 x1) ->
  (forall s1, w_stores w' s1 = None <-> w_stores w s1 = None) ->
  w_mutex w' = w_mutex w -> w_heap w' = w_heap w -> safe w' (update i t' ts).
Proof.
  intros L O R H0 Hh St Mu He. pose proof S as [S1 S2 S3 S4 S5 S6].
  assert (forall s1 x1 q, stands w' s1 x1 q <-> stands w s1 x1 q) as Hs.
  { intros. unfold stands. rewrite Hh. destruct (name_dec (s1, x1) (s, x)) as [E|N]; [|reflexivity].
    injection E as -> ->. rewrite H0. split; intros (u1&n1&E); injection E as <- <- <-; eauto. }
  assert (forall s1 x1 q u1 n1, handle w s1 x1 = Some (q, u1, n1) -> exists n2, handle w' s1 x1 = Some (q, u1, n2)) as Hk.
  { intros s1 x1 q u1 n1 E. rewrite Hh. destruct (name_dec (s1, x1) (s, x)) as [E'|N]; [|eauto].
    injection E' as -> ->. rewrite H0 in E. injection E as <- <- <-. eauto. }
  constructor.
  - eapply update_tidy; eauto.
  - eapply update_once; eauto. intros q. rewrite O. eauto.
  - eapply mem_ext; [exact S3|intros; eapply keeps_same; eauto|exact Hs|now rewrite He].
  - eapply referenced_step; eauto.
    + intros s1 x1 q H. destruct (ref_dec (s, x, p) (s1, x1, q)) as [E|N].
      * injection E as <- <- <-. eapply Hk; eauto.
      * rewrite R, (hit_diff _ _ _ N) in H. destruct (r_held _ _ S4 i t s1 x1 q T ltac:(lia)) as [n1 Hn]. eapply Hk; eauto.
    + intros s1 x1 q u1 n1. rewrite Hh, R. destruct (name_dec (s1, x1) (s, x)) as [E|N].
      * injection E as -> ->. intros E. injection E as <- <- <-. rewrite hit_same.
        rewrite (r_count _ _ S4 _ _ _ _ _ H0). lia.
      * intros H. rewrite (hit_diff ref_dec) by congruence. rewrite (r_count _ _ S4 _ _ _ _ _ H). lia.
  - eapply locking_step; eauto. intros q j. rewrite Mu, L. destruct (Nat.eqb i j); lia.
  - destruct S6 as [B1 B2]. constructor.
    + now rewrite St.
    + intros s1 c Hc. rewrite St, (B2 s1 c Hc). split; intros [y Hy]; exists y; now apply Hs.
Qed.
(** Handles given up. *)
Lemma safe_drop (D : sid -> Z -> bool) : (forall s x p, refs (t_hist t') s x p = refs (t_hist t) s x p) ->
  (forall p, locks (t_hist t') p = locks (t_hist t) p) -> (forall p, owned (t_hist t') p = owned (t_hist t) p) ->
  (forall s x q u n, D s x = true -> handle w s x = Some (q, u, n) -> n = 0) ->
  (forall s x, handle w' s x = if D s x then None else handle w s x) ->
  (forall p s x, D s x = true -> belongs w s x p -> w_heap w' p = None) ->
  (forall p, (forall s x, D s x = true -> ~ belongs w s x p) -> w_heap w' p = w_heap w p) ->
  w_mutex w' = w_mutex w -> tables w' -> safe w' (update i t' ts).
Proof.
  intros R L O Z Hh E1 E2 Mu Tb. pose proof S as [S1 S2 S3 S4 S5 S6].
  assert (forall j t0 s x p n, nth_error ts j = Some t0 -> 1 <= refs (t_hist t0) s x p ->
    handle w s x = Some (p, t_user t0, n) -> handle w' s x = Some (p, t_user t0, n)) as Hk.
  { intros j t0 s x p n Tj Hr Hn. rewrite Hh. destruct (D s x) eqn:Ed; [|exact Hn]. exfalso.
    pose proof (Z _ _ _ _ _ Ed Hn) as E0. subst. destruct (held_stands _ _ _ _ _ Tj Hr) as (n'&Hn'&H1). rewrite Hn in Hn'.
    injection Hn' as <-. lia. }
  constructor; auto.
  - eapply update_tidy; eauto.
  - eapply update_once; eauto. intros q. rewrite O. eauto.
  - eapply mem_ext; [|intros; eapply keeps_same; eauto|reflexivity|reflexivity].
    apply (mem_drop _ _ _ (fun s x => D s x = true) S3); auto.
    intros s x q. unfold stands. rewrite Hh. destruct (D s x); split.
    + intros (u&n&E). discriminate.
    + intros [_ N]. congruence.
    + intros H. split; [exact H|congruence].
    + tauto.
  - eapply referenced_step; eauto.
    + intros s x p. rewrite R. intros H. destruct (r_held _ _ S4 _ _ _ _ _ T H) as [n Hn]. eauto.
    + intros s x p u n. rewrite Hh, R. destruct (D s x); [discriminate|]. intros H. rewrite (r_count _ _ S4 _ _ _ _ _ H). lia.
  - eapply locking_step; eauto. intros p j. rewrite Mu, L. destruct (Nat.eqb i j); lia.
Qed.
(** Mutexes taken and given back. *)
Lemma safe_locks : (forall s x p, refs (t_hist t') s x p = refs (t_hist t) s x p) ->
  (forall p, owned (t_hist t') p = owned (t_hist t) p) ->
  w_stores w' = w_stores w -> w_heap w' = w_heap w -> locking w' (update i t' ts) -> safe w' (update i t' ts).
Proof.
  intros R O St He Lo. pose proof S as [S1 S2 S3 S4 S5 S6].
  assert (forall s x, handle w' s x = handle w s x) as Hh by (intros; unfold handle; now rewrite St).
  assert (forall s x q, stands w' s x q <-> stands w s x q) as Hs by (intros; unfold stands; now rewrite Hh).
  constructor; auto.
  - eapply update_tidy; eauto.
  - eapply update_once; eauto. intros p. rewrite O. eauto.
  - eapply mem_ext; [exact S3|intros; eapply keeps_same; eauto|exact Hs|now rewrite He].
  - eapply referenced_step; eauto.
    + intros s x p. rewrite R, Hh. intros H. eapply (r_held _ _ S4); eauto.
    + intros j t0 s x p n Tj N H1 H2. exists n. now rewrite Hh.
    + intros s x p u n. rewrite Hh, R. intros H. rewrite (r_count _ _ S4 _ _ _ _ _ H). lia.
  - destruct S6 as [B1 B2]. constructor.
    + now rewrite St.
    + intros s c Hc. rewrite St, (B2 s c Hc). split; intros [x Hx]; exists x; now apply Hs.
Qed.
(** Allocated, freed or handed over; the references and locks stay. *)
Lemma safe_memory : (forall s x p, refs (t_hist t') s x p = refs (t_hist t) s x p) ->
  (forall p, locks (t_hist t') p = locks (t_hist t) p) -> (forall p, owned (t_hist t') p <= 1) ->
  (forall s x p u n, handle w s x = Some (p, u, n) -> handle w' s x = Some (p, u, n)) ->
  (forall s x p u n, handle w' s x = Some (p, u, n) -> handle w s x = Some (p, u, n) \/ (handle w s x = None /\ n = 0)) ->
  w_mutex w' = w_mutex w -> mem (keeps (update i t' ts)) w' -> tables w' -> safe w' (update i t' ts).
Proof.
  intros R L O H1 H2 Mu Me Tb. pose proof S as [S1 S2 S3 S4 S5 S6]. constructor; auto.
  - eapply update_tidy; eauto.
  - eapply update_once; eauto.
  - eapply referenced_step; eauto.
    + intros s x p. rewrite R. intros H. destruct (r_held _ _ S4 _ _ _ _ _ T H) as [n Hn]. eauto.
    + intros s x p u n H. rewrite R. apply H2 in H as [H|[H ->]].
      * rewrite (r_count _ _ S4 _ _ _ _ _ H). lia.
      * pose proof (total_nonneg s x p). destruct (Z_lt_dec (total ts s x p) 1); [lia|]. exfalso.
        destruct (sum_pos (fun t => refs (t_hist t) s x p) ts ltac:(unfold total in *; lia)) as (t0&Ht&Hr).
        apply In_nth_error in Ht as [j Tj]. destruct (r_held _ _ S4 _ _ _ _ _ Tj Hr) as [m Hm]. congruence.
  - eapply locking_step; eauto. intros p j. rewrite Mu, L. destruct (Nat.eqb i j); lia.
Qed.
End Quiet.
End Safe.
