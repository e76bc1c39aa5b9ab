(** Memory safety of the whole system: who owns what, across the kinds of steps. *)
From Verif Require Import Base M_Slots M_ObjectStore S_ObjectStore P_ObjectStore M_Rights S_Rights P_Rights M_Svp M_Prog
  M_ApiKey M_ApiCipher M_ApiMac M_ApiSvp M_Api S_Api M_World S_World P_Prog P_ApiGuard P_ApiAccount P_Api P_Birth P_WorldReach P_WorldBirth
  S_Safe P_Accounts P_Safe.

(** ** Memory: every allocation has one owner, a call or a handle *)
Record mem (K : nat -> Z -> Prop) (w : world) : Prop := MkMem {
  m_kept : forall i p, K i p -> alive w p;
  m_live : forall s x q, stands w s x q -> alive w q;
  m_part : forall s x p, belongs w s x p -> alive w p;
  m_distinct : forall s x q o, stands w s x q -> w_heap w q = Some o -> NoDup (q :: children o);
  m_keepers : forall i j p, K i p -> K j p -> i = j;
  m_apart : forall i s x p, K i p -> belongs w s x p -> False;
  m_handles : forall s x s' x' p, belongs w s x p -> belongs w s' x' p -> s = s' /\ x = x';
  m_lost : forall p, alive w p -> (exists i, K i p) \/ exists s x, belongs w s x p
}.
Lemma stands_belongs K w s x q : mem K w -> stands w s x q -> belongs w s x q.
Proof.
  intros M S. destruct (m_live _ _ M _ _ _ S) as [o Eo]. apply belongs_stands. exists q, o. split; [exact S|]. split; [exact Eo|now left].
Qed.
Lemma mem_ext K K' w w' : mem K w -> (forall i p, K' i p <-> K i p) ->
  (forall s x q, stands w' s x q <-> stands w s x q) ->
  (forall p, option_map children (w_heap w' p) = option_map children (w_heap w p)) -> mem K' w'.
Proof.
  intros [M1 M2 M3 M4 M5 M6 M7 M8] HK HS HH.
  assert (forall p, alive w' p <-> alive w p) as HA.
  { intros p. specialize (HH p). unfold alive. destruct (w_heap w' p), (w_heap w p); try discriminate;
      (split; intros [? E]; [try discriminate; eauto|try discriminate; eauto]). }
  assert (forall s x p, belongs w' s x p <-> belongs w s x p) as HB.
  { intros s x p. rewrite !belongs_stands. split; intros (q&o&S&E&H); apply HS in S; specialize (HH q); rewrite E in HH.
    - destruct (w_heap w q) as [o'|] eqn:E'; [|discriminate]. injection HH as HH. exists q, o'. rewrite <- HH. auto.
    - destruct (w_heap w' q) as [o'|] eqn:E'; [|discriminate]. injection HH as HH. exists q, o'. rewrite HH. auto. }
  constructor.
  - intros i p. rewrite HK, HA. apply M1.
  - intros s x q. rewrite HS, HA. apply M2.
  - intros s x p. rewrite HB, HA. apply M3.
  - intros s x q o S E. apply HS in S. specialize (HH q). rewrite E in HH.
    destruct (w_heap w q) as [o'|] eqn:E'; [|discriminate]. injection HH as ->. eauto.
  - intros i j p. rewrite !HK. apply M5.
  - intros i s x p. rewrite HK, HB. apply M6.
  - intros s x s' x' p. rewrite !HB. apply M7.
  - intros p. rewrite HA. intros H. destruct (M8 p H) as [[i Hi]|(s&x&Hx)].
    + left. exists i. now apply HK.
    + right. exists s, x. now apply HB.
Qed.
(** A new allocation of call [i]. *)
Lemma mem_new K K' w w' i p o : mem K w -> w_heap w p = None ->
  (forall j q, K' j q <-> K j q \/ (j = i /\ q = p)) -> (forall s x q, stands w' s x q <-> stands w s x q) ->
  w_heap w' p = Some o -> (forall q, q <> p -> w_heap w' q = w_heap w q) -> mem K' w'.
Proof.
  intros [M1 M2 M3 M4 M5 M6 M7 M8] Ep HK HS E1 E2.
  assert (forall q, alive w q -> q <> p /\ w_heap w' q = w_heap w q) as Old.
  { intros q [o' E]. assert (q <> p) by congruence. split; auto. }
  assert (forall s x q, belongs w' s x q <-> belongs w s x q) as HB.
  { intros s x q. rewrite !belongs_stands. split; intros (a&o'&S&E&H).
    - apply HS in S. destruct (Old a (M2 _ _ _ S)) as [N Ea]. exists a, o'. rewrite Ea in E. auto.
    - destruct (Old a (M2 _ _ _ S)) as [N Ea]. exists a, o'. split; [now apply HS|]. rewrite Ea. auto. }
  assert (forall q, alive w q -> alive w' q) as Up.
  { intros q H. destruct (Old q H) as [_ E]. unfold alive. now rewrite E. }
  constructor.
  - intros j q H. apply HK in H as [H|[_ ->]]; [eauto|now exists o].
  - intros s x q H. apply HS in H. eauto.
  - intros s x q H. apply HB in H. eauto.
  - intros s x q o' S E. apply HS in S. destruct (Old q (M2 _ _ _ S)) as [_ Eq]. rewrite Eq in E. eauto.
  - intros j j' q H H'. apply HK in H, H'. destruct H as [H|[-> ->]], H' as [H'|[-> E']]; eauto.
    + subst. destruct (Old p (M1 _ _ H)). congruence.
    + destruct (Old p (M1 _ _ H')). congruence.
  - intros j s x q H B. apply HB in B. apply HK in H as [H|[-> ->]]; [eauto|].
    destruct (Old p (M3 _ _ _ B)). congruence.
  - intros s x s' x' q B B'. apply HB in B, B'. eauto.
  - intros q [o' E]. destruct (Z.eq_dec q p) as [->|N].
    + left. exists i. apply HK. auto.
    + rewrite E2 in E by exact N. destruct (M8 q (ex_intro _ _ E)) as [[j Hj]|(s&x&Hx)].
      * left. exists j. apply HK. auto.
      * right. exists s, x. now apply HB.
Qed.
(** Call [i] frees what it owns. *)
Lemma mem_free K K' w w' i l : mem K w -> (forall p, In p l -> K i p) ->
  (forall j q, K' j q <-> K j q /\ ~ In q l) -> (forall s x q, stands w' s x q <-> stands w s x q) ->
  without w w' l -> mem K' w'.
Proof.
  intros [M1 M2 M3 M4 M5 M6 M7 M8] Hl HK HS [E1 E2].
  assert (forall s x q, belongs w s x q -> ~ In q l) as HN by (intros s x q B H; eapply M6; eauto).
  assert (forall s x q, stands w s x q -> w_heap w' q = w_heap w q) as Hq.
  { intros s x q S. apply E2. apply (HN s x). destruct (M2 _ _ _ S) as [o Eo]. apply belongs_stands. exists q, o.
    split; [exact S|]. split; [exact Eo|now left]. }
  assert (forall s x q, belongs w' s x q <-> belongs w s x q) as HB.
  { intros s x q. rewrite !belongs_stands. split; intros (a&o'&S&E&H).
    - apply HS in S. exists a, o'. rewrite (Hq _ _ _ S) in E. auto.
    - exists a, o'. split; [now apply HS|]. rewrite (Hq _ _ _ S). auto. }
  constructor.
  - intros j q H. apply HK in H as [H N]. unfold alive. rewrite E2 by exact N. eapply M1; eauto.
  - intros s x q S. apply HS in S. unfold alive. rewrite (Hq _ _ _ S). eapply M2; eauto.
  - intros s x q B. apply HB in B. unfold alive. rewrite E2 by eauto. eapply M3; eauto.
  - intros s x q o S E. apply HS in S. rewrite (Hq _ _ _ S) in E. eauto.
  - intros j j' q H H'. apply HK in H as [H _], H' as [H' _]. eauto.
  - intros j s x q H B. apply HK in H as [H _]. apply HB in B. eauto.
  - intros s x s' x' q B B'. apply HB in B, B'. eauto.
  - intros q [o E]. destruct (in_dec Z.eq_dec q l) as [H|H]; [rewrite E1 in E by exact H; discriminate|].
    rewrite E2 in E by exact H. destruct (M8 q (ex_intro _ _ E)) as [[j Hj]|(s&x&Hx)].
    + left. exists j. apply HK. auto.
    + right. exists s, x. now apply HB.
Qed.
(** Call [i] hands an object and its parts over to a handle. *)
Lemma mem_add K K' w w' i s x p o : mem K w -> (forall q, In q (p :: children o) -> K i q) -> NoDup (p :: children o) ->
  (forall j q, K' j q <-> K j q /\ ~ In q (p :: children o)) ->
  (forall q, ~ stands w s x q) ->
  (forall s' x' q, stands w' s' x' q <-> stands w s' x' q \/ (s' = s /\ x' = x /\ q = p)) ->
  w_heap w' p = Some o -> (forall q, q <> p -> w_heap w' q = w_heap w q) -> mem K' w'.
Proof.
  intros [M1 M2 M3 M4 M5 M6 M7 M8] Hl D HK HN HS E1 E2.
  assert (forall q, alive w q -> alive w' q) as Up.
  { intros q H. destruct (Z.eq_dec q p) as [->|N]; [now exists o|]. unfold alive. now rewrite E2. }
  assert (forall s x q, stands w s x q -> w_heap w' q = w_heap w q) as Hq.
  { intros s1 x1 q S. apply E2. intros ->. apply (M6 i s1 x1 p); [apply Hl; now left|].
    destruct (M2 _ _ _ S) as [o' Eo]. apply belongs_stands. exists p, o'. split; [exact S|]. split; [exact Eo|now left]. }
  assert (forall s1 x1 q, belongs w' s1 x1 q <-> belongs w s1 x1 q \/ (s1 = s /\ x1 = x /\ In q (p :: children o))) as HB.
  { intros s1 x1 q. rewrite !belongs_stands. split.
    - intros (a&o'&S&E&H). apply HS in S as [S|(->&->&->)].
      + left. exists a, o'. rewrite (Hq _ _ _ S) in E. auto.
      + right. rewrite E1 in E. injection E as <-. auto.
    - intros [(a&o'&S&E&H)|(->&->&H)].
      + exists a, o'. split; [apply HS; now left|]. rewrite (Hq _ _ _ S). auto.
      + exists p, o. split; [apply HS; right; auto|auto]. }
  constructor.
  - intros j q H. apply HK in H as [H N]. eauto.
  - intros s1 x1 q S. apply HS in S as [S|(->&->&->)]; [eauto|now exists o].
  - intros s1 x1 q B. apply HB in B as [B|(->&->&B)]; [eauto|]. apply Up, (M1 i), Hl, B.
  - intros s1 x1 q o' S E. apply HS in S as [S|(->&->&->)].
    + rewrite (Hq _ _ _ S) in E. eauto.
    + rewrite E1 in E. injection E as <-. exact D.
  - intros j j' q H H'. apply HK in H as [H _], H' as [H' _]. eauto.
  - intros j s1 x1 q H B. apply HK in H as [H N]. apply HB in B as [B|(->&->&B)]; [eauto|now apply N].
  - intros s1 x1 s2 x2 q B B'. apply HB in B, B'. destruct B as [B|(->&->&B)], B' as [B'|(->&->&B')]; [eauto| | |auto].
    + exfalso. eapply M6; [apply Hl; exact B'|exact B].
    + exfalso. eapply M6; [apply Hl; exact B|exact B'].
  - intros q A. assert (alive w q) as A'.
    { destruct (Z.eq_dec q p) as [->|N]; [apply (M1 i), Hl; now left|]. unfold alive in A. rewrite E2 in A by exact N. exact A. }
    destruct (in_dec Z.eq_dec q (p :: children o)) as [H|H].
    + right. exists s, x. apply HB. auto.
    + destruct (M8 q A') as [[j Hj]|(s1&x1&Hx)].
      * left. exists j. apply HK. auto.
      * right. exists s1, x1. apply HB. auto.
Qed.
(** Handles for which [D] holds are given up, with their objects. *)
Lemma mem_drop K w w' (D : sid -> Z -> Prop) : mem K w ->
  (forall s x q, stands w' s x q <-> stands w s x q /\ ~ D s x) ->
  (forall p s x, D s x -> belongs w s x p -> w_heap w' p = None) ->
  (forall p, (forall s x, D s x -> ~ belongs w s x p) -> w_heap w' p = w_heap w p) -> mem K w'.
Proof.
  intros M HS E1 E2. pose proof M as [M1 M2 M3 M4 M5 M6 M7 M8].
  assert (forall s x p, belongs w s x p -> ~ D s x -> w_heap w' p = w_heap w p) as Hb.
  { intros s x p B N. apply E2. intros s' x' H B'. destruct (M7 _ _ _ _ _ B B') as [-> ->]. contradiction. }
  assert (forall s x q, belongs w' s x q <-> belongs w s x q /\ ~ D s x) as HB.
  { intros s x p. rewrite !belongs_stands. split.
    - intros (q&o&S&E&H). apply HS in S as [S N]. split; [|exact N]. exists q, o.
      rewrite (Hb _ _ _ (stands_belongs _ _ _ _ _ M S) N) in E. auto.
    - intros [(q&o&S&E&H) N]. exists q, o. split; [apply HS; auto|].
      rewrite (Hb _ _ _ (stands_belongs _ _ _ _ _ M S) N). auto. }
  assert (forall i p, K i p -> w_heap w' p = w_heap w p) as HK.
  { intros i p H. apply E2. intros s x _ B. eauto. }
  constructor; auto.
  - intros i p H. unfold alive. rewrite (HK _ _ H). eapply M1; eauto.
  - intros s x q S. apply HS in S as [S N]. unfold alive. rewrite (Hb _ _ _ (stands_belongs _ _ _ _ _ M S) N). eapply M2; eauto.
  - intros s x q B. apply HB in B as [B N]. unfold alive. rewrite (Hb _ _ _ B N). eapply M3; eauto.
  - intros s x q o S E. apply HS in S as [S N]. rewrite (Hb _ _ _ (stands_belongs _ _ _ _ _ M S) N) in E. eauto.
  - intros i s x p H B. apply HB in B as [B N]. eauto.
  - intros s x s' x' p B B'. apply HB in B as [B _], B' as [B' _]. eauto.
  - intros p [o E].
    assert (w_heap w' p = w_heap w p) as Ep.
    { apply E2. intros s x H B. rewrite (E1 _ _ _ H B) in E. discriminate. }
    rewrite Ep in E. destruct (M8 p (ex_intro _ _ E)) as [[j Hj]|(s&x&Hx)]; [left; eauto|].
    right. exists s, x. apply HB. split; [exact Hx|]. intros H. rewrite (E1 _ _ _ H Hx) in Ep. congruence.
Qed.

(** ** References *)
Definition total (ts : list thread) (s : sid) (x p : Z) : Z := sum_of (fun t => refs (t_hist t) s x p) ts.
Record referenced (w : world) (ts : list thread) : Prop := MkReferenced {
  r_held : forall i t s x p, nth_error ts i = Some t -> 1 <= refs (t_hist t) s x p ->
     exists n, handle w s x = Some (p, t_user t, n);
  r_count : forall s x p u n, handle w s x = Some (p, u, n) -> n = total ts s x p
}.
Lemma referenced_step w w' ts i t t' : referenced w ts -> nth_error ts i = Some t -> t_user t' = t_user t ->
  (forall s x p, 1 <= refs (t_hist t') s x p -> exists n, handle w' s x = Some (p, t_user t, n)) ->
  (forall j t0 s x p n, nth_error ts j = Some t0 -> j <> i -> 1 <= refs (t_hist t0) s x p ->
     handle w s x = Some (p, t_user t0, n) -> exists n', handle w' s x = Some (p, t_user t0, n')) ->
  (forall s x p u n, handle w' s x = Some (p, u, n) ->
     n = total ts s x p - refs (t_hist t) s x p + refs (t_hist t') s x p) ->
  referenced w' (update i t' ts).
Proof.
  intros [R1 R2] T U H1 H2 H3. constructor.
  - intros j t0 s x p Tj Hr. destruct (Nat.eq_dec i j) as [<-|N].
    + rewrite nth_error_update_eq in Tj by (apply nth_error_Some; congruence). injection Tj as <-. rewrite U. now apply H1.
    + rewrite nth_error_update_neq in Tj by exact N. destruct (R1 _ _ _ _ _ Tj Hr) as [n Hn]. eapply H2; eauto.
  - intros s x p u n Hn. unfold total. rewrite (sum_update _ _ _ _ _ T). now apply H3 in Hn.
Qed.

(** ** Mutexes *)
Fixpoint lock_count (p : Z) (i : nat) (l : list (Z * nat)) : Z :=
  match l with
  | [] => 0
  | e :: l => (if (fst e =? p) && Nat.eqb (snd e) i then 1 else 0) + lock_count p i l
  end.
Lemma lock_count_nonneg p i l : 0 <= lock_count p i l.
Proof. induction l as [|e l IH]; cbn; [lia|]. destruct ((fst e =? p) && Nat.eqb (snd e) i); lia. Qed.
Lemma drop_lock_count p i l q j : 1 <= lock_count p i l ->
  lock_count q j (drop_lock p i l) = lock_count q j l - (if (p =? q) && Nat.eqb i j then 1 else 0).
Proof.
  induction l as [|e l IH]; cbn [lock_count drop_lock]; intros H; [lia|].
  destruct ((fst e =? p) && Nat.eqb (snd e) i) eqn:E.
  - apply andb_true_iff in E as [E1 E2]. apply Z.eqb_eq in E1. apply Nat.eqb_eq in E2. rewrite E1, E2. lia.
  - cbn [lock_count]. rewrite IH by lia. lia.
Qed.
Lemma locked_by_count w p i : locked_by w p i = true <-> 1 <= lock_count p i (w_mutex w).
Proof.
  unfold locked_by. induction (w_mutex w) as [|e l IH]; cbn; [split; [discriminate|lia]|].
  pose proof (lock_count_nonneg p i l). destruct ((fst e =? p) && Nat.eqb (snd e) i) eqn:E; cbn; rewrite ?E.
  - split; [lia|auto].
  - rewrite IH. split; lia.
Qed.
Lemma locked_count w p : locked w p = true -> exists i, 1 <= lock_count p i (w_mutex w).
Proof.
  unfold locked. induction (w_mutex w) as [|e l IH]; cbn; [discriminate|].
  destruct (fst e =? p) eqn:E; cbn.
  - intros _. exists (snd e). rewrite Nat.eqb_refl. pose proof (lock_count_nonneg p (snd e) l). lia.
  - intros H. exact (IH H).
Qed.
Definition locking (w : world) (ts : list thread) : Prop := forall p i,
  lock_count p i (w_mutex w) = match nth_error ts i with Some t => locks (t_hist t) p | None => 0 end.
Lemma locking_step w w' ts i t t' : locking w ts -> nth_error ts i = Some t ->
  (forall p j, lock_count p j (w_mutex w') = lock_count p j (w_mutex w) +
     (if Nat.eqb i j then locks (t_hist t') p - locks (t_hist t) p else 0)) ->
  locking w' (update i t' ts).
Proof.
  intros L T H p j. rewrite H, L. destruct (Nat.eqb i j) eqn:E.
  - apply Nat.eqb_eq in E as <-. rewrite T, nth_error_update_eq by (apply nth_error_Some; congruence). lia.
  - apply Nat.eqb_neq in E. rewrite nth_error_update_neq by exact E. lia.
Qed.
(** ** Stores *)
Record tables (w : world) : Prop := MkTables {
  tb_clients : w_stores w SClients <> None;
  tb_stores : forall s c, client_of s = Some c -> (w_stores w s <> None <-> exists x, stands w SClients x c)
}.

Record safe (w : world) (ts : list thread) : Prop := MkSafe {
  sf_tidy : forall i t, nth_error ts i = Some t -> tidy (t_hist t);
  sf_once : forall i t p, nth_error ts i = Some t -> owned (t_hist t) p <= 1;
  sf_mem : mem (keeps ts) w;
  sf_refs : referenced w ts;
  sf_locks : locking w ts;
  sf_tables : tables w
}.
