From Verif Require Import Base M_ClientMem S_ClientMem.

Ltac outs o := destruct o as [|[] o]; try (vm_compute; reflexivity).
Lemma all_clean : forall shared f o sent_ok, ~ known_bad shared f o sent_ok -> clean (call shared f o sent_ok).
Proof.
  intros shared f o sent_ok K. unfold clean.
  destruct f, shared; cbn in K;
    try (exfalso; apply K; reflexivity);
    try (destruct sent_ok; [|exfalso; apply K; reflexivity]);
    try (destruct o as [|[] o]; cbn in K; try (exfalso; apply K; discriminate));
    try destruct sent_ok; try (vm_compute; reflexivity);
    do 4 (try outs o).
Qed.

(** Common encryption, between two samples: only the command is held. *)
Definition held (s : state) : Prop :=
  m_var s Command = Block 0 /\ m_var s Table = Null /\ m_var s P1 = Null /\ m_var s P2 = Null /\ m_var s P3 = Null /\ m_live s = [0]%nat /\ (0 < m_next s)%nat.

Ltac crush :=
  repeat (cbn -[Nat.eqb Nat.eq_dec]; unfold give; cbn -[Nat.eqb Nat.eq_dec]; try reflexivity;
          match goal with
          | H : m_var ?s ?v = _ |- context [m_var ?s ?v] => rewrite H
          | H : m_live ?s = _ |- context [m_live ?s] => rewrite H
          | |- context [Nat.eqb ?a ?a] => rewrite Nat.eqb_refl
          | |- context [Nat.eqb ?a ?b] => rewrite (proj2 (Nat.eqb_neq a b)) by lia
          | |- context [Nat.eq_dec ?a ?b] => destruct (Nat.eq_dec a b); try lia
          end).
Lemma ends_clean : forall shared s, held s -> forall s', s' = s \/ s' = null s Table \/ (exists k, s' = params shared k (take s Table)) ->
  exists s2, finishes shared [Free Table; Free Command; Drop P1; Drop P2; Drop P3] s' = Some s2 /\ m_live s2 = [].
Proof.
  intros shared s (C & T & A & B & D & L & N) s' [-> | [-> | [k ->]]].
  - destruct shared; eexists; (split; [crush|]); crush.
  - destruct shared; eexists; (split; [crush|]); crush.
  - destruct k as [|[|[|k]]]; unfold params; cbn [firstn]; destruct shared; try (eexists; (split; [crush|]); crush; fail).
    all: rewrite ?firstn_nil; eexists; (split; [crush|]); crush.
Qed.
Lemma sent_clean : forall shared i r, held (r_state r) ->
  exists s, turn shared i Sent r = Some (MkRun s true (i :: r_sent r), true) /\ held s.
Proof.
  intros shared i r (C & T & A & B & D & L & N). destruct r as [s ok l]; cbn in *.
  destruct shared; (eexists; split; [crush|]); unfold held; repeat split; crush; cbn; try lia.
Qed.

Lemma turns_spec : forall shared l i r, existsb memory_short l = false -> held (r_state r) ->
  exists r', turns shared i l r = Some r' /\ r_ok r' = match l with [] => r_ok r | _ => forallb right l end /\
    r_sent r' = rev (up_to_first_wrong i l) ++ r_sent r /\
    exists s2, finishes shared [Free Table; Free Command; Drop P1; Drop P2; Drop P3] (r_state r') = Some s2 /\ m_live s2 = [].
Proof.
  induction l as [|x l IH]; intros i r M H.
  - exists r; repeat split; auto. apply (ends_clean shared _ H); auto.
  - cbn in M. apply Bool.orb_false_elim in M as [M1 M2]. destruct x; cbn in M1; try discriminate; cbn -[finishes params take].
    + eexists; repeat split. apply (ends_clean shared _ H); cbn; auto.
    + eexists; repeat split. apply (ends_clean shared _ H); cbn; auto.
    + eexists; repeat split. apply (ends_clean shared _ H); right; right; exists k; reflexivity.
    + eexists; repeat split. apply (ends_clean shared _ H); right; right; exists 3%nat; reflexivity.
    + destruct (sent_clean shared i r H) as (s & E & Hs). cbn -[finishes params take] in E. rewrite E.
      destruct (IH (S i) (MkRun s true (i :: r_sent r)) M2 Hs) as (r' & E' & O & Q & F). exists r'; split; auto. split.
      * rewrite O. destruct l; reflexivity.
      * split; auto. rewrite Q. cbn. now rewrite <- app_assoc.
Qed.
Lemma common_clean : forall shared memory l, l <> [] -> existsb memory_short l = false ->
  common_encryption shared memory l = if memory then Some (forallb right l, up_to_first_wrong 0 l, []) else Some (false, [], []).
Proof.
  intros shared memory l N M. unfold common_encryption. destruct memory; auto.
  destruct (turns_spec shared l 0 (MkRun (take start Command) false []) M) as (r' & E & O & Q & s2 & F & L).
  { unfold held; cbn; repeat split; lia. }
  rewrite E, F, O, Q, L. cbn. rewrite app_nil_r, rev_involutive. destruct l; [contradiction|reflexivity].
Qed.

(** Samples skipped for want of memory. *)
Definition skipping (k : nat) (s : state) : Prop :=
  m_var s Command = Block 0 /\ m_var s P1 = Null /\ m_var s P2 = Null /\ m_var s P3 = Null /\ m_live s = rev (seq 0 (S k)) /\ m_next s = S k.
Lemma rev_seq : forall k, rev (seq 0 (S k)) = k :: rev (seq 0 k).
Proof. intros. rewrite seq_S, rev_app_distr. reflexivity. Qed.
Lemma take_skips : forall k s, skipping k s -> skipping (S k) (null (take s Table) P1).
Proof.
  intros k s (C & A & B & D & L & N). unfold skipping; cbn [null set take m_var m_live m_next var_eqb]. repeat split; auto; try congruence.
  rewrite N, L, (rev_seq (S k)). reflexivity.
Qed.
Lemma skips : forall n k i r, skipping k (r_state r) -> r_sent r = [] ->
  exists r', turns true i (repeat (NoParam 1) n ++ [Sent]) r = turns true (i + n) [Sent] r' /\ skipping (n + k) (r_state r') /\ r_sent r' = [].
Proof.
  induction n as [|n IH]; intros k i r H Q.
  - exists r. rewrite Nat.add_0_r. auto.
  - cbn [repeat app turns turn nth_error Nat.sub params firstn fold_left].
    destruct (IH (S k) (S i) (MkRun (null (take (r_state r) Table) P1) false (r_sent r)) (take_skips k _ H) Q) as (r' & E & S1 & S2).
    exists r'. cbn [turns turn nth_error Nat.sub params firstn fold_left] in *. rewrite E. replace (S i + n)%nat with (i + S n)%nat by lia.
    replace (S n + k)%nat with (n + S k)%nat by lia. auto.
Qed.
Lemma in_rev_seq : forall x k, In x (rev (seq 0 k)) <-> (x < k)%nat.
Proof. intros. rewrite <- in_rev, in_seq. lia. Qed.
Lemma remove_new : forall x k, (k <= x)%nat -> remove Nat.eq_dec x (rev (seq 0 k)) = rev (seq 0 k).
Proof. intros. apply notin_remove. rewrite in_rev_seq. lia. Qed.
Lemma remove_zero : forall k, length (remove Nat.eq_dec 0%nat (rev (seq 0 (S k)))) = k.
Proof.
  induction k; [reflexivity|]. rewrite rev_seq. cbn [remove]. destruct (Nat.eq_dec 0 (S k)); [lia|]. cbn [length]. now rewrite IHk.
Qed.
Lemma zero_in : forall k, existsb (Nat.eqb 0) (rev (seq 0 (S k))) = true.
Proof. intros. apply existsb_exists. exists 0%nat. rewrite in_rev_seq. split; [lia|reflexivity]. Qed.
Lemma last_sent : forall k i r, skipping k (r_state r) -> r_sent r = [] ->
  exists r' s2, turns true i [Sent] r = Some r' /\ r_ok r' = true /\ r_sent r' = [i] /\
    finishes true [Free Table; Free Command; Drop P1; Drop P2; Drop P3] (r_state r') = Some s2 /\ length (m_live s2) = k.
Proof.
  intros k i [s ok sent] (C & A & B & D & L & N) Q. cbn [r_state r_sent] in *. subst sent.
  remember (rev (seq 0 (S k))) as base eqn:EB.
  assert (R : forall x, (S k <= x)%nat -> remove Nat.eq_dec x base = base) by (intros; subst; apply remove_new; auto).
  assert (Z : existsb (Nat.eqb 0) base = true) by (subst; apply zero_in).
  assert (F : exists s1, finishes true [Free Table; Drop P1; Drop P2; Drop P3] (params true 3 (take s Table)) = Some s1 /\
                m_live s1 = base /\ m_var s1 Command = Block 0).
  { unfold params; cbn [firstn fold_left make_ok]. eexists. split; [crush|].
    split; [|cbn; exact C]. cbn -[Nat.eq_dec].
    repeat match goal with |- context [Nat.eq_dec ?a ?a] => destruct (Nat.eq_dec a a); [|lia] end.
    now rewrite !R by lia. }
  destruct F as (s1 & F1 & F2 & F3).
  exists (MkRun (null (null (null (null s1 Table) P1) P2) P3) true [i]).
  eexists. cbn [turns turn r_state r_sent]. rewrite F1. split; [reflexivity|]. split; [reflexivity|]. split; [reflexivity|].
  cbn -[Nat.eqb Nat.eq_dec]. unfold give; cbn -[Nat.eqb Nat.eq_dec remove]. rewrite F3, F2, Z. cbn -[remove]. split; [reflexivity|]. cbn -[remove]. subst base. apply remove_zero.
Qed.
Lemma skipped : forall n, exists left, common_encryption true true (repeat (NoParam 1) n ++ [Sent]) = Some (true, [n], left) /\ length left = n.
Proof.
  intros n. unfold common_encryption.
  destruct (skips n 0 0 (MkRun (take start Command) false [])) as (r' & E & H & Q); [unfold skipping; cbn; repeat split|reflexivity|].
  rewrite E. destruct (last_sent (n + 0) (0 + n) r' H Q) as (r2 & s2 & E2 & O & W & F & L). rewrite E2, F, O, W.
  exists (m_live s2). cbn. split; auto. lia.
Qed.

Lemma header_leaks : forall sent_ok, call true KeyHeader [Made; Made] sent_ok = Some [1%nat].
Proof. intros []; reflexivity. Qed.
Lemma provision_crashes : forall shared o sent_ok, call shared KeyProvision (Failed :: o) sent_ok = None.
Proof. intros [] o []; reflexivity. Qed.
