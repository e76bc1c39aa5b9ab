(** What the accounts of a single call add up to. *)
From Verif Require Import Base M_Slots M_ObjectStore M_Rights M_Svp M_Prog M_ApiKey M_ApiCipher M_Api S_Api M_World S_World
  P_Prog P_ApiAccount.

(** ** Sums *)
Fixpoint sum_of {A} (f : A -> Z) (l : list A) : Z :=
  match l with [] => 0 | a :: l => f a + sum_of f l end.
Lemma sum_add {A} (f g : A -> Z) l : sum_of (fun a => f a + g a) l = sum_of f l + sum_of g l.
Proof. induction l as [|a l IH]; cbn; [reflexivity|rewrite IH; lia]. Qed.
Lemma sum_opp {A} (f : A -> Z) l : sum_of (fun a => - f a) l = - sum_of f l.
Proof. induction l as [|a l IH]; cbn; [reflexivity|rewrite IH; lia]. Qed.
Lemma sum_zero {A} (f : A -> Z) l : (forall a, In a l -> f a = 0) -> sum_of f l = 0.
Proof.
  induction l as [|a l IH]; cbn; intros H; [reflexivity|]. rewrite H by now left. rewrite IH; [lia|]. intros; apply H; now right.
Qed.
Lemma sum_ext {A} (f g : A -> Z) l : (forall a, In a l -> f a = g a) -> sum_of f l = sum_of g l.
Proof.
  induction l as [|a l IH]; cbn; intros H; [reflexivity|]. rewrite H by now left. rewrite IH; [lia|]. intros; apply H; now right.
Qed.
Lemma sum_pos {A} (f : A -> Z) l : 1 <= sum_of f l -> exists a, In a l /\ 1 <= f a.
Proof.
  induction l as [|a l IH]; cbn; intros H; [lia|]. destruct (Z_lt_dec (f a) 1); [|exists a; split; [now left|lia]].
  destruct IH as (b&Hb&H1); [lia|]. exists b. split; [now right|exact H1].
Qed.
Lemma sum_nonneg {A} (f : A -> Z) l : (forall a, In a l -> 0 <= f a) -> 0 <= sum_of f l.
Proof.
  induction l as [|a l IH]; cbn; intros H; [lia|]. specialize (IH ltac:(intros; apply H; now right)).
  specialize (H a (or_introl eq_refl)). lia.
Qed.
Lemma sum_part {A} (f : A -> Z) l a : (forall a, In a l -> 0 <= f a) -> In a l -> f a <= sum_of f l.
Proof.
  induction l as [|b l IH]; cbn; intros H Ha; [destruct Ha|destruct Ha as [->|Ha] ].
  - pose proof (sum_nonneg f l ltac:(intros; apply H; now right)). lia.
  - specialize (IH ltac:(intros; apply H; now right) Ha). specialize (H b (or_introl eq_refl)). lia.
Qed.
Lemma sum_app {A} (f : A -> Z) l m : sum_of f (l ++ m) = sum_of f l + sum_of f m.
Proof. induction l as [|a l IH]; cbn; [reflexivity|rewrite IH; lia]. Qed.
Lemma sum_update {A} (f : A -> Z) l i a b : nth_error l i = Some a -> sum_of f (update i b l) = sum_of f l - f a + f b.
Proof.
  revert i. induction l as [|x l IH]; intros [|i]; cbn [nth_error]; try discriminate.
  - intros E. injection E as ->. cbn. lia.
  - intros E. cbn. rewrite (IH i E). lia.
Qed.

(** ** The references on an object are those under its names *)
Definition name_dec : forall a b : sid * Z, {a = b} + {a <> b}.
Proof. decide equality; [apply Z.eq_dec|apply sid_dec]. Defined.
Fixpoint names (h : list ev) : list (sid * Z) :=
  match h with
  | [] => []
  | EAcquire s x _ (Got _) :: h | ERelease s x _ _ :: h => (s, x) :: names h
  | _ :: h => names h
  end.
Lemma sum_hit s x p q N : NoDup N -> In (s, x) N ->
  sum_of (fun n => hit ref_dec (s, x, q) (fst n, snd n, p)) N = hit Z.eq_dec q p.
Proof.
  intros D H. destruct (Z.eq_dec q p) as [->|Ne].
  - unfold hit at 2. destruct (Z.eq_dec p p); [|congruence].
    induction D as [|[a b] N Hn D IH]; [destruct H|]. cbn [sum_of fst snd]. destruct H as [E|H].
    + injection E as -> ->. rewrite hit_same. rewrite sum_zero; [lia|]. intros [a b] Hin. apply hit_diff.
      cbn. intros E. injection E as <- <-. contradiction.
    + rewrite IH by exact H. rewrite hit_diff; [lia|]. intros E. injection E as -> ->. contradiction.
  - rewrite hit_diff by exact Ne. apply sum_zero. intros [a b] _. apply hit_diff. cbn. congruence.
Qed.
Lemma refs_on_sum h p N : NoDup N -> incl (names h) N ->
  refs_on h p = sum_of (fun n => refs h (fst n) (snd n) p) N.
Proof.
  intros D. induction h as [|e h IH]; intros H; [symmetry; now apply sum_zero|].
  destruct e as [s x u [q|]|s x q u| | | | | | | | | | | | | | | | | |]; cbn [names refs refs_on] in *; try exact (IH H).
  - rewrite sum_add, sum_hit; [|exact D|apply H; now left]. rewrite IH; [reflexivity|]. intros a Ha. apply H. now right.
  - rewrite sum_add, sum_opp, sum_hit; [|exact D|apply H; now left]. rewrite IH; [lia|]. intros a Ha. apply H. now right.
Qed.
Lemma refs_on_named h p : 1 <= refs_on h p -> held h p.
Proof.
  intros H. rewrite (refs_on_sum h p (nodup name_dec (names h))) in H.
  - apply sum_pos in H as ([s x]&_&H). exists s, x. exact H.
  - apply NoDup_nodup.
  - intros a Ha. now apply nodup_In.
Qed.

(** ** Tidy histories *)
Record tidy (h : list ev) : Prop := MkTidy {
  td_refs : forall s x p, 0 <= refs h s x p;
  td_locks : forall p, 0 <= locks h p <= refs_on h p;
  td_owned : forall p, 0 <= owned h p;
  td_client : forall s x p, 1 <= refs h s x p -> client_held h s
}.
Lemma tidy_start : tidy [].
Proof. constructor; cbn; intros; try lia. Qed.
Lemma tidy_same h e : tidy h -> (forall s x p, refs (e :: h) s x p = refs h s x p) ->
  (forall p, locks (e :: h) p = locks h p) -> (forall p, refs_on (e :: h) p = refs_on h p) ->
  (forall p, 0 <= owned (e :: h) p) -> tidy (e :: h).
Proof.
  intros [T1 T2 T3 T4] R L O W. constructor; intros *.
  - rewrite R. apply T1.
  - rewrite L, O. apply T2.
  - apply W.
  - rewrite R. intros H c Hc. destruct (T4 _ _ _ H c Hc) as [y Hy]. exists y. now rewrite R.
Qed.
Lemma count_nonneg p l : 0 <= count p l.
Proof. induction l as [|q l IH]; cbn; [lia|]. pose proof (hit_range Z.eq_dec q p). lia. Qed.
Lemma tidy_step h c r : tidy h -> in_order h c -> tidy (event c r :: h).
Proof.
  intros T Ord. pose proof T as [T1 T2 T3 T4].
  destruct c; cbn [event in_order] in *; try destruct r;
    try (apply tidy_same; cbn [refs locks refs_on owned]; auto; fail).
  - (* acquire *)
    rename z into p. constructor; cbn [refs locks refs_on owned]; auto.
    + intros s1 x1 p1. pose proof (hit_range ref_dec (s, h0, p) (s1, x1, p1)). specialize (T1 s1 x1 p1). lia.
    + intros p1. pose proof (hit_range Z.eq_dec p p1). specialize (T2 p1). lia.
    + intros s1 x1 p1 H c Hc.
      assert (exists y, 1 <= refs h SClients y c) as [y Hy].
      { destruct (ref_dec (s, h0, p) (s1, x1, p1)) as [E|N].
        - injection E as <- <- <-. now apply Ord.
        - rewrite hit_diff in H by exact N. now apply (T4 s1 x1 p1 ltac:(lia)). }
      exists y. cbn [refs]. pose proof (hit_range ref_dec (s, h0, p) (SClients, y, c)). lia.
  - (* release *)
    destruct Ord as [[O1 O2] [O3 O4]]. constructor; cbn [refs locks refs_on owned]; auto.
    + intros s1 x1 p1. unfold hit. destruct (ref_dec (s, h0, p) (s1, x1, p1)) as [E|N]; [injection E as <- <- <-; lia|]. specialize (T1 s1 x1 p1). lia.
    + intros p1. unfold hit. pose proof (T2 p). pose proof (T2 p1). destruct (Z.eq_dec p p1) as [<-|N]; lia.
    + intros s1 x1 p1 H c Hc. pose proof (hit_range ref_dec (s, h0, p) (s1, x1, p1)) as Hr.
      destruct (T4 s1 x1 p1 ltac:(lia) c Hc) as [y Hy]. exists y. cbn [refs].
      rewrite hit_diff; [lia|]. intros E. injection E as -> -> ->.
      specialize (O4 eq_refl s1 x1 p1 Hc). lia.
  - (* add *)
    destruct Ord as [O1 _]. apply tidy_same; cbn [refs locks refs_on owned]; auto. intros q. specialize (O1 q). lia.
  - (* lock *)
    destruct Ord as [O1 O2]. constructor; cbn [refs locks refs_on owned]; auto.
    intros p1. unfold hit. pose proof (T2 p). pose proof (T2 p1). destruct (Z.eq_dec p p1) as [<-|N]; lia.
  - destruct Ord as [O1 O2]. constructor; cbn [refs locks refs_on owned]; auto.
    intros p1. unfold hit. pose proof (T2 p). pose proof (T2 p1). destruct (Z.eq_dec p p1) as [<-|N]; lia.
  - (* new *)
    apply tidy_same; cbn [refs locks refs_on owned]; auto. intros q. pose proof (hit_range Z.eq_dec z q). specialize (T3 q). lia.
  - apply tidy_same; cbn [refs locks refs_on owned]; auto. intros q. specialize (Ord q). lia.
Qed.

(** Owning at most one of each, and [l] of them. *)
Lemma count_in p l : 1 <= count p l <-> In p l.
Proof.
  induction l as [|q l IH]; cbn; [split; [lia|contradiction]|]. unfold hit. destruct (Z.eq_dec q p) as [->|N].
  - split; [now left|]. intros _. pose proof (count_nonneg p l). lia.
  - rewrite <- IH. split; [intros; lia|]. intros [E|H]; [congruence|lia].
Qed.
Lemma count_out p l : ~ In p l -> count p l = 0.
Proof. intros H. pose proof (count_nonneg p l). destruct (Z_lt_dec (count p l) 1); [lia|]. exfalso. apply H, count_in. lia. Qed.
Lemma count_nodup l : (forall p, count p l <= 1) -> NoDup l.
Proof.
  induction l as [|q l IH]; intros H; constructor.
  - intros Hin. apply count_in in Hin. specialize (H q). cbn in H. rewrite hit_same in H. lia.
  - apply IH. intros p. specialize (H p). cbn in H. pose proof (hit_range Z.eq_dec q p). lia.
Qed.
