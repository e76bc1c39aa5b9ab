From Verif Require Import Base M_Locks.

(** ** A deadlock: two copies in opposite directions *)
Definition copies_only (c : call) : Prop :=
  c = CallSvpCopy 0 1 2 \/ c = CallSvpCopy 0 2 1.

Definition stuck_state : list thread :=
  [MkThread [LSvp 1; LSvp 2; LClient 0] [LSvp 2] [OLock (LSvp 1); ODrop (LSvp 1); ODrop (LSvp 2); ODrop (LClient 0)];
   MkThread [LSvp 2; LSvp 1; LClient 0] [LSvp 1] [OLock (LSvp 2); ODrop (LSvp 2); ODrop (LSvp 1); ODrop (LClient 0)]].

Ltac lr l1 t l2 := apply (lr_step _ l1 t l2); [|cbn; auto; intros o [<-|[]]; cbn; intuition discriminate].

Lemma stuck_reachable : lruns copies_only stuck_state.
Proof.
  unfold stuck_state.
  assert (lruns copies_only [MkThread [] [] (ops (CallSvpCopy 0 2 1)); MkThread [] [] (ops (CallSvpCopy 0 1 2))]) as H.
  { apply (lr_start _ _ (CallSvpCopy 0 2 1)); [|right; reflexivity].
    apply (lr_start _ _ (CallSvpCopy 0 1 2)); [constructor|left; reflexivity]. }
  assert (forall a b ta tb, lruns copies_only [a; b] -> can_step [b] a -> advance a = ta -> tb = b -> lruns copies_only [ta; tb]) as S1.
  { intros a b ta tb Hr Hc <- ->. apply (lr_step _ [] a [b]); assumption. }
  assert (forall a b ta tb, lruns copies_only [a; b] -> can_step [a] b -> advance b = tb -> ta = a -> lruns copies_only [ta; tb]) as S2.
  { intros a b ta tb Hr Hc <- ->. apply (lr_step _ [a] b []); assumption. }
  eapply S2; [eapply S2; [eapply S2; [eapply S2; [|cbn..]|cbn..]|cbn..]|cbn..].
  1: eapply S1; [eapply S1; [eapply S1; [eapply S1; [exact H|cbn..]|cbn..]|cbn..]|cbn..].
  all: try reflexivity; cbn; auto; intros o [<-|[]]; cbn; intuition discriminate.
Qed.

Lemma two_split {A} (a b : A) l1 t l2 : [a; b] = l1 ++ t :: l2 ->
  (t = a /\ l1 ++ l2 = [b]) \/ (t = b /\ l1 ++ l2 = [a]).
Proof.
  destruct l1 as [|x [|y l1]]; cbn; intros H; inversion H; subst; auto.
  destruct l1; discriminate.
Qed.

Lemma stuck_deadlocked : deadlocked stuck_state.
Proof.
  split; [discriminate|]. intros l1 t l2 E. apply two_split in E.
  destruct E as [[-> ->]|[-> ->]]; (split; [discriminate|]); cbn; intros H;
    (eapply H; [left; reflexivity|]); cbn; auto.
Qed.

(** ** Freedom from deadlock under a consistent buffer order *)
Section Order.
Variable ord : Z -> nat.   (* an order on SVP buffers *)

Definition rank (l : lock) : nat :=
  match l with
  | LClient _ => 0
  | LKey _ | LCipher _ | LMac _ => 1
  | LSvp b => 2 + ord b
  end%nat.

(** A call respects the order: a second SVP buffer is not below the first. *)
Definition respects (c : call) : Prop :=
  match c with
  | CallSvpCopy _ out inb => out = inb \/ (ord out < ord inb)%nat
  | CallCipher _ _ (Some out) (Some inb) => out = inb \/ (ord out < ord inb)%nat
  | _ => True
  end.

(** Locks a thread still refers to must be above what it holds when it waits. *)
Fixpoint disciplined (refs held : list lock) (todo : list lop) : Prop :=
  match todo with
  | [] => refs = [] /\ held = []
  | ORef l :: k => disciplined (l :: refs) held k
  | OLock l :: k =>
      (forall x, In x refs \/ In x held -> x = l \/ (rank x < rank l)%nat) /\
      disciplined refs (l :: held) k
  | ODrop l :: k => disciplined (remove_one l refs) (remove_one l held) k
  | ODrain l :: k =>
      (forall x, In x refs \/ In x held -> (rank x < rank l)%nat) /\
      disciplined refs held k
  end.

Definition t_ok (t : thread) : Prop := disciplined (t_refs t) (t_held t) (t_todo t).

Ltac eqd := repeat match goal with |- context [lock_eq_dec ?a ?b] => destruct (lock_eq_dec a b); try congruence end.

Lemma ops_disciplined c : respects c -> disciplined [] [] (ops c).
Proof.
  destruct c as [c out inb|c b|c b|c k out inb|c k|c k|c k|c k|c k|c]; cbn [ops respects take take_opt drop_opt app].
  4: destruct out as [out|], inb as [inb|]; cbn [take take_opt drop_opt app].
  all: intros H; cbn [disciplined remove_one].
  all: repeat (eqd; cbn [remove_one]).
  all: repeat match goal with |- _ /\ _ => split end; try reflexivity.
  all: intros x [Hx|Hx]; cbn in Hx; intuition (subst; cbn; auto; try lia).
  all: try (right; lia).
  all: try (destruct H as [->|H]; [left; reflexivity|right; lia]).
Qed.

Lemma advance_ok others t : can_step others t -> t_ok t -> t_ok (advance t).
Proof.
  unfold t_ok, can_step, advance. destruct (t_todo t) as [|[l|l|l|l] k] eqn:E; cbn; try tauto.
Qed.

Definition apart (a b : thread) : Prop := forall x, In x (t_held a) -> ~ In x (t_held b).
Fixpoint mutex (ts : list thread) : Prop :=
  match ts with [] => True | t :: r => (forall o, In o r -> apart t o) /\ mutex r end.

Lemma apart_sym a b : apart a b -> apart b a.
Proof. intros H x Hx Hy. exact (H x Hy Hx). Qed.

Lemma mutex_mid l1 t l2 : mutex (l1 ++ t :: l2) <-> mutex (l1 ++ l2) /\ forall o, In o (l1 ++ l2) -> apart t o.
Proof.
  induction l1 as [|a l1 IH]; cbn [app mutex]; [tauto|]. rewrite IH. split.
  - intros (H1 & H2 & H3). repeat split; auto.
    + intros o Ho. apply H1. rewrite in_app_iff in *. cbn. tauto.
    + intros o [<-|Ho]; auto. apply apart_sym. apply H1. rewrite in_app_iff. cbn. tauto.
  - intros ((H1 & H2) & H3). repeat split; auto.
    + intros o Ho. rewrite in_app_iff in Ho. cbn in Ho. destruct Ho as [Ho|[<-|Ho]].
      * apply H1. apply in_app_iff. auto.
      * apply apart_sym. apply H3. left. reflexivity.
      * apply H1. apply in_app_iff. auto.
    + intros o Ho. apply H3. right. exact Ho.
Qed.

Lemma remove_one_in l ls x : In x (remove_one l ls) -> In x ls.
Proof.
  induction ls as [|y ls IH]; cbn; auto. destruct (lock_eq_dec y l); cbn; tauto.
Qed.

Lemma runs_ok ts : lruns respects ts -> Forall t_ok ts /\ mutex ts.
Proof.
  intros H. induction H as [|ts c H IH Hc|l1 t l2 H IH Hs|l1 t l2 H IH He].
  - split; constructor.
  - destruct IH as [IH M]. split.
    + constructor; [|exact IH]. unfold t_ok; cbn [t_refs t_held t_todo]. apply ops_disciplined. exact Hc.
    + cbn. split; [|exact M]. intros o _ x [].
  - destruct IH as [IH M]. apply Forall_app in IH as [A B]. inversion B; subst. split.
    + apply Forall_app. split; [exact A|]. constructor; [eapply advance_ok; eauto|assumption].
    + apply mutex_mid in M as [M1 M2]. apply mutex_mid. split; [exact M1|].
      intros o Ho x Hx. unfold advance, can_step in *.
      destruct (t_todo t) as [|[l|l|l|l] k]; cbn in Hx; try (apply (M2 o Ho x); assumption).
      * destruct Hx as [<-|Hx]; [apply (Hs o Ho)|apply (M2 o Ho x Hx)].
      * apply (M2 o Ho x). eapply remove_one_in; eauto.
  - destruct IH as [IH M]. apply Forall_app in IH as [A B]. inversion B; subst.
    split; [apply Forall_app; auto|]. apply mutex_mid in M. tauto.
Qed.

(** A blocked thread's key; its blocker, if blocked too, has a larger key. *)
Definition key (t : thread) : nat :=
  match t_todo t with
  | OLock l :: _ => 2 * rank l + 1
  | ODrain l :: _ => 2 * rank l
  | _ => 0
  end%nat.

Lemma max_key ts : ts <> [] -> exists l1 t l2, ts = l1 ++ t :: l2 /\ forall o, In o ts -> (key o <= key t)%nat.
Proof.
  induction ts as [|t ts IH]; [congruence|]. intros _. destruct ts as [|t2 ts].
  - exists [], t, []. split; [reflexivity|]. intros o [<-|[]]. lia.
  - destruct IH as (l1 & m & l2 & E & Hm); [discriminate|].
    destruct (le_lt_dec (key t) (key m)) as [Hle|Hlt].
    + exists (t :: l1), m, l2. split; [rewrite E; reflexivity|]. intros o [<-|Ho]; [exact Hle|]. apply Hm. exact Ho.
    + exists [], t, (t2 :: ts). split; [reflexivity|]. intros o [<-|Ho]; [lia|]. specialize (Hm _ Ho). lia.
Qed.

Lemma exists_or_forall {A} (f : A -> bool) l : (exists x, In x l /\ f x = true) \/ (forall x, In x l -> f x = false).
Proof.
  induction l as [|a l [(x & Hi & Hf)|H]]; [right; intros ? []|left; exists x; cbn; auto|].
  destruct (f a) eqn:E; [left; exists a; cbn; auto|]. right. intros x [<-|Hx]; auto.
Qed.

Lemma no_deadlock_ok ts : Forall t_ok ts -> mutex ts -> ~ deadlocked ts.
Proof.
  intros Hok Hmx [Hne Hd]. destruct (max_key ts Hne) as (l1 & t & l2 & E & Hm).
  destruct (Hd _ _ _ E) as [Htodo Hstuck].
  assert (forall o, In o (l1 ++ l2) -> In o ts) as Hin.
  { intros o Ho. rewrite E. apply in_app_iff in Ho. apply in_app_iff. cbn. tauto. }
  assert (forall o, In o ts -> t_ok o /\ exists op k, t_todo o = op :: k /\
      (match op with OLock _ | ODrain _ => True | _ => False end)) as Hblk.
  { intros o Ho. rewrite Forall_forall in Hok. split; [auto|]. apply in_split in Ho as (a & b & Eo).
    destruct (Hd _ _ _ Eo) as [Hn Hs]. unfold can_step in Hs. destruct (t_todo o) as [|op k]; [congruence|].
    exists op, k. split; [reflexivity|]. destruct op; auto. }
  unfold can_step in Hstuck. destruct (t_todo t) as [|[l|l|l|l] k] eqn:Et; try tauto.
  - (* waiting for a mutex: its holder waits for something higher *)
    destruct (exists_or_forall (fun o => if in_dec lock_eq_dec l (t_held o) then true else false) (l1 ++ l2)) as [(o & Ho & Hf)|Hall].
    + destruct (in_dec lock_eq_dec l (t_held o)) as [Hl|]; [|discriminate].
      destruct (Hblk o (Hin _ Ho)) as (Ok & op & ko & Eo & Hop).
      specialize (Hm o (Hin _ Ho)). unfold key in Hm. rewrite Et, Eo in Hm.
      unfold t_ok in Ok. rewrite Eo in Ok. destruct op as [x|x|x|x]; try tauto; cbn in Ok; destruct Ok as [Ok _].
      * destruct (Ok l (or_intror Hl)) as [->|Hlt]; [|lia].
        (* the holder re-locks its own mutex, which cannot block *)
        pose proof (Hin _ Ho) as Ho2. apply in_split in Ho2 as (a & b & Eo2).
        destruct (Hd _ _ _ Eo2) as [_ Hs]. unfold can_step in Hs. rewrite Eo in Hs.
        apply Hs. intros o2 Ho2. rewrite Eo2 in Hmx. apply mutex_mid in Hmx as [_ Hmx].
        apply (Hmx o2 Ho2 x Hl).
      * specialize (Ok l (or_intror Hl)). lia.
    + apply Hstuck. intros o Ho Hx. specialize (Hall o Ho). destruct (in_dec lock_eq_dec l (t_held o)); congruence.
  - (* waiting for references: a holder waits for something higher *)
    destruct (exists_or_forall (fun o => if in_dec lock_eq_dec l (t_refs o) then true else false) (l1 ++ l2)) as [(o & Ho & Hf)|Hall].
    + destruct (in_dec lock_eq_dec l (t_refs o)) as [Hl|]; [|discriminate].
      destruct (Hblk o (Hin _ Ho)) as (Ok & op & ko & Eo & Hop).
      specialize (Hm o (Hin _ Ho)). unfold key in Hm. rewrite Et, Eo in Hm.
      unfold t_ok in Ok. rewrite Eo in Ok. destruct op as [x|x|x|x]; try tauto; cbn in Ok; destruct Ok as [Ok _].
      * destruct (Ok l (or_introl Hl)) as [->|Hlt]; lia.
      * specialize (Ok l (or_introl Hl)). lia.
    + apply Hstuck. intros o Ho Hx. specialize (Hall o Ho). destruct (in_dec lock_eq_dec l (t_refs o)); congruence.
Qed.

Lemma no_deadlock ts : lruns respects ts -> ~ deadlocked ts.
Proof. intros H. destruct (runs_ok ts H). apply no_deadlock_ok; assumption. Qed.
End Order.

(** Calls that touch at most one SVP buffer respect every order. *)
Definition single_buffer (c : call) : Prop :=
  match c with
  | CallSvpCopy _ out inb => out = inb
  | CallCipher _ _ (Some out) (Some inb) => out = inb
  | _ => True
  end.

Lemma lruns_mono (P Q : call -> Prop) ts : (forall c, P c -> Q c) -> lruns P ts -> lruns Q ts.
Proof.
  intros HPQ H. induction H; [constructor|constructor; auto|apply (lr_step _ l1 t l2); auto|apply (lr_end _ l1 t l2); auto].
Qed.

Lemma no_deadlock_single ts : lruns single_buffer ts -> ~ deadlocked ts.
Proof.
  intros H. apply (no_deadlock (fun _ => O)). revert H. apply lruns_mono.
  intros c. destruct c as [? out inb| | |? ? [o|] [i|]| | | | | |]; cbn; auto.
Qed.

(** Example of runs that respect an order: copies 1->2, 2->3 and 1->3 with a release of 3
    and a close in flight. *)
Lemma ordered_case :
  lruns (respects (fun b => Z.to_nat (10 - b)))
    (map (fun c => MkThread [] [] (ops c))
       [CallClose 0; CallSvpRelease 0 3; CallSvpCopy 0 3 1; CallSvpCopy 0 3 2; CallSvpCopy 0 2 1]).
Proof. repeat (apply lr_start; [|cbn; lia || auto]). constructor. Qed.
