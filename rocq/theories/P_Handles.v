From Verif Require Import Base M_Slots P_Slots M_ObjectStore S_ObjectStore P_ObjectStore S_Handles.

Ltac rw_tab := repeat match goal with H : ?t ?h = _ |- context [?t ?h] => rewrite H end.

(** The spec state after a transcript is what the ledger says. *)
Lemma spec_note count s ev a s' : spec_step count s ev a s' ->
  (forall k, fst s' k = note (fst s) (ev, a) k) /\
  snd s' = (match ev with EShutdown => true | _ => false end) || snd s.
Proof.
  intros H; inversion H; subst; cbn; split; auto; intros k; unfold tset; try reflexivity.
  - destruct (k =? h) eqn:E; [|reflexivity]. assert (k = h) by lia; subst. rewrite H0. reflexivity.
  - destruct s0; try reflexivity; congruence.
  - destruct (k =? h) eqn:E; [|reflexivity]. assert (k = h) by lia; subst. rewrite H0. reflexivity.
Qed.

Lemma note_ext t1 t2 ea : (forall k, t1 k = t2 k) -> forall k, note t1 ea k = note t2 ea k.
Proof.
  intros H k. destruct ea as [ev a]. destruct ev, a as [[] ?|[] ?|[]|[] ?| |?]; cbn; auto;
    rewrite ?H; try reflexivity; destruct (k =? h); auto; rewrite H; reflexivity.
Qed.

Lemma accepts_split count tr1 : forall s ev a tr2,
  accepts count s (tr1 ++ (ev, a) :: tr2) ->
  exists s1 s2, (forall k, fst s1 k = fold_left note tr1 (fst s) k) /\
    snd s1 = shut tr1 || snd s /\ spec_step count s1 ev a s2 /\ accepts count s2 tr2.
Proof.
  assert (forall tr t1 t2, (forall k, t1 k = t2 k) -> forall k, fold_left note tr t1 k = fold_left note tr t2 k) as X.
  { induction tr as [|ea tr IH]; intros t1 t2 H k; cbn; auto. apply IH. apply note_ext. exact H. }
  induction tr1 as [|[ev1 a1] tr1 IH]; intros s ev a tr2 H; cbn [app] in H; inversion H; subst.
  - exists s, s'. repeat split; auto.
  - destruct (IH _ _ _ _ H5) as (s1 & s2 & P1 & P2 & P3 & P4). destruct (spec_note _ _ _ _ _ H3) as [N1 N2].
    exists s1, s2. split; [|split; [|auto]].
    + intros k. rewrite P1. cbn [fold_left]. apply X. exact N1.
    + rewrite P2, N2. unfold shut. cbn. destruct ev1; cbn; try reflexivity.
      destruct (existsb _ tr1); reflexivity.
Qed.

Section History.
Variables (count : Z) (evs : list event) (tr1 tr2 : list (event * answer)) (ev : event) (a : answer).
Hypothesis Hc : 0 <= count < INVALID_HANDLE.
Hypothesis Hm : count mod 32 = 0.
Hypothesis Hok : Forall event_ok evs.
Hypothesis Htr : transcript count evs = tr1 ++ (ev, a) :: tr2.

Lemma history_split : exists s1 s2, (forall k, fst s1 k = ledger tr1 k) /\
    snd s1 = shut tr1 /\ spec_step count s1 ev a s2 /\ accepts count s2 tr2.
Proof.
  pose proof (transcript_accepted count evs Hc Hm Hok) as H. rewrite Htr in H.
  destruct (accepts_split _ _ _ _ _ _ H) as (s1 & s2 & P1 & P2 & P3 & P4).
  exists s1, s2. split; [exact P1|]. split; [|auto]. rewrite P2. cbn. apply orb_false_r.
Qed.
End History.

(** Adding *)
Lemma add_answer count evs tr1 tr2 o u a :
  0 <= count < INVALID_HANDLE -> count mod 32 = 0 -> Forall event_ok evs ->
  transcript count evs = tr1 ++ (EAdd o u, a) :: tr2 -> shut tr1 = false ->
  (exists h, a = AHandle OK h /\ 0 <= h < count /\ ledger tr1 h = None) \/
  (a = AHandle NO_AVAILABLE_RESOURCE_SLOT INVALID_HANDLE /\
   forall h, 0 <= h < count -> ledger tr1 h <> None).
Proof.
  intros Hc Hm Hok Htr Hs. destruct (history_split _ _ _ _ _ _ Hc Hm Hok Htr) as (s1 & s2 & P1 & P2 & P3 & _).
  inversion P3; subst; cbn in *; try congruence.
  - right. split; [reflexivity|]. intros h Hh. rewrite <- P1. auto.
  - left. exists h. rewrite <- P1. auto.
Qed.

Lemma acquire_answer count evs tr1 tr2 h u a :
  0 <= count < INVALID_HANDLE -> count mod 32 = 0 -> Forall event_ok evs ->
  transcript count evs = tr1 ++ (EAcquire h u, a) :: tr2 -> shut tr1 = false ->
  a = match ledger tr1 h with
      | None => AObject INVALID_PARAMETER None
      | Some (o, w, _) => if w =? u then AObject OK (Some o) else AObject OPERATION_NOT_ALLOWED None
      end.
Proof.
  intros Hc Hm Hok Htr Hs. destruct (history_split _ _ _ _ _ _ Hc Hm Hok Htr) as (s1 & s2 & P1 & P2 & P3 & _).
  inversion P3; subst; cbn in *; try congruence; rewrite <- P1; rw_tab; auto.
  - replace (w =? u) with false by lia. reflexivity.
  - rewrite Z.eqb_refl. reflexivity.
Qed.

Lemma remove_answer count evs tr1 tr2 h c a :
  0 <= count < INVALID_HANDLE -> count mod 32 = 0 -> Forall event_ok evs ->
  transcript count evs = tr1 ++ (ERemove h c, a) :: tr2 ->
  a = match ledger tr1 h with
      | None => ARemoved INVALID_PARAMETER None
      | Some (o, w, n) =>
          if match c with Some u => w =? u | None => true end
          then if n =? 0 then ARemoved OK (Some o) else AWaiting
          else ARemoved OPERATION_NOT_ALLOWED None
      end.
Proof.
  intros Hc Hm Hok Htr. destruct (history_split _ _ _ _ _ _ Hc Hm Hok Htr) as (s1 & s2 & P1 & P2 & P3 & _).
  inversion P3; subst; cbn in *; rewrite <- P1; rw_tab; auto.
  - replace (w =? u) with false by lia. reflexivity.
  - replace (n =? 0) with false by lia.
    match goal with H : c = None \/ _ |- _ => destruct H as [->| ->] end; rewrite ?Z.eqb_refl; reflexivity.
  - match goal with H : c = None \/ _ |- _ => destruct H as [->| ->] end; rewrite ?Z.eqb_refl; reflexivity.
Qed.

Lemma release_answer count evs tr1 tr2 h o u a :
  0 <= count < INVALID_HANDLE -> count mod 32 = 0 -> Forall event_ok evs ->
  transcript count evs = tr1 ++ (ERelease h o u, a) :: tr2 ->
  a = AStatus OK <-> exists n, ledger tr1 h = Some (o, u, n) /\ 0 < n.
Proof.
  intros Hc Hm Hok Htr. destruct (history_split _ _ _ _ _ _ Hc Hm Hok Htr) as (s1 & s2 & P1 & P2 & P3 & _).
  rewrite <- P1. inversion P3; subst; cbn in *.
  - split; [intros E; congruence|]. intros (n & E & Hn).
    match goal with H : forall n, _ -> n = 0 |- _ => specialize (H _ E) end. lia.
  - split; [|auto]. intros _. exists n. auto.
Qed.

(** What happens to one handle along a transcript. *)
Lemma ledger_app tr ea : forall k, ledger (tr ++ [ea]) k = note (ledger tr) ea k.
Proof. intros k. unfold ledger. rewrite fold_left_app. reflexivity. Qed.

Lemma fold_keeps tr : forall (t : Z -> option (Z * uuid * Z)) h o u n,
  t h = Some (o, u, n) ->
  (forall c x, ~ In (ERemove h c, ARemoved OK x) tr) ->
  (forall o' u', ~ In (EAdd o' u', AHandle OK h) tr) ->
  exists m, fold_left note tr t h = Some (o, u, m).
Proof.
  induction tr as [|[ev a] tr IH]; intros t h o u n Ht Hr Ha; cbn [fold_left]; [eauto|].
  assert (exists m, note t (ev, a) h = Some (o, u, m)) as [m Hm].
  { destruct ev, a as [[] ?|[] ?|[]|[] ?| |?]; cbn; eauto.
    - destruct (h =? h0) eqn:E; eauto. assert (h = h0) by lia; subst. exfalso. eapply Ha. left. reflexivity.
    - destruct (h =? h0) eqn:E; eauto. rewrite Ht. cbn. eauto.
    - destruct (h =? h0) eqn:E; eauto. rewrite Ht. cbn. eauto.
    - destruct (h =? h0) eqn:E; eauto. assert (h = h0) by lia; subst. exfalso. eapply Hr. left. reflexivity. }
  eapply IH; [exact Hm| |]; intros; intros Hin; [eapply Hr|eapply Ha]; right; exact Hin.
Qed.

(** Between two creations answered with the same handle there is a destruction of
    the first object, requested by its creator or by shutdown. *)
Lemma fold_none tr : forall (t : Z -> option (Z * uuid * Z)) h o u n,
  t h = Some (o, u, n) ->
  (forall tr1 o' u' tr2, tr = tr1 ++ (EAdd o' u', AHandle OK h) :: tr2 ->
      fold_left note tr1 t h = None) ->
  fold_left note tr t h = None ->
  exists tr1 c x tr2, tr = tr1 ++ (ERemove h c, ARemoved OK x) :: tr2 /\
     exists m, fold_left note tr1 t h = Some (o, u, m).
Proof.
  induction tr as [|[ev a] tr IH]; intros t h o u n Ht Hadd Hn; cbn [fold_left] in Hn; [congruence|].
  assert ((exists c x, ev = ERemove h c /\ a = ARemoved OK x) \/
          exists m, note t (ev, a) h = Some (o, u, m)) as [(c & x & -> & ->)|[m Hm]].
  { destruct ev, a as [[] ?|[] ?|[]|[] ?| |?]; cbn; eauto.
    - destruct (h =? h0) eqn:E; eauto. assert (h = h0) by lia; subst.
      specialize (Hadd [] _ _ _ eq_refl). cbn in Hadd. congruence.
    - right. destruct (h =? h0) eqn:E; eauto. rewrite Ht. cbn. eauto.
    - right. destruct (h =? h0) eqn:E; eauto. rewrite Ht. cbn. eauto.
    - destruct (h =? h0) eqn:E; eauto. assert (h = h0) by lia; subst. left. eauto. }
  - exists [], c, x, tr. split; [reflexivity|]. exists n. exact Ht.
  - destruct (IH _ h o u m Hm) as (tr1 & c & x & tr2 & -> & m' & Hm'); auto.
    { intros tr1 o' u' tr2 E. apply (Hadd ((ev, a) :: tr1) o' u' tr2). rewrite E. reflexivity. }
    exists ((ev, a) :: tr1), c, x, tr2. split; [reflexivity|]. exists m'. exact Hm'.
Qed.

Lemma add_ok_ledger count evs tr1 tr2 o u h :
  0 <= count < INVALID_HANDLE -> count mod 32 = 0 -> Forall event_ok evs ->
  transcript count evs = tr1 ++ (EAdd o u, AHandle OK h) :: tr2 ->
  0 <= h < count /\ ledger tr1 h = None.
Proof.
  intros Hc Hm Hok Htr. destruct (history_split _ _ _ _ _ _ Hc Hm Hok Htr) as (s1 & s2 & P1 & P2 & P3 & _).
  inversion P3; subst; cbn in *. rewrite <- P1. auto.
Qed.

Lemma unique_handles count evs t1 t2 t3 o1 u1 o2 u2 h :
  0 <= count < INVALID_HANDLE -> count mod 32 = 0 -> Forall event_ok evs ->
  transcript count evs = t1 ++ (EAdd o1 u1, AHandle OK h) :: t2 ++ (EAdd o2 u2, AHandle OK h) :: t3 ->
  exists c, In (ERemove h c, ARemoved OK (Some o1)) t2 /\ (c = Some u1 \/ c = None).
Proof.
  intros Hc Hm Hok Htr.
  assert (ledger (t1 ++ (EAdd o1 u1, AHandle OK h) :: t2) h = None) as Hn.
  { apply (add_ok_ledger count evs _ t3 o2 u2 h Hc Hm Hok). rewrite Htr, <- app_assoc. reflexivity. }
  set (e1 := (EAdd o1 u1, AHandle OK h)) in *.
  assert (forall l, ledger (t1 ++ e1 :: l) = fold_left note l (note (ledger t1) e1)) as Hl.
  { intros l. unfold ledger. rewrite fold_left_app. reflexivity. }
  rewrite Hl in Hn.
  destruct (fold_none t2 (note (ledger t1) e1) h o1 u1 0) as (a1 & c & x & a2 & -> & m & Hm1); auto.
  { cbn. rewrite Z.eqb_refl. reflexivity. }
  { intros a1 o' u' a2 ->. rewrite <- Hl. apply (add_ok_ledger count evs _ (a2 ++ (EAdd o2 u2, AHandle OK h) :: t3) o' u' h Hc Hm Hok).
    rewrite Htr. repeat (cbn [app]; rewrite <- ?app_assoc). reflexivity. }
  rewrite <- Hl in Hm1.
  pose proof (remove_answer count evs (t1 ++ e1 :: a1) (a2 ++ (EAdd o2 u2, AHandle OK h) :: t3) h c (ARemoved OK x) Hc Hm Hok) as Hr.
  rewrite Hm1 in Hr.
  specialize (Hr ltac:(rewrite Htr; repeat (cbn [app]; rewrite <- ?app_assoc); reflexivity)).
  exists c. destruct c as [w|].
  - destruct (u1 =? w) eqn:E; [|discriminate]. destruct (m =? 0); [|discriminate]. injection Hr as ->.
    split; [apply in_or_app; right; left; reflexivity|]. left. f_equal. lia.
  - destruct (m =? 0); [|discriminate]. injection Hr as ->.
    split; [apply in_or_app; right; left; reflexivity|]. right. reflexivity.
Qed.

(** A concrete history: two clients, a foreign access, a removal that waits for a
    reference, a removal, and a reuse of the freed handle by a third client. *)
Definition demo_history : list event :=
  [EAdd 100 7; EAdd 101 8; EAcquire 31 7; EAcquire 31 8; ERemove 31 (Some 7); ERemove 31 (Some 8);
   ERelease 31 100 7; ERemove 31 (Some 7); EAcquire 31 7; EAdd 102 9; EAcquire 30 8; EAcquire 31 9].

Lemma demo_ok : Forall event_ok demo_history.
Proof. repeat constructor; cbn; lia. Qed.

Lemma demo_transcript : transcript 256 demo_history =
  [(EAdd 100 7, AHandle OK 31); (EAdd 101 8, AHandle OK 30);
   (EAcquire 31 7, AObject OK (Some 100)); (EAcquire 31 8, AObject OPERATION_NOT_ALLOWED None);
   (ERemove 31 (Some 7), AWaiting); (ERemove 31 (Some 8), ARemoved OPERATION_NOT_ALLOWED None);
   (ERelease 31 100 7, AStatus OK); (ERemove 31 (Some 7), ARemoved OK (Some 100));
   (EAcquire 31 7, AObject INVALID_PARAMETER None); (EAdd 102 9, AHandle OK 31);
   (EAcquire 30 8, AObject OK (Some 101)); (EAcquire 31 9, AObject OK (Some 102))].
Proof. vm_compute. reflexivity. Qed.

Lemma demo_reuse : exists t1 t2 t3,
  transcript 256 demo_history =
  t1 ++ (EAdd 100 7, AHandle OK 31) :: t2 ++ (EAdd 102 9, AHandle OK 31) :: t3 /\ length t2 = 8%nat.
Proof.
  exists [], (firstn 8 (skipn 1 (transcript 256 demo_history))), (skipn 10 (transcript 256 demo_history)).
  split; vm_compute; reflexivity.
Qed.

(** Filling the store: the 257th creation is refused. *)
Lemma demo_full :
  let h := map (fun i => EAdd (Z.of_nat i) 7) (seq 0 257) in
  map snd (skipn 255 (transcript 256 h)) =
  [AHandle OK 224; AHandle NO_AVAILABLE_RESOURCE_SLOT INVALID_HANDLE].
Proof. vm_compute. reflexivity. Qed.
