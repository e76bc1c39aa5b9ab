(** Histories for C67. *)
From Coq Require Import List ZArith Bool Arith Lia.
From Verif Require Import M_ProvKeys S_ProvKeys.
Import ListNotations.
Local Open Scope nat_scope.

(** Two threads share a generated key: it is put into a signature context, which is copied; the
    program drops its reference, signs with both, and frees them; then the last thread to free goes on.
    Meanwhile a key of the application is used for an exchange with the same key as its peer. *)
Definition shared_life : list op :=
  [OGen (Some 7) true; OCtx Signing; ODigest 0 0 true false; OKey 3; ONew; OImport 1 (Handle 3 true None); OLook 1; OCtx Exchange; OInit 1 1 true; OPeer 1 0;
   OFree 0; ODupCtx 0 true; OUse 2; OFreeCtx 0; OUse 2; OUse 1; ODupCtx 1 true; OFreeCtx 1; OFreeCtx 2; OFree 1; OUse 3; OFreeCtx 3; ODestroy 1; ODestroy 0].

(** The rules are decidable. *)
Definition have (l : ledger) (c : nat) (f : view -> bool) : bool := match mine l c with Some v => f v | None => false end.
Definition mayb (l : ledger) (o : op) : bool :=
  match o with
  | ODup k | OFree k | OLook k => 0 <? refs l k
  | OMatch k1 k2 => (0 <? refs l k1) && (0 <? refs l k2)
  | OImport k (Handle h _ _) => (0 <? refs l k) && own l h
  | OImport k _ => 0 <? refs l k
  | OInit c k _ | ODigest c k _ _ | OPeer c k => have l c (fun _ => true) && (0 <? refs l k)
  | OSettle c _ | ODupCtx c _ | OFreeCtx c | OUse c | OAsk c => have l c (fun _ => true)
  | ORelease h => own l h
  | _ => true
  end.
Definition carefulb (l : ledger) (o : op) : bool :=
  match o with
  | ODupCtx c room => have l c (fun v => vkey v && match vkind v with Signing => vready v && room | Exchange => vpeer v | Crypting => vready v end)
  | OUse c => have l c (fun v => match vkind v with Signing => true | Exchange => vkey v && vpeer v | Crypting => vkey v end)
  | OAsk c => have l c (fun v => match vkind v with Signing => vkey v | _ => true end)
  | _ => true
  end.
Definition freshb (l : ledger) (o : op) : bool := match o with OImport k _ => negb (full l k) | _ => true end.
Definition tidyb (l : ledger) (o : op) : bool :=
  match o with
  | OImport _ (Clear _ good del) => good && match del with Some false => false | _ => true end
  | OInit c _ _ => have l c (fun v => negb (vkey v))
  | ODigest c _ good _ => good && have l c (fun v => negb (vkey v))
  | OPeer c _ => have l c (fun v => negb (vpeer v))
  | ODupCtx _ room => room
  | _ => true
  end.
Fixpoint obeysb (rule : ledger -> op -> bool) (s : st) (l : ledger) (ops : list op) : bool :=
  match ops with
  | [] => true
  | o :: r => rule l o && match step s o with Ran s' a => obeysb rule s' (note l o a) r | Crash => true end
  end.
Lemma obeys_by : forall (b : ledger -> op -> bool) (r : ledger -> op -> Prop), (forall l o, b l o = true -> r l o) -> forall ops s l, obeysb b s l ops = true -> obeys r s l ops.
Proof. intros b r H. induction ops as [|o ops IH]; intros s l E; [exact Logic.I|]. cbn [obeysb] in E. apply andb_true_iff in E. destruct E as [A B]. split; [auto|]. destruct (step s o); auto. Qed.
Ltac open := repeat match goal with
  | H : _ && _ = true |- _ => apply andb_true_iff in H; destruct H
  | H : (0 <? _) = true |- _ => apply Nat.ltb_lt in H
  | H : negb _ = true |- _ => apply negb_true_iff in H
  end.
Lemma may_by : forall l o, mayb l o = true -> may l o.
Proof. intros l o. destruct o; cbn [mayb may]; unfold have; try destruct src; intros H; open; auto; try (destruct (mine l c); [|discriminate]); try split; auto; discriminate. Qed.
Lemma careful_by : forall l o, carefulb l o = true -> careful l o.
Proof. intros l o. destruct o; cbn; unfold have; auto; intros H v E; rewrite E in H.
  - open. destruct (vkind v); open; auto. - destruct (vkind v); open; auto. - intros K. now rewrite K in H. Qed.
Lemma fresh_by : forall l o, freshb l o = true -> fresh l o.
Proof. intros l o. destruct o; cbn; auto; intros; open; auto. Qed.
Lemma tidy_by : forall l o, tidyb l o = true -> tidy l o.
Proof. intros l o. destruct o; cbn; unfold have; auto.
  - destruct src; auto. intros H; open. split; auto. destruct del as [ [|]|]; congruence.
  - intros H v E. rewrite E in H. now open. - intros H; open. split; auto. intros v E. rewrite E in *. now open. - intros H v E. rewrite E in H. now open. Qed.
Lemma polite_by : forall l o, mayb l o && carefulb l o = true -> may l o /\ careful l o.
Proof. intros; open. auto using may_by, careful_by. Qed.
Lemma frugal_by : forall l o, mayb l o && carefulb l o && freshb l o = true -> (may l o /\ careful l o) /\ fresh l o.
Proof. intros; open. auto using may_by, careful_by, fresh_by. Qed.
Lemma perfect_by : forall l o, mayb l o && carefulb l o && freshb l o && tidyb l o = true -> ((may l o /\ careful l o) /\ fresh l o) /\ tidy l o.
Proof. intros; open. auto 6 using may_by, careful_by, fresh_by, tidy_by. Qed.
Lemma stale_by : forall l o, mayb l o && carefulb l o && tidyb l o = true -> (may l o /\ careful l o) /\ tidy l o.
Proof. intros; open. auto 6 using may_by, careful_by, tidy_by. Qed.
Ltac lawful := first [apply (obeys_by _ _ may_by) | apply (obeys_by _ _ frugal_by) | apply (obeys_by _ _ perfect_by) | apply (obeys_by _ _ stale_by)]; vm_compute; reflexivity.
Lemma shared_perfect : obeys (fun l o => ((may l o /\ careful l o) /\ fresh l o) /\ tidy l o) start blank shared_life.
Proof. lawful. Qed.
Lemma shared_end : exists s l, exec start blank shared_life = Some (s, l) /\ refs l 0 = 0 /\ refs l 1 = 0 /\ mine l 0 = None /\ mine l 1 = None /\ mine l 2 = None /\ mine l 3 = None /\ pend s = [] /\ keys s = [3] /\
  own l 3 = true /\ own l 7 = false /\ objs s 0 = None /\ objs s 1 = None /\ nobj s = 2 /\ length (ctxs s) = 4.
Proof. eexists _, _. split; [vm_compute; reflexivity|]. cbn -[start blank]. repeat split. Qed.
(** In the middle of it, when the program has no reference to the generated key any more. *)
Lemma shared_middle : exists s l x, exec start blank (firstn 14 shared_life) = Some (s, l) /\ refs l 0 = 0 /\ mine l 2 <> None /\ nth_error (ctxs s) 2 = Some x /\ key x = Some 0 /\
  objs s 0 = Some (Kobj 2 (Some 7) true) /\ In 7 (keys s).
Proof. eexists _, _, _. split; [vm_compute; reflexivity|]. cbn -[start blank]. repeat split; auto; discriminate. Qed.

Lemma crash_copy_empty : exists ops, obeys may start blank ops /\ exec start blank ops = None /\ ops = [OCtx Exchange; ODupCtx 0 true].
Proof. eexists. split; [|split; [|reflexivity] ]; [lawful|reflexivity]. Qed.
Lemma crash_copy_undigested : exists ops, obeys may start blank ops /\ exec start blank ops = None /\ ops = [ONew; OCtx Signing; OInit 0 0 true; ODupCtx 0 true; OFreeCtx 1].
Proof. eexists. split; [|split; [|reflexivity] ]; [lawful|reflexivity]. Qed.
Lemma crash_use_empty : exists ops, obeys may start blank ops /\ exec start blank ops = None /\ ops = [OCtx Exchange; OUse 0].
Proof. eexists. split; [|split; [|reflexivity] ]; [lawful|reflexivity]. Qed.
Lemma crash_after_answer : exists ops s s' l c k, obeys may start blank ops /\ exec start blank ops = Some (s, l) /\ may l (ODigest c k false false) /\
  step s (ODigest c k false false) = Ran s' (ABool true) /\ may (note l (ODigest c k false false) (ABool true)) (OAsk c) /\ step s' (OAsk c) = Crash.
Proof. exists [ONew; OCtx Signing]. eexists _, _, _, 0, 0. split; [lawful|]. split; [reflexivity|]. split; [split; [discriminate|vm_compute; lia]|]. split; [reflexivity|]. split; [discriminate|reflexivity]. Qed.
Lemma leak_peer : exists ops s l, obeys (fun l o => (may l o /\ careful l o) /\ fresh l o) start blank ops /\ exec start blank ops = Some (s, l) /\ returned s l /\
  exists k h, objs s k <> None /\ In h (keys s) /\ own l h = false /\ ops = [OGen (Some 7) true; OCtx Exchange; OPeer 0 0; OPeer 0 0; OFreeCtx 0; OFree 0].
Proof.
  eexists _, _, _. split; [|split; [|split] ]; [| |split; [|split] |exists 0, 7; split; [|split; [|split; [|reflexivity] ] ] ].
  - lawful. - reflexivity. - intros [|[|k] ]; reflexivity. - intros [|[|k] ]; reflexivity. - reflexivity. - discriminate. - now left. - reflexivity.
Qed.
Lemma leak_import : exists ops s l, obeys (fun l o => (may l o /\ careful l o) /\ fresh l o) start blank ops /\ exec start blank ops = Some (s, l) /\ returned s l /\
  exists h, In h (keys s) /\ own l h = false /\ ops = [ONew; OImport 0 (Clear 7 false None); OFree 0; ODestroy 0].
Proof.
  eexists _, _, _. split; [|split; [|split] ]; [| |split; [|split] |exists 7; split; [|split; [|reflexivity] ] ].
  - lawful. - reflexivity. - intros [|[|k] ]; reflexivity. - intros [|[|k] ]; reflexivity. - reflexivity. - now left. - reflexivity.
Qed.
Lemma leak_keep : exists ops s l, obeys (fun l o => (may l o /\ careful l o) /\ fresh l o) start blank ops /\ exec start blank ops = Some (s, l) /\ returned s l /\
  exists h, In h (keys s) /\ own l h = false /\ ops = [ONew; OImport 0 (Clear 7 true (Some false)); OFree 0; ODestroy 0].
Proof.
  eexists _, _, _. split; [|split; [|split] ]; [| |split; [|split] |exists 7; split; [|split; [|reflexivity] ] ].
  - lawful. - reflexivity. - intros [|[|k] ]; reflexivity. - intros [|[|k] ]; reflexivity. - reflexivity. - now left. - reflexivity.
Qed.
Lemma lose_own : exists ops s l h, obeys (fun l o => (may l o /\ careful l o) /\ tidy l o) start blank ops /\ exec start blank ops = Some (s, l) /\ own l h = true /\ ~ In h (keys s) /\
  ops = [OKey 3; ONew; OImport 0 (Handle 3 true None); OImport 0 (Public false)].
Proof. eexists _, _, _, 3. split; [|split; [|split; [|split; [|reflexivity] ] ] ]; [lawful|reflexivity|reflexivity|]. cbn. tauto. Qed.
Lemma all_match : exists ops s l, obeys (fun l o => ((may l o /\ careful l o) /\ fresh l o) /\ tidy l o) start blank ops /\ exec start blank ops = Some (s, l) /\
  exists k1 k2 o1 o2, objs s k1 = Some o1 /\ objs s k2 = Some o2 /\ priv o1 <> priv o2 /\ may l (OMatch k1 k2) /\ step s (OMatch k1 k2) = Ran s (ABool true).
Proof.
  exists [OGen (Some 7) true; OGen (Some 8) true]. eexists _, _. split; [lawful|]. split; [reflexivity|]. exists 0, 1. eexists _, _. split; [reflexivity|]. split; [reflexivity|]. split; [discriminate|]. split; [vm_compute; lia|reflexivity].
Qed.
