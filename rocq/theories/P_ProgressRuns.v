(** Runs behind the examples of C_Progress.v. *)
From Verif Require Import Base M_Slots M_ObjectStore S_ObjectStore P_ObjectStore M_Rights S_Rights M_Svp M_Prog
  M_ApiKey M_ApiCipher M_ApiMac M_ApiSvp M_Api S_Api M_World S_World P_WorldReach P_ApiAccount P_ApiRuns S_Safe P_SafeRuns S_Progress.

Definition unfinished (sy : system) (i : nat) : bool :=
  match nth_error (s_threads sy) i with Some t => match t_prog t with Do _ _ => true | Ret _ => false end | None => false end.
Lemma unfinished_not_rest sy i : unfinished sy i = true -> ~ at_rest sy.
Proof.
  unfold unfinished. intros H Q. destruct (nth_error (s_threads sy) i) as [t|] eqn:T; [|discriminate].
  destruct (Q _ _ T) as [s E]. now rewrite E in H.
Qed.
(** Call [i] waits for a lock. *)
Definition lock_waits (sy : system) (i : nat) (t : thread) : bool :=
  match t_prog t with
  | Ret _ => true
  | Do (CLock p) _ => match w_heap (s_world sy) p with Some _ => locked_by_other (s_world sy) p i | None => false end
  | _ => false
  end.
Definition stuckb (sy : system) : bool :=
  forallb (fun it => lock_waits sy (fst it) (snd it)) (combine (seq 0 (length (s_threads sy))) (s_threads sy)).
Lemma in_combine_seq {A} (l : list A) a i n : nth_error l i = Some a -> In ((n + i)%nat, a) (combine (seq n (length l)) l).
Proof.
  revert i n. induction l as [|b l IH]; intros [|i] n H; try discriminate; cbn in *.
  - injection H as ->. left. now rewrite Nat.add_0_r.
  - right. specialize (IH i (S n) H). now rewrite Nat.add_succ_r.
Qed.
Lemma stuckb_stuck sy : stuckb sy = true -> forall i ch sy', run_step sy i ch <> RunTo sy'.
Proof.
  unfold stuckb. rewrite forallb_forall. intros H i ch sy' E. unfold run_step in E.
  destruct (nth_error (s_threads sy) i) as [t|] eqn:T; [|discriminate].
  specialize (H _ (in_combine_seq _ _ _ 0 T)). cbn in H. unfold lock_waits in H.
  destruct (t_prog t) as [s|c k]; [discriminate|]. destruct c; try discriminate. cbn [serve] in E.
  destruct (w_heap (s_world sy) p); [|discriminate]. rewrite H in E. discriminate.
Qed.
(** Two buffers are copied into each other at the same time. *)
Definition copies_run : list act :=
  session [KSvpCreate 4096 64; KSvpCreate 8192 64] ++
  [Start (KSvpCopy 31 30 true) 31 9; Start (KSvpCopy 30 31 true) 31 9; Steps 3 4 fine; Steps 4 4 fine].
Lemma copies_stuck : exists sy, reaches sy /\ calm_system sy /\ ~ at_rest sy /\ forall i ch sy', run_step sy i ch <> RunTo sy'.
Proof.
  destruct (run_of copies_run (fun sy => forallb (fun t => calmb (t_call t) (t_hist t)) (s_threads sy) &&
     unfinished sy 3 && stuckb sy)) as (sy&S&R&E); [vm_compute; reflexivity|].
  apply andb_true_iff in E as [E E3]. apply andb_true_iff in E as [E1 E2].
  exists sy. split; [exact R|]. split; [exact (calm_run _ _ S E1)|]. clear S.
  split; [eapply unfinished_not_rest; eauto|now apply stuckb_stuck].
Qed.
(** No call that waits for a lock uses a buffer. *)
Definition no_buffer (h : list ev) : bool :=
  forallb (fun e => match e with EAcquire (SSvps _) _ _ (Got _) => false | _ => true end) h.
Lemma no_buffer_refs h c x p : no_buffer h = true -> refs h (SSvps c) x p <= 0.
Proof.
  induction h as [|e h IH]; intros H; [cbn; lia|]. cbn [no_buffer forallb] in H. apply andb_true_iff in H as [H1 H2].
  specialize (IH H2). destruct e; cbn [refs]; try exact IH.
  - destruct r; [|exact IH]. destruct s; try discriminate; rewrite hit_diff by discriminate; lia.
  - pose proof (hit_range ref_dec (s, h0, p0) (SSvps c, x, p)). lia.
Qed.
Definition lock_without_buffer (t : thread) : bool :=
  match t_prog t with Do (CLock _) _ => no_buffer (t_hist t) | _ => true end.
Lemma no_buffers_in_order ord sy : forallb lock_without_buffer (s_threads sy) = true -> buffers_in_order ord sy.
Proof.
  rewrite forallb_forall. intros H i t p q c x k T P Hr. specialize (H t (nth_error_In _ _ T)).
  unfold lock_without_buffer in H. rewrite P in H. pose proof (no_buffer_refs _ c x p H). lia.
Qed.
(** A decryption is under way, another one waits for its context, and the client is being
    closed. *)
Definition waiting_run : list act :=
  crypt_run ++ [Start process 31 9; Steps 4 2 fine; Start KClose 31 9].
Lemma waiting_case : exists sy, reaches sy /\ calm_system sy /\ buffers_in_order (fun _ => 0%nat) sy /\ ~ at_rest sy /\
  length (s_threads sy) = 6%nat /\
  (forall ch, run_step sy 4 ch = RunBlocked) /\ (forall ch, run_step sy 5 ch = RunBlocked).
Proof.
  destruct (run_of waiting_run (fun sy => forallb (fun t => calmb (t_call t) (t_hist t)) (s_threads sy) &&
     unfinished sy 3 && forallb lock_without_buffer (s_threads sy) && Nat.eqb (length (s_threads sy)) 6 &&
     match nth_error (s_threads sy) 4 with
     | Some t => match t_prog t with Do (CLock p) _ =>
                   match w_heap (s_world sy) p with Some _ => locked_by_other (s_world sy) p 4 | None => false end | _ => false end
     | None => false end &&
     match nth_error (s_threads sy) 5 with
     | Some t => match t_prog t with Do (CRemove SClients x u) _ =>
                   match w_stores (s_world sy) SClients with
                   | Some st => negb ((x <? 0) || (st_count st <=? x)) && match snd (remove_pass st x (Some u)) with RemRetry => true | _ => false end
                   | None => false end | _ => false end
     | None => false end)) as (sy&S&R&E); [vm_compute; reflexivity|].
  apply andb_true_iff in E as [E E6]. apply andb_true_iff in E as [E E5]. apply andb_true_iff in E as [E E4].
  apply andb_true_iff in E as [E E3]. apply andb_true_iff in E as [E1 E2].
  exists sy. split; [exact R|]. split; [exact (calm_run _ _ S E1)|]. clear S. split; [now apply no_buffers_in_order|].
  split; [eapply unfinished_not_rest; eauto|]. split; [now apply Nat.eqb_eq|].
  split; intros ch; unfold run_step.
  - destruct (nth_error (s_threads sy) 4) as [t|]; [|discriminate]. destruct (t_prog t) as [|c k]; [discriminate|].
    destruct c; try discriminate. cbn [serve]. destruct (w_heap (s_world sy) p); [|discriminate]. now rewrite E5.
  - destruct (nth_error (s_threads sy) 5) as [t|]; [|discriminate]. destruct (t_prog t) as [|c k]; [discriminate|].
    destruct c as [| | |s x u| | | | | | | | | | | | | | | | |]; try discriminate. destruct s; try discriminate.
    cbn [serve]. destruct (w_stores (s_world sy) SClients) as [st|]; [|discriminate].
    apply andb_true_iff in E6 as [E6 E7]. apply negb_true_iff in E6. rewrite E6.
    destruct (remove_pass st x (Some u)) as [st' r]. cbn in E7. destruct r; first [reflexivity|discriminate E7].
Qed.
