(** Runs behind the examples and refutations of C_Safe.v. *)
From Verif Require Import Base M_Slots M_ObjectStore S_ObjectStore P_ObjectStore M_Rights S_Rights M_Svp M_Prog
  M_ApiKey M_ApiCipher M_ApiMac M_ApiSvp M_Api S_Api M_World S_World P_WorldReach P_ApiRuns S_Safe.

Definition at_restb (sy : system) : bool :=
  forallb (fun t => match t_prog t with Ret _ => true | _ => false end) (s_threads sy).
Lemma at_restb_rest sy : at_restb sy = true -> at_rest sy.
Proof.
  intros H i t T. unfold at_restb in H. rewrite forallb_forall in H. specialize (H t (nth_error_In _ _ T)).
  destruct (t_prog t) as [s|]; [eauto|discriminate].
Qed.
(** A schedule that can be run reaches its last state. *)
Lemma run_of l (P : system -> bool) : match schedule boot l with Some sy => P sy | None => false end = true ->
  exists sy, schedule boot l = Some sy /\ reaches sy /\ P sy = true.
Proof.
  destruct (schedule boot l) as [sy|] eqn:S; [|discriminate]. intros H. exists sy. split; [reflexivity|]. split; [|exact H].
  exact (schedule_reaches l _ _ at_boot S).
Qed.
Lemma calm_run l sy : schedule boot l = Some sy ->
  forallb (fun t => calmb (t_call t) (t_hist t)) (s_threads sy) = true -> calm_system sy.
Proof. intros S H. apply (schedule_calm l sy S). now rewrite S. Qed.

(** In the middle of the creation of a cipher context. *)
Lemma making_case : exists sy, reaches sy /\ calm_system sy /\ keeps (s_threads sy) 2 6 /\ belongs (s_world sy) (SKeys 1) 31 3 /\
  w_heap (s_world sy) 3 <> None /\ w_heap (s_world sy) 6 <> None.
Proof.
  destruct (run_of ctx_run (fun sy => forallb (fun t => calmb (t_call t) (t_hist t)) (s_threads sy) &&
     match nth_error (s_threads sy) 2 with Some t => 1 <=? owned (t_hist t) 6 | None => false end &&
     match handle (s_world sy) (SKeys 1) 31 with Some (q, _, _) => q =? 3 | None => false end &&
     match w_heap (s_world sy) 3, w_heap (s_world sy) 6 with Some _, Some _ => true | _, _ => false end)) as (sy&S&R&E);
    [vm_compute; reflexivity|].
  apply andb_true_iff in E as [E E4]. apply andb_true_iff in E as [E E3]. apply andb_true_iff in E as [E1 E2].
  exists sy. split; [exact R|]. split; [exact (calm_run _ _ S E1)|]. clear S.
  destruct (nth_error (s_threads sy) 2) as [t|] eqn:T; [|discriminate].
  destruct (handle (s_world sy) (SKeys 1) 31) as [[[q u] n]|] eqn:H; [|discriminate]. apply Z.eqb_eq in E3 as ->.
  destruct (w_heap (s_world sy) 3) as [o|] eqn:Eo; [|discriminate].
  destruct (w_heap (s_world sy) 6) as [o'|] eqn:Eo'; [|discriminate].
  split; [exists t; split; [exact T|lia]|]. split; [|split; discriminate].
  exists 3, u, n, o. split; [exact H|]. split; [exact Eo|now left].
Qed.
(** A session in which a message has been decrypted, before the client closes. *)
Definition decrypted : list act := session [k1; KCipherInit A_CTR DECRYPT 31 OK OK; process].
Lemma decrypted_case : exists sy, reaches sy /\ calm_system sy /\ at_rest sy /\ length (s_threads sy) = 4%nat /\
  handle (s_world sy) (SCiphers 1) 31 = Some (6, 9, 0) /\ w_heap (s_world sy) 4 <> None /\ belongs (s_world sy) (SCiphers 1) 31 4.
Proof.
  destruct (run_of decrypted (fun sy => forallb (fun t => calmb (t_call t) (t_hist t)) (s_threads sy) &&
     at_restb sy && Nat.eqb (length (s_threads sy)) 4 &&
     match handle (s_world sy) (SCiphers 1) 31 with Some (q, u, n) => (q =? 6) && (u =? 9) && (n =? 0) | None => false end &&
     match w_heap (s_world sy) 4, w_heap (s_world sy) 6 with Some _, Some (OCipher ci) => ci_key ci =? 4 | _, _ => false end))
     as (sy&S&R&E);
    [vm_compute; reflexivity|].
  apply andb_true_iff in E as [E E5]. apply andb_true_iff in E as [E E4]. apply andb_true_iff in E as [E E3].
  apply andb_true_iff in E as [E1 E2].
  exists sy. split; [exact R|]. split; [exact (calm_run _ _ S E1)|]. clear S. split; [now apply at_restb_rest|].
  split; [now apply Nat.eqb_eq|].
  destruct (handle (s_world sy) (SCiphers 1) 31) as [[[q u] n]|] eqn:H; [|discriminate].
  apply andb_true_iff in E4 as [E4 E6]. apply andb_true_iff in E4 as [E4 E7].
  apply Z.eqb_eq in E4 as ->. apply Z.eqb_eq in E6 as ->. apply Z.eqb_eq in E7 as ->.
  destruct (w_heap (s_world sy) 4) as [o|] eqn:Eo; [|discriminate].
  destruct (w_heap (s_world sy) 6) as [[| | | |ci| | | |]|] eqn:Eo'; try discriminate. apply Z.eqb_eq in E5.
  split; [reflexivity|]. split; [discriminate|]. exists 6, 9, 0, (OCipher ci). split; [exact H|]. split; [exact Eo'|].
  right. left. exact E5.
Qed.
(** ... and after it has closed. *)
Lemma closed_case : exists sy, reaches sy /\ calm_system sy /\ at_rest sy /\ length (s_threads sy) = 5%nat /\
  forall x, handle (s_world sy) SClients x = None.
Proof.
  destruct (run_of close_after (fun sy => forallb (fun t => calmb (t_call t) (t_hist t)) (s_threads sy) &&
     at_restb sy && Nat.eqb (length (s_threads sy)) 5 &&
     match w_stores (s_world sy) SClients with
     | Some st => forallb (fun e => match e_object e with None => true | _ => false end) (st_objects st) | None => false end))
     as (sy&S&R&E);
    [vm_compute; reflexivity|].
  apply andb_true_iff in E as [E E4]. apply andb_true_iff in E as [E E3]. apply andb_true_iff in E as [E1 E2].
  exists sy. split; [exact R|]. split; [exact (calm_run _ _ S E1)|]. clear S. split; [now apply at_restb_rest|].
  split; [now apply Nat.eqb_eq|]. intros x. unfold handle. destruct (w_stores (s_world sy) SClients) as [st|]; [|reflexivity].
  destruct (view st x) as [[[q u] n]|] eqn:V; [|reflexivity]. exfalso. pose proof (view_range _ _ _ V) as Hr.
  rewrite view_in in V by exact Hr. destruct (e_object (get_entry st x)) as [q'|] eqn:Eq; [|discriminate].
  unfold get_entry in Eq. destruct (Nat.lt_ge_cases (Z.to_nat x) (length (st_objects st))) as [L|L];
    [|rewrite nth_overflow in Eq by exact L; discriminate].
  rewrite forallb_forall in E4. specialize (E4 _ (nth_In _ empty_entry L)). now rewrite Eq in E4.
Qed.
(** A call with a buffer of unknown type has returned. *)
Lemma lock_left : exists sy, reaches sy /\ at_rest sy /\ w_mutex (s_world sy) <> [] /\
  exists s x p u, handle (s_world sy) s x = Some (p, u, 1).
Proof.
  destruct (run_of leak_run (fun sy => at_restb sy && match w_mutex (s_world sy) with [] => false | _ => true end &&
     match handle (s_world sy) (SCiphers 1) 31 with Some (q, u, n) => n =? 1 | None => false end)) as (sy&S&R&E);
    [vm_compute; reflexivity|].
  apply andb_true_iff in E as [E E3]. apply andb_true_iff in E as [E1 E2].
  clear S. exists sy. split; [exact R|]. split; [now apply at_restb_rest|].
  split; [intros F; rewrite F in E2; discriminate|].
  destruct (handle (s_world sy) (SCiphers 1) 31) as [[[q u] n]|] eqn:H; [|discriminate]. apply Z.eqb_eq in E3 as ->. eauto.
Qed.
(** The second of two calls that destroy the same object frees what is already gone. *)
Lemma freed_twice : exists sy i, reaches sy /\ forall ch, run_step sy i ch = RunCrash.
Proof. destruct double_free as (sy&i&slot&u&h&p&o&(R&_)&_&_&H). exists sy, i. auto. Qed.
(** In the middle of a decryption. *)
Lemma held_case : exists sy i t, reaches sy /\ calm_system sy /\ nth_error (s_threads sy) i = Some t /\
  1 <= refs (t_hist t) (SCiphers 1) 31 6.
Proof.
  destruct (run_of crypt_run (fun sy => forallb (fun t => calmb (t_call t) (t_hist t)) (s_threads sy) &&
     match nth_error (s_threads sy) 3 with Some t => 1 <=? refs (t_hist t) (SCiphers 1) 31 6 | None => false end)) as (sy&S&R&E);
    [vm_compute; reflexivity|].
  apply andb_true_iff in E as [E1 E2]. exists sy, 3%nat.
  destruct (nth_error (s_threads sy) 3) as [t|] eqn:T; [|discriminate]. exists t.
  split; [exact R|]. split; [exact (calm_run _ _ S E1)|]. clear S. split; [reflexivity|lia].
Qed.
