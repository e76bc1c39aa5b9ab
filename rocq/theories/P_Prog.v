(** Reasoning about all paths of a program. *)
From Verif Require Import Base M_ObjectStore M_Rights S_Rights P_Rights M_Svp M_Prog M_ApiKey M_ApiCipher M_ApiMac M_ApiSvp M_Api.

Section WP.
(** [pre h c]: command [c] may be issued after [h]. *)
Variable pre : list ev -> cmd -> Prop.
Fixpoint wp {A} (p : prog A) (h : list ev) (Q : A -> list ev -> Prop) : Prop :=
  match p with
  | Ret a => Q a h
  | Do c k => pre h c /\ forall r, legal c r -> wp (k r) (event c r :: h) Q
  end.

Lemma wp_mono {A} (p : prog A) h (Q Q' : A -> list ev -> Prop) :
  wp p h Q -> (forall a h', Q a h' -> Q' a h') -> wp p h Q'.
Proof.
  revert h. induction p; cbn; intros h; [auto|]. intros [H1 H2] HQ. split; [auto|]. intros. eauto.
Qed.

Lemma wp_pbind {A B} (p : prog A) (f : A -> prog B) h Q :
  wp p h (fun a h' => wp (f a) h' Q) -> wp (pbind p f) h Q.
Proof.
  revert h. induction p; cbn; intros h; [auto|]. intros [H1 H2]. split; [auto|]. intros. eauto.
Qed.
Lemma wp_pbind_inv {A B} (p : prog A) (f : A -> prog B) h Q :
  wp (pbind p f) h Q -> wp p h (fun a h' => wp (f a) h' Q).
Proof.
  revert h. induction p; cbn; intros h; [auto|]. intros [H1 H2]. split; [auto|]. intros. eauto.
Qed.
Lemma wp_do {A} c (k : resp c -> prog A) h Q :
  pre h c -> (forall r, legal c r -> wp (k r) (event c r :: h) Q) -> wp (Do c k) h Q.
Proof. cbn. auto. Qed.
Lemma wp_ret {A} (a : A) h (Q : A -> list ev -> Prop) : Q a h -> wp (Ret a) h Q.
Proof. auto. Qed.

(** The history only grows. *)
Lemma reach_wp {A} (p q : prog A) h h' : reach p h q h' -> forall Q, wp p h Q -> wp q h' Q.
Proof. induction 1; cbn; intros Q HW; [auto|]. destruct HW as [_ HW]. auto. Qed.
Lemma reach_pre {A} (p : prog A) h c k h' Q : reach p h (Do c k) h' -> wp p h Q -> pre h' c.
Proof. intros HR HW. apply (reach_wp _ _ _ _ HR) in HW. apply HW. Qed.
Lemma reach_post {A} (p : prog A) h a h' Q : reach p h (Ret a) h' -> wp p h Q -> Q a h'.
Proof. intros HR HW. apply (reach_wp _ _ _ _ HR) in HW. exact HW. Qed.
End WP.

Lemma wp_pre_mono {A} (pre pre' : list ev -> cmd -> Prop) (p : prog A) h Q :
  wp pre p h Q -> (forall h c, pre h c -> pre' h c) -> wp pre' p h Q.
Proof.
  revert h. induction p; cbn; intros h; [auto|]. intros [H1 H2] HP. split; [auto|]. intros. eauto.
Qed.
Lemma wp_and {A} (pre : list ev -> cmd -> Prop) (p : prog A) h (Q Q' : A -> list ev -> Prop) :
  wp pre p h Q -> wp pre p h Q' -> wp pre p h (fun a h' => Q a h' /\ Q' a h').
Proof.
  revert h. induction p; cbn; intros h; [auto|]. intros [H1 H2] [H3 H4]. split; [auto|]. intros. eauto.
Qed.

(** A program only adds events to the history. *)
Definition extends (h h' : list ev) := exists l, h' = l ++ h.
Lemma extends_refl h : extends h h. Proof. exists []. reflexivity. Qed.
Lemma extends_cons e h h' : extends (e :: h) h' -> extends h h'.
Proof. intros [l ->]. exists (l ++ [e]). now rewrite <- app_assoc. Qed.
Lemma extends_trans a b c : extends a b -> extends b c -> extends a c.
Proof. intros [l ->] [m ->]. exists (m ++ l). now rewrite app_assoc. Qed.
Lemma extends_in h h' e : extends h h' -> In e h -> In e h'.
Proof. intros [l ->] H. apply in_or_app. auto. Qed.
Lemma wp_extends {A} (pre : list ev -> cmd -> Prop) (p : prog A) h Q :
  wp pre p h Q -> wp pre p h (fun a h' => Q a h' /\ extends h h').
Proof.
  revert h. induction p; cbn; intros h; [auto using extends_refl|]. intros [H1 H2]. split; [auto|].
  intros r Hr. eapply wp_mono; [apply H; auto|]. cbn. intros a h' [Ha He]. split; [auto|].
  now apply extends_cons in He.
Qed.

(** ** Symbolic execution *)
Ltac head_of p := lazymatch p with ?f _ => head_of f | _ => p end.

(** What a passed check says. *)
Ltac sat H :=
  lazymatch type of H with
  | rights_allowed_time _ _ = true => apply allowed_time_iff in H
  | rights_allowed_uuid _ _ = true => apply allowed_uuid_iff in H
  | rights_allowed_video _ _ = true => apply allowed_video_iff in H
  | rights_allowed_flag_time _ _ _ = true => apply flag_time_iff in H; [destruct H|now compute]
  | rights_allowed_crypt _ _ KT_SYMMETRIC _ _ = true =>
      apply crypt_iff in H; [destruct H as (?&?&H); specialize (H eq_refl); destruct H as (?&->&?)|now compute]
  | rights_allowed_crypt _ _ _ _ _ = true => apply crypt_iff in H; [destruct H as (?&?&H)|now compute]
  | BIT_TEST (r_usage _) _ = true => apply flag_bool in H; [|now compute]
  | (_ =? _) = true => apply Z.eqb_eq in H
  | rights_allowed_clear _ = true => apply clear_iff in H
  | _ => idtac
  end.

(** One step; [side] proves the precondition of a command, [fin] the final goal. *)
Lemma wp_check_inputs pre l h (Q : flow unit -> list ev -> Prop) :
  Q (Go tt) h -> Q (Brk NULL_PARAMETER) h -> Q (Brk INVALID_PARAMETER) h -> wp pre (check_inputs l) h Q.
Proof.
  intros H1 H2 H3. induction l as [|[n|] l IH]; cbn [check_inputs]; [exact H1| |exact H2].
  unfold bind, require. destruct (n =? 16); cbn [pbind ret brk]; [apply IH|exact H3].
Qed.
Ltac wp_step side :=
  lazymatch goal with
  | |- wp _ (check_inputs _) _ _ => apply wp_check_inputs; lazy beta iota
  | |- wp _ (pbind _ _) _ _ => apply wp_pbind
  | |- wp _ (Ret _) _ _ => apply wp_ret; lazy beta iota
  | |- wp _ (Do _ _) _ _ =>
      apply wp_do; [side | let r := fresh "r" in let L := fresh "L" in
                           intros r L; cbn [event legal resp] in *; lazy beta iota]
  | |- wp _ (match ?x with _ => _ end) _ _ =>
      first [is_var x; destruct x | let E := fresh "E" in destruct x eqn:E; sat E]; lazy beta iota
  | |- wp _ (let _ := _ in _) _ _ => cbv zeta
  | |- wp _ ?p _ _ => let f := head_of p in unfold f; lazy beta
  end.
Ltac wp_run side := repeat wp_step side.
