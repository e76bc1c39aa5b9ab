(** Accounts of the other calls: see P_ApiAccount.v. *)
From Verif Require Import Base M_ObjectStore M_Rights S_Rights P_Rights M_Svp M_Prog M_ApiKey
  M_ApiCipher M_ApiMac M_ApiSvp M_Api S_Api P_Prog P_ApiAccount.

Lemma a_KInit slot u  : wp (pays (KInit)) (api (KInit) slot u) [] (final (KInit)).
Proof. go. Qed.
Lemma a_KClose slot u  : wp (pays (KClose)) (api (KClose) slot u) [] (final (KClose)).
Proof. go. Qed.
Lemma a_KRandom slot u out_ok : wp (pays (KRandom out_ok)) (api (KRandom out_ok) slot u) [] (final (KRandom out_ok)).
Proof. go. Qed.
Lemma a_KKeyGenerate slot u r g : wp (pays (KKeyGenerate r g)) (api (KKeyGenerate r g) slot u) [] (final (KKeyGenerate r g)).
Proof. go. Qed.
Lemma a_KKeyImport slot u ip input md : wp (pays (KKeyImport ip input md)) (api (KKeyImport ip input md) slot u) [] (final (KKeyImport ip input md)).
Proof. go. Qed.
Lemma a_KKeyDerive slot u r alg : wp (pays (KKeyDerive r alg)) (api (KKeyDerive r alg) slot u) [] (final (KKeyDerive r alg)).
Proof. go. Qed.
Lemma a_KKeyExport slot u mixin out key required : wp (pays (KKeyExport mixin out key required)) (api (KKeyExport mixin out key required) slot u) [] (final (KKeyExport mixin out key required)).
Proof. go. Qed.
Lemma a_KKeyHeader slot u key : wp (pays (KKeyHeader key)) (api (KKeyHeader key) slot u) [] (final (KKeyHeader key)).
Proof. go. Qed.
Lemma a_KKeyDigest slot u key : wp (pays (KKeyDigest key)) (api (KKeyDigest key) slot u) [] (final (KKeyDigest key)).
Proof. go. Qed.
Lemma a_KKeyRelease slot u key : wp (pays (KKeyRelease key)) (api (KKeyRelease key) slot u) [] (final (KKeyRelease key)).
Proof. go. Qed.
Lemma a_KKeyPublic slot u key : wp (pays (KKeyPublic key)) (api (KKeyPublic key) slot u) [] (final (KKeyPublic key)).
Proof. go. Qed.
Lemma a_KSign slot u alg key in_ok digests salt out : wp (pays (KSign alg key in_ok digests salt out)) (api (KSign alg key in_ok digests salt out) slot u) [] (final (KSign alg key in_ok digests salt out)).
Proof. go. Qed.
Lemma a_KCipherUpdateIv slot u context iv : wp (pays (KCipherUpdateIv context iv)) (api (KCipherUpdateIv context iv) slot u) [] (final (KCipherUpdateIv context iv)).
Proof. go. Qed.
Lemma a_KCipherRelease slot u context : wp (pays (KCipherRelease context)) (api (KCipherRelease context) slot u) [] (final (KCipherRelease context)).
Proof. go. Qed.
Lemma a_KMacInit slot u alg digest key : wp (pays (KMacInit alg digest key)) (api (KMacInit alg digest key) slot u) [] (final (KMacInit alg digest key)).
Proof. go. Qed.
Lemma a_KMacProcess slot u context in_ok : wp (pays (KMacProcess context in_ok)) (api (KMacProcess context in_ok) slot u) [] (final (KMacProcess context in_ok)).
Proof. go. Qed.
Lemma a_KMacProcessKey slot u context key : wp (pays (KMacProcessKey context key)) (api (KMacProcessKey context key) slot u) [] (final (KMacProcessKey context key)).
Proof. go. Qed.
Lemma a_KMacCompute slot u context out mac_length : wp (pays (KMacCompute context out mac_length)) (api (KMacCompute context out mac_length) slot u) [] (final (KMacCompute context out mac_length)).
Proof. go. Qed.
Lemma a_KMacRelease slot u context : wp (pays (KMacRelease context)) (api (KMacRelease context) slot u) [] (final (KMacRelease context)).
Proof. go. Qed.
Lemma a_KSvpCreate slot u memory size : wp (pays (KSvpCreate memory size)) (api (KSvpCreate memory size) slot u) [] (final (KSvpCreate memory size)).
Proof. go. Qed.
Lemma a_KSvpRelease slot u h : wp (pays (KSvpRelease h)) (api (KSvpRelease h) slot u) [] (final (KSvpRelease h)).
Proof. go. Qed.
Lemma a_KSvpWrite slot u h in_ok offsets_ok : wp (pays (KSvpWrite h in_ok offsets_ok)) (api (KSvpWrite h in_ok offsets_ok) slot u) [] (final (KSvpWrite h in_ok offsets_ok)).
Proof. go. Qed.
Lemma a_KSvpCopy slot u out input offsets_ok : wp (pays (KSvpCopy out input offsets_ok)) (api (KSvpCopy out input offsets_ok) slot u) [] (final (KSvpCopy out input offsets_ok)).
Proof. go. Qed.
Lemma a_KSvpCheck slot u h offset length digest hash : wp (pays (KSvpCheck h offset length digest hash)) (api (KSvpCheck h offset length digest hash) slot u) [] (final (KSvpCheck h offset length digest hash)).
Proof. go. Qed.
Lemma a_KSvpKeyCheck slot u key input n expected : wp (pays (KSvpKeyCheck key input n expected)) (api (KSvpKeyCheck key input n expected) slot u) [] (final (KSvpKeyCheck key input n expected)).
Proof. go. Qed.
Section Cenc.
Variables (the : call) (u : uuid).
(** ** Common encryption: each sample leaves the accounts as it found them *)
Definition solvent (h : list ev) : Prop :=
  (forall s x p, 0 <= refs h s x p) /\ (forall p, 0 <= locks h p <= refs_on h p) /\
  (forall s x p, 1 <= refs h s x p -> s = SClients).
Definition balanced (h h' : list ev) : Prop :=
  (forall s x p, refs h' s x p = refs h s x p) /\ (forall p, locks h' p = locks h p) /\
  (forall p, owned h' p = owned h p) /\ made_handles h' = made_handles h /\
  (forall p, refs_on h' p = refs_on h p).
Lemma balanced_refl h : balanced h h.
Proof. now repeat split. Qed.
Lemma balanced_trans a b c : balanced a b -> balanced b c -> balanced a c.
Proof. intros (A&B&C&D&I) (E&F&G&H&J). split; [|split; [|split; [|split]]]; intros; congruence. Qed.
Lemma balanced_solvent h h' : balanced h h' -> solvent h -> solvent h'.
Proof. intros (A&B&_&_&E) (C&D&F). split; [|split]; intros *; rewrite ?A, ?B, ?E; auto. intros H. now apply F in H. Qed.
Ltac tails := repeat match goal with
  | S : forall s x p, 0 <= refs ?h s x p |- context [refs ?h ?s ?x ?p] =>
      lazymatch goal with _ : 0 <= refs h s x p |- _ => fail | _ => pose proof (S s x p) end
  | S : forall p, 0 <= locks ?h p <= _ |- context [locks ?h ?p] =>
      lazymatch goal with _ : 0 <= locks h p <= _ |- _ => fail | _ => pose proof (S p) end
  end.
Ltac sum_tail := acct; hits; tails; lia.
Ltac client_tail := let c := fresh "c" in let E := fresh in intros c E; cbn [client_of] in E;
  first [discriminate E | injection E as <-; match goal with H : 1 <= refs _ SClients ?x _ |- _ => exists x; sum_tail end].
Ltac ref_tail := match goal with |- context [EAcquire ?s ?x _ (Got ?p)] => exists s, x; sum_tail end.
Ltac held_tail := split; [ref_tail|sum_tail].
Ltac part_tail := do 2 eexists; split; [|split; [in_tac|reflexivity]]; held_tail.
Ltac wait_leaf_tail := first [ match goal with
  | S : forall s x p, 1 <= refs ?h s x p -> s = SClients, S' : forall s x p, 0 <= refs ?h s x p |- context [rank ?s < _] =>
      match goal with H : context [refs h s ?x ?p] |- _ =>
        let L := fresh in destruct (Z_le_gt_dec 1 (refs h s x p)) as [L|L];
        [apply S in L; subst; cbn [rank]; left; lia | pose proof (S' s x p)] end
  end | idtac]; wait_leaf.
Ltac wait_tail := cbn [waits]; lazymatch goal with
  | |- True => exact I
  | |- exists s x, _ => match goal with
       |- context [EAcquire ?s ?x _ (Got ?p)] => exists s, x; split; [solve [sum_tail]|solve [all_refs wait_leaf_tail]] end
  end.
Ltac pay_tail := idtac; intros _; split; [|wait_tail]; cbn [in_order]; lazymatch goal with
  | |- True => exact I
  | |- client_held _ _ => client_tail
  | |- _ /\ client_held _ _ /\ (_ -> _) => split; [split; sum_tail|split; [client_tail|intros; discriminate]]
  | |- held _ _ /\ _ => held_tail
  | |- held_locked _ _ => held_tail
  | |- key_part _ _ => part_tail
  | |- _ \/ _ => right; left; split; [part_tail|in_tac]
  end.
Ltac balance := split; [|try discriminate]; split; [intros ? ? ?|split; [intros ?|split; [intros ?|split; [|intros ?]]]]; acct; hits; try lia; try reflexivity.
Definition kept (h : list ev) (a : flow unit) (h' : list ev) : Prop := balanced h h' /\ (forall s, a <> Out s).

Lemma verify_pays c x s h : solvent h -> 1 <= refs h SClients x c -> wp (pays the) (verify_sample c s u) h (kept h).
Proof. intros (S1&S2&S3) SC. unfold pays, kept. wp_run pay_tail. all: balance. Qed.
Lemma process_pays c x s h : solvent h -> 1 <= refs h SClients x c -> wp (pays the) (process_sample c s u) h (kept h).
Proof. intros (S1&S2&S3) SC. unfold pays, kept. wp_run pay_tail. all: balance. Qed.
Lemma balanced_held h h' c x : balanced h h' -> 1 <= refs h SClients x c -> 1 <= refs h' SClients x c.
Proof. intros (A&_) H. now rewrite A. Qed.
Lemma each_pays {A} (f : A -> M unit) c x :
  (forall a h, solvent h -> 1 <= refs h SClients x c -> wp (pays the) (f a) h (kept h)) ->
  forall l h, solvent h -> 1 <= refs h SClients x c -> wp (pays the) (each f l) h (kept h).
Proof.
  intros Hf. induction l as [|a l IH]; intros h Hs Hc; cbn [each].
  - apply wp_ret. split; [apply balanced_refl|discriminate].
  - unfold bind. apply wp_pbind. eapply wp_mono; [now apply Hf|]. cbn beta.
    intros [[]|s|s] h' [HB HN]; [|apply wp_ret; split; [exact HB|discriminate]|now destruct (HN s)].
    eapply wp_mono; [apply IH; eauto using balanced_solvent, balanced_held|].
    cbn beta. intros b h2 [HB2 HN2]. split; [eauto using balanced_trans|exact HN2].
Qed.
End Cenc.
Lemma a_KCenc slot u l : wp (pays (KCenc l)) (api (KCenc l) slot u) [] (final (KCenc l)).
Proof.
  unfold final. unfold api, api_m, process_common_encryption.
  destruct l as [l|]; [|wp_run pay_tail; intros _; split; [settle|reflexivity]].
  unfold api_fn, with_client, acquire, cmd_, bind at 1. cbn [pbind ret]. apply wp_do; [intros _; split; [now intros|exact I]|].
  intros r L. cbn [event]. destruct r as [c|s]; [|apply wp_ret; intros _; split; [settle|reflexivity]].
  set (h0 := [EAcquire SClients slot u (Got c)]).
  assert (HS : solvent h0).
  { split; [|split]; [intros; unfold h0; acct; hits; lia..|]. intros s x p. unfold h0. acct. unfold hit.
    destruct (ref_dec (SClients, slot, c) (s, x, p)) as [E|_]; [|lia]. congruence. }
  assert (HC : 1 <= refs h0 SClients slot c).
  { unfold h0. acct. rewrite hit_same. lia. }
  apply wp_pbind. unfold finally. apply wp_pbind.
  assert (W : wp (pays (KCenc (Some l))) (each (fun s => verify_sample c s u) l;; each (fun s => process_sample c s u) l) h0 (kept h0)).
  { unfold bind. apply wp_pbind. eapply wp_mono; [eapply (each_pays _ _ c slot); [|exact HS|exact HC]; intros; eapply verify_pays; eassumption|].
    cbn beta. intros [[]|s|s] h' [HB HN]; [|apply wp_ret; split; [exact HB|discriminate]|now destruct (HN s)].
    eapply wp_mono; [eapply (each_pays _ _ c slot); [|eauto using balanced_solvent|eauto using balanced_held]; intros; eapply process_pays; eassumption|].
    cbn beta. intros b h2 [HB2 HN2]. split; [eauto using balanced_trans|exact HN2]. }
  eapply wp_mono; [exact W|]. cbn beta. intros a h' [(B1&B2&B3&B4&B5) HN].
  assert (F : settled (ERelease SClients slot c u :: h') /\ made_handles (ERelease SClients slot c u :: h') = []).
  { split; [split; [|split]|]; intros; cbn [refs locks owned made_handles]; rewrite ?B1, ?B2, ?B3, ?B4; unfold h0; acct; hits; try lia.
    reflexivity. }
  assert (R : in_order h' (CRelease SClients slot c u)).
  { cbn [in_order]. split; [split; rewrite B1 || rewrite B2, B5; unfold h0; sum|]. split; [intros ? E; discriminate E|].
    intros _ s' y q E. rewrite B1. unfold h0. destruct s'; try discriminate E; sum_diff. }
  destruct a as [[]|s|s]; [| |now destruct (HN s)].
  all: lazy beta iota; unfold release, cmd_, bind; cbn [pbind ret]; apply wp_do; [intros _; split; [exact R|exact I]|].
  all: intros r L'; cbn [event]; apply wp_ret; intros _; exact F.
Qed.
