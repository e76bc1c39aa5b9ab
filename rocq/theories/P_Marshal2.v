(** Proofs for S_Marshal: shared memory is read once. *)
From Verif Require Import Base M_KeyStore P_KeyStore M_Marshal S_Marshal.

Fixpoint once {A} (U : list (nat * Z * Z)) (p : prog A) : Prop :=
  match p with
  | Done _ => True
  | Fetch i off n k =>
      forall b, zlen b = Z.max 0 n ->
        Forall (fun u => apart u (i, off, off + zlen b)) U /\ once ((i, off, off + zlen b) :: U) (k b)
  | Store _ _ _ k | Fill _ _ k | Cast _ _ k => once U k
  | Garbage _ k => forall b, once U (k b)
  | Alloc _ k => forall ok, once U (k ok)
  | Invoke f k =>
      let us := flat_map ref_uses (ins f ++ outs f ++ claimed f) in
      pairwise apart us /\ Forall (fun v => Forall (fun u => apart u v) U) us /\ (forall r, once (us ++ U) (k r))
  end.

Lemma pairwise_app {X} (R : X -> X -> Prop) a b :
  pairwise R a -> pairwise R b -> (forall x y, In x a -> In y b -> R x y) -> pairwise R (a ++ b).
Proof.
  induction a as [|x a IH]; cbn; auto. intros [H1 H2] Hb Hx. split.
  - apply Forall_app. split; [exact H1|]. apply Forall_forall. intros y Hy. apply Hx; auto.
  - apply IH; auto.
Qed.

Lemma once_runs {A} (p : prog A) l : runs p l -> forall U, once U p ->
  pairwise apart (flat_map uses l) /\ (forall u v, In u U -> In v (flat_map uses l) -> apart u v).
Proof.
  induction 1; intros U Ho; cbn [once] in Ho; try (cbn [flat_map uses]; apply IHruns; auto; fail).
  - split; [exact I|intros ? ? _ []].
  - destruct (Ho b H) as [H2 H3]. destruct (IHruns _ H3) as [I1 I2]. cbn [flat_map uses app]. split.
    + split; [|exact I1]. apply Forall_forall. intros v Hv. apply I2; [now left|exact Hv].
    + intros u v Hu [<-|Hv]; [rewrite Forall_forall in H2; now apply H2|]. apply I2; [now right|exact Hv].
  - destruct Ho as (H1 & H2 & H3). destruct (IHruns _ (H3 r)) as [I1 I2]. cbn [flat_map uses]. split.
    + apply pairwise_app; auto. intros x y Hx Hy. apply I2; [apply in_or_app; now left|exact Hy].
    + intros u v Hu Hv. apply in_app_or in Hv. destruct Hv as [Hv|Hv].
      * rewrite Forall_forall in H2. specialize (H2 v Hv). rewrite Forall_forall in H2. auto.
      * apply I2; [apply in_or_app; now right|exact Hv].
Qed.

Lemma once_bind {A B} (p : prog A) (f : A -> prog B) : forall U,
  once U p -> (forall a V, once V (f a)) -> once U (bind p f).
Proof.
  induction p; cbn [once bind]; intros U Ho Hf; auto; try (intros; apply H; [apply Ho|exact Hf]; fail).
  - intros b Hb. destruct (Ho b Hb). split; auto.
  - destruct Ho as (? & ? & ?). repeat split; auto.
Qed.

Section Commands.
Variable ps : nat -> param.
Definition start : list (nat * Z * Z) := [(0%nat, 0, p_size (ps 0%nat))].
Definition U0 (n : Z) : list (nat * Z * Z) := [(0%nat, 0, n)].

Lemma once_guard U bad st c k : once U k -> once U (guard bad st c k).
Proof. unfold guard. destruct bad; cbn; auto. Qed.
Lemma once_fetch {A} U i off n (k : bytes -> prog A) :
  (forall b, zlen b = Z.max 0 n ->
    Forall (fun u => apart u (i, off, off + zlen b)) U /\ once ((i, off, off + zlen b) :: U) (k b)) ->
  once U (Fetch i off n k).
Proof. auto. Qed.
Lemma once_alloc {A} U n (k : bool -> prog A) : (forall ok, once U (k ok)) -> once U (Alloc n k).
Proof. auto. Qed.
Lemma once_copy U i cap k :
  (forall b, Forall (fun u => apart u (i, 0, 0 + zlen b)) U) ->
  (forall b n, once ((i, 0, n) :: U) (k b)) -> once U (copy_in ps i cap k).
Proof.
  intros H1 H2. unfold copy_in. cbn [once]. intros b Hb. split; [apply H1|].
  destruct (size ps i <? cap); cbn [once]; auto.
Qed.

Ltac apart1 := cbn [apart]; solve [left; discriminate | lia].
Ltac foralls := repeat (apply Forall_cons || apply Forall_nil); try apart1.
Ltac calls :=
  unfold at_, at_len, own;
  repeat match goal with |- context [null ps ?i] => destruct (null ps i) eqn:? end;
  cbn [ins outs claimed abuf_refs opt_refs sm_in sm_out app flat_map ref_uses r_base r_len];
  (refine (conj _ (conj _ _));
  [ cbn [pairwise]; repeat split; foralls
  | foralls; foralls
  | intros r; cbn [once]; auto ]).
Ltac step :=
  match goal with
  | |- once _ (guard _ _ _ _) => apply once_guard
  | |- once _ (copy_in _ _ _ _) => apply once_copy; [intros ?; foralls|intros ? ?]
  | |- once _ (Invoke _ _) => cbn [once]; try calls
  | |- once _ (Fetch _ _ _ _) => apply once_fetch; intros ? ?; split; [foralls|cbv beta]
  | |- once ?U (Cast _ _ ?k) => change (once U k)
  | |- once ?U (Fill _ _ ?k) => change (once U k)
  | |- once _ (Alloc _ _) => apply once_alloc; intros ?; cbv beta
  | |- once _ (if ?b then _ else _) => destruct b eqn:?
  | |- once _ (buffer _ _ _ _ _) => unfold buffer
  | |- once _ (Done _) => exact I
  | |- once _ (let _ := _ in _) => cbv zeta
  | |- True => exact I
  end.

Lemma once_dispatch cmd c n :
  cmd <> 37 -> (cmd = 8 -> w4 c 632 <> EC_ELGAMAL) -> once (U0 n) (dispatch ps cmd c).
Proof.
  intros H37 He. unfold U0.
  destruct cmd as [|p|p]; try exact I.
  do 6 (try (destruct p as [p|p|]; try exact I)); try (exfalso; apply H37; reflexivity); clear H37; cbn [dispatch].
  all: unfold get_version, get_name, get_device_id, get_ta_uuid, key_generate, key_export, key_import, key_unwrap, key_get_public,
    key_derive, key_exchange, key_release, key_header, key_digest, crypto_random, cipher_init, cipher_update_iv,
    cipher_process, cipher_release, mac_init, mac_process, mac_process_key, mac_compute, mac_release, crypto_sign,
    svp_supported, svp_create, svp_release, svp_write, svp_copy, svp_key_check, svp_buffer_check, common_encryption,
    key_provision, only_struct, with_out, run_out, run_key, rights_in, exact_in, offsets_in.
  all: repeat step.
  all: try (unfold kdf_of, at_, at_len;
    destruct (null ps 2), (null ps 3);
    repeat match goal with |- context [if ?b then _ else _] => destruct b end;
    cbn [app flat_map ref_uses r_base r_len pairwise]; repeat split; foralls; foralls; fail).
  all: try (exfalso; apply He; [reflexivity|]; apply Z.eqb_eq; assumption).
Qed.

Lemma handler_once cmd l :
  cmd <> 37 -> (cmd = 8 -> forall c, command l = Some c -> w4 c 632 <> EC_ELGAMAL) ->
  runs (handler ps cmd) l -> fetched_once l.
Proof.
  intros H37 He Hr. unfold handler in Hr. destruct (is_null ps 0).
  { inversion Hr; exact I. }
  inversion Hr as [| | | | | |? ? ok ? Hk E1 E2|]; subst; [exact I|].
  destruct ok; cbn [negb] in Hk; [|inversion Hk; exact I].
  inversion Hk as [|? ? ? ? b l' Hl Hbb Hk'| | | | | |]; subst; [exact I|].
  assert (Ho : once (U0 (0 + zlen b)) (Fill (size ps 0) (size ps 0)
      (bind (dispatch ps cmd b) (fun '(st, c') =>
        if is_inout (T ps 0) then Store 0 0 c' (Done st) else Done st)))).
  { cbn [once]. apply once_bind; [apply once_dispatch; auto|].
    intros [st c'] V. destruct (is_inout (T ps 0)); exact I. }
  destruct (once_runs _ _ Hk' _ Ho) as [I1 I2]. unfold fetched_once. cbn [flat_map uses app pairwise].
  split; [|exact I1]. apply Forall_forall. intros v Hv. apply I2; [now left|exact Hv].
Qed.
End Commands.
