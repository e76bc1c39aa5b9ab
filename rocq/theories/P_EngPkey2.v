From Verif Require Import Base M_EngPkey S_EngPkey P_EngPkey.

(** ** Memory *)
Definition Own (w : world) : Prop :=
  (forall i, w_labels w i <> None -> i < w_next w /\ exists c a, w_ctxs w c = Some a /\ a_label a = Some i) /\
  (forall c a i, w_ctxs w c = Some a -> a_label a = Some i -> i < w_next w) /\ apart w.

Lemma setting_own w c pass f : (forall a, a_label (f a) = a_label a) -> Own w -> Own (fst (setting w c pass f)).
Proof.
  intros HL [O [B A]]. unfold setting. destruct (w_ctxs w c) as [a|] eqn:E; [|split; [|split]; assumption].
  destruct (pass a); [|split; [|split]; assumption]. cbn [fst]. split; [|split].
  - intros i H. cbn in *. destruct (O i H) as [Hi [x [b [X Y]]]]. split; [exact Hi|].
    destruct (Nat.eqb x c) eqn:XC.
    + apply nateq in XC. subst x. exists c, (f a). rewrite Nat.eqb_refl, HL. split; [reflexivity|congruence].
    + exists x, b. rewrite XC. auto.
  - intros x b i. cbn. destruct (Nat.eqb x c); [|apply B]. intros H. injection H as <-. rewrite HL. eauto.
  - intros x y a' b' i. cbn. destruct (Nat.eqb x c) eqn:X; destruct (Nat.eqb y c) eqn:Y.
    + apply nateq in X, Y. congruence.
    + intros H1 H2 H3 H4. injection H1 as <-. rewrite HL in H3. apply nateq in X. subst x. eapply A; eauto.
    + intros H1 H2 H3 H4. injection H2 as <-. rewrite HL in H4. apply nateq in Y. subst y. eapply A; eauto.
    + apply A.
Qed.
(** A context gets a label of its own in place of none. *)
Lemma alloc_own w c l x : Own w -> match w_ctxs w c with Some a => a_label a = None | None => True end ->
  a_label x = Some (w_next w) -> Own (set_ctx (fst (alloc w l)) c (Some x)).
Proof.
  intros [O [B A]] N X. split; [|split].
  - intros i. cbn. destruct (i =? w_next w) eqn:E.
    + intros _. split; [lia|]. exists c, x. rewrite Nat.eqb_refl. assert (i = w_next w) by lia. subst. auto.
    + intros H. destruct (O i H) as [Hi [y [b [Y Z]]]]. split; [lia|]. exists y, b. destruct (Nat.eqb y c) eqn:YC; [|auto].
      apply nateq in YC. subst y. rewrite Y in N. congruence.
  - intros y b i. cbn. destruct (Nat.eqb y c).
    + intros H. injection H as <-. rewrite X. intros H. injection H as <-. lia.
    + intros H1 H2. specialize (B _ _ _ H1 H2). lia.
  - intros y z a' b' i. cbn. destruct (Nat.eqb y c) eqn:Y; destruct (Nat.eqb z c) eqn:Z.
    + apply nateq in Y, Z. congruence.
    + intros H1 H2 H3 H4. injection H1 as <-. rewrite X in H3. injection H3 as <-. specialize (B _ _ _ H2 H4). lia.
    + intros H1 H2 H3 H4. injection H2 as <-. rewrite X in H4. injection H4 as <-. specialize (B _ _ _ H1 H3). lia.
    + apply A.
Qed.
Lemma fresh_own w c x : Own w -> w_ctxs w c = None -> a_label x = None -> Own (set_ctx w c (Some x)).
Proof.
  intros [O [B A]] N X. split; [|split].
  - intros i H. cbn in *. destruct (O i H) as [Hi [y [b [Y Z]]]]. split; [lia|]. exists y, b. destruct (Nat.eqb y c) eqn:YC; [|auto].
    apply nateq in YC. congruence.
  - intros y b i. cbn. destruct (Nat.eqb y c); [|apply B]. intros H. injection H as <-. congruence.
  - intros y z a' b' i. cbn. destruct (Nat.eqb y c) eqn:Y; destruct (Nat.eqb z c) eqn:Z.
    + apply nateq in Y, Z. congruence.
    + intros H1 H2 H3 H4. injection H1 as <-. congruence.
    + intros H1 H2 H3 H4. injection H2 as <-. congruence.
    + apply A.
Qed.
Lemma own_step w o : match o with SetLabel c _ => match w_ctxs w c with Some a => a_label a = None | None => True end | _ => True end ->
  Own w -> Own (fst (step o w)).
Proof.
  intros C W. pose proof W as [O [B A]]. destruct o; cbn [step].
  - destruct (w_ctxs w c) eqn:E; cbn [fst]; [exact W|]. apply fresh_own; auto. destruct t; reflexivity.
  - apply setting_own; auto.
  - apply setting_own; auto.
  - apply setting_own; auto.
  - apply setting_own; auto.
  - apply setting_own; auto.
  - destruct (w_ctxs w c) as [a|] eqn:E; [|exact W]. destruct (is_rsa a && negb (signs a)); [|exact W].
    cbn [alloc fst]. apply (alloc_own w c l); [exact W| |reflexivity]. rewrite E. exact C.
  - destruct (w_ctxs w c) as [a|] eqn:E; [|exact W]. destruct (w_ctxs w d) eqn:E2; [exact W|].
    destruct ok1; [|exact W]. cbn [negb]. destruct (0 <? a_label_length a).
    + destruct ok2; [|exact W]. cbn [alloc fst]. apply (alloc_own w d (label_of w a)); [exact W| |reflexivity]. rewrite E2. exact Logic.I.
    + apply fresh_own; auto.
  - destruct (w_ctxs w c) as [a|] eqn:E; [|exact W]. cbn [fst].
    assert (N : w_next match a_label a with Some i => set_label w i None | None => w end = w_next w) by (destruct (a_label a); reflexivity).
    assert (K : forall x, w_ctxs match a_label a with Some i => set_label w i None | None => w end x = w_ctxs w x) by (destruct (a_label a); reflexivity).
    split; [|split].
    + intros i. cbn. rewrite N. intros H.
      assert (H' : w_labels w i <> None /\ a_label a <> Some i).
      { destruct (a_label a) as [j|]; cbn in H; [|split; [exact H|discriminate]]. destruct (i =? j) eqn:IJ; [congruence|]. split; [exact H|]. intros F. injection F as ->. lia. }
      destruct H' as [H1 H2]. destruct (O i H1) as [Hi [x [b [X Y]]]]. split; [exact Hi|]. exists x, b. rewrite K.
      destruct (Nat.eqb x c) eqn:XC; [|auto]. apply nateq in XC. subst x. congruence.
    + intros x b i. cbn. rewrite N, K. destruct (Nat.eqb x c); [discriminate|apply B].
    + intros x y a' b' i. cbn. rewrite !K. destruct (Nat.eqb x c); [discriminate|]. destruct (Nat.eqb y c); [discriminate|]. apply A.
  - destruct (w_ctxs w c) as [a|]; [|exact W]. destruct (a_purpose a); exact W.
  - destruct (w_ctxs w c) as [a|]; [|exact W]. destruct (a_purpose a); exact W.
  - destruct (w_ctxs w c) as [a|]; [|exact W]. destruct (a_purpose a); try exact W. destruct (is_rsa a); exact W.
  - destruct (w_ctxs w c) as [a|]; [|exact W]. destruct (a_purpose a); try exact W. destruct (is_rsa a); try exact W. destruct unsupported; exact W.
Qed.
Lemma run_fst o l w : fst (run (o :: l) w) = fst (run l (fst (step o w))).
Proof. cbn [run]. destruct (step o w) as [w1 a]. cbn [fst]. destruct (run l w1). reflexivity. Qed.
Lemma own_run l : forall w, once l w -> Own w -> Own (fst (run l w)).
Proof.
  induction l as [|o l IH]; intros w H W; [exact W|]. rewrite run_fst. destruct H as [H1 H2]. apply IH; [exact H2|]. apply own_step; assumption.
Qed.
Lemma labels_freed l : once l start -> all_freed (fst (run l start)) -> forall i, w_labels (fst (run l start)) i = None.
Proof.
  intros H F i. assert (W : Own start) by (split; [|split]; [intros j K; cbn in K; congruence|discriminate|intros c d a b j K; discriminate]).
  destruct (own_run l start H W) as [O _]. destruct (w_labels (fst (run l start)) i) eqn:E; [|reflexivity].
  destruct (O i) as [_ [c [a [C _]]]]; [congruence|]. rewrite F in C. discriminate.
Qed.

(** Contexts and cipher contexts that nothing refers to. *)
Lemma lost_open l : forall w,
  (~ (exists c d, In (Dup c d true false) l) -> w_lost (fst (run l w)) = w_lost w) /\
  (~ (exists c, In (Decrypt c true) l) -> w_open (fst (run l w)) = w_open w).
Proof.
  induction l as [|o l IH]; intros w; [split; reflexivity|]. rewrite run_fst. destruct (IH (fst (step o w))) as [I1 I2]. split; intros H.
  - rewrite I1 by (intros [c [d K]]; apply H; exists c, d; right; exact K).
    destruct o; cbn [step]; unfold setting; repeat match goal with |- context [match ?x with _ => _ end] => destruct x eqn:?; cbn; try reflexivity end.
    exfalso. apply H. subst. exists c, d. left. destruct ok1; [reflexivity|discriminate].
  - rewrite I2 by (intros [c K]; apply H; exists c; right; exact K).
    destruct o; cbn [step]; unfold setting; repeat match goal with |- context [match ?x with _ => _ end] => destruct x eqn:?; cbn; try reflexivity end.
    exfalso. apply H. subst. exists c. left. reflexivity.
Qed.
Lemma nothing_lost l : ~ (exists c d, In (Dup c d true false) l) -> w_lost (fst (run l start)) = 0%nat.
Proof. intros H. apply (lost_open l start). exact H. Qed.
Lemma nothing_open l : ~ (exists c, In (Decrypt c true) l) -> w_open (fst (run l start)) = 0%nat.
Proof. intros H. apply (lost_open l start). exact H. Qed.

(** ** Room *)
Lemma der_int_bound v n : 0 <= v < 2 ^ (8 * n) -> 0 < n -> 3 <= der_int v <= n + 3.
Proof.
  intros [H1 H2] Hn. unfold der_int. assert (L : 0 <= Z.log2 v < 8 * n).
  { split; [apply Z.log2_nonneg|]. destruct (Z.eq_dec v 0) as [->|]; [cbn; lia|]. apply Z.log2_lt_pow2; lia. }
  lia.
Qed.
Lemma ec_room n r s : 0 < n <= 66 -> 0 <= r < 2 ^ (8 * n) -> 0 <= s < 2 ^ (8 * n) ->
  exists k m, ec_sign_out n r s None = Announced k /\ (forall room, ec_sign_out n r s (Some room) = Wrote m) /\ 0 < m <= k.
Proof.
  intros Hn Hr Hs. pose proof (der_int_bound r n Hr ltac:(lia)). pose proof (der_int_bound s n Hs ltac:(lia)).
  do 2 eexists. split; [reflexivity|]. split; [reflexivity|]. unfold der_signature. cbn zeta. destruct (_ <? 128); lia.
Qed.
Lemma settings l c q : heard (snd (run l start)) c = Some q ->
  let fine o := snd (step o (fst (run l start))) = Fine in
  let rsa := exists bits, q_type q = RSA bits in
  let to_sign := q_purpose q = ToSign \/ q_purpose q = ToVerify in
  (forall p, fine (SetPad c p) <-> rsa) /\ (forall n, fine (SetSalt c n) <-> rsa /\ to_sign /\ padding q = PSS) /\
  (forall m, fine (SetMd c m) <-> to_sign) /\ (forall m, fine (SetMgf1 c m) <-> rsa /\ m <> None) /\
  (forall m, fine (SetOaepMd c m) <-> rsa /\ ~ to_sign /\ m <> None) /\ (forall x, fine (SetLabel c x) <-> rsa /\ ~ to_sign).
Proof.
  intros H. destruct (at_ctx l c q H) as [a [E [[H1 [H2 [H3 [H4 H5]]]] _]]]. cbn zeta.
  assert (R : is_rsa a = true <-> exists bits, q_type q = RSA bits).
  { unfold is_rsa. rewrite H2. destruct (q_type q); split; intros X; try discriminate; eauto. destruct X; discriminate. }
  assert (G : signs a = true <-> q_purpose q = ToSign \/ q_purpose q = ToVerify).
  { unfold signs. rewrite H3. destruct (q_purpose q); split; intros X; try discriminate; auto; destruct X; discriminate. }
  assert (P : is_rsa a = true -> a_pad a = padding q).
  { intros X. apply R in X. destruct X as [bits X]. rewrite X in H5. tauto. }
  cbn [step]. unfold setting. rewrite E. clear H2 H3 H5.
  set (rsa := exists bits, q_type q = RSA bits) in *. set (sg := q_purpose q = ToSign \/ q_purpose q = ToVerify) in *.
  clearbody rsa sg.
  destruct (is_rsa a); [assert (rsa) as R' by tauto; rewrite (P eq_refl) in *|assert (~ rsa) as R' by (intros X; apply R in X; discriminate)];
  (destruct (signs a); [assert (sg) as G' by tauto|assert (~ sg) as G' by (intros X; apply G in X; discriminate)]);
  clear R G P; cbn [andb negb].
  all: split; [intros ?; cbn; intuition discriminate|].
  all: split; [intros n; try (destruct (Z.eqb_spec (padding q) PSS)); cbn; intuition discriminate|].
  all: split; [intros m; cbn; intuition discriminate|].
  all: split; [intros [m|]; cbn; intuition congruence|].
  all: split; [intros [m|]; cbn; intuition congruence|].
  all: intros m; cbn; intuition discriminate.
Qed.
Lemma refused_keeps w o : (forall c d, o <> Dup c d true false) -> snd (step o w) = Refused -> fst (step o w) = w.
Proof.
  intros N. destruct o; cbn [step]; unfold setting; destruct (w_ctxs w c) as [a|]; try (cbn; congruence).
  all: try (match goal with |- context [if ?b then _ else _] => destruct b end; cbn; congruence).
  - destruct (w_ctxs w d); [cbn; congruence|]. destruct ok1; cbn [negb]; [|reflexivity].
    destruct (0 <? _); [|cbn; congruence]. destruct ok2; [cbn; congruence|]. exfalso. eapply N. reflexivity.
  - destruct (a_purpose a); cbn; congruence.
  - destruct (a_purpose a); cbn; congruence.
  - destruct (a_purpose a); try (cbn; congruence). destruct (is_rsa a); cbn; congruence.
  - destruct (a_purpose a); try (cbn; congruence). destruct (is_rsa a); [|cbn; congruence]. cbn. unfold decrypt. destruct (a_pad a =? OAEP); discriminate.
Qed.
Lemma rsa_room bits : exists size, 8 * (size - 1) < bits <= 8 * size /\ rsa_sign_out bits None = Announced size /\
  forall room, rsa_sign_out bits (Some room) = if size <=? room then Wrote size else TooSmall.
Proof.
  exists ((bits + 7) / 8). split; [lia|]. split; [reflexivity|]. intros room. unfold rsa_sign_out.
  destruct (room <? _) eqn:E; destruct (_ <=? room) eqn:F; try reflexivity; lia.
Qed.
Lemma derive_room size room m : 8 <= size -> derive_out true size (Some room) = Wrote m -> m <= room.
Proof. unfold derive_out. cbn. intros Hs. destruct (room <? size) eqn:E; [discriminate|]. intros H. injection H as <-. lia. Qed.

(** ** What goes wrong *)
Definition pss_default : list op := [New 0 7 (RSA 2048) ToSign; SetPad 0 PSS; SetMd 0 (Some (Sha 1))].
Lemma mgf1_default : exists q, heard (snd (run pss_default start)) 0%nat = Some q /\ q_md q = Some (Some (Sha 1)) /\ q_mgf1 q = None /\
  snd (step (Sign 0) (fst (run pss_default start))) = AskSign 7 (RsaPss 1 0 222).
Proof. eexists. vm_compute. auto. Qed.
Definition unpadded : list op :=
  [New 0 7 (RSA 2048) ToEncrypt; SetPad 0 NO_PADDING; New 1 7 (RSA 2048) ToDecrypt; SetPad 1 NO_PADDING].
Lemma unpadded_wrong : exists p q, heard (snd (run unpadded start)) 0%nat = Some p /\ heard (snd (run unpadded start)) 1%nat = Some q /\ alike p q /\
  snd (step (Encrypt 0) (fst (run unpadded start))) = AskEncrypt 7 NO_PADDING None None [] /\
  snd (step (Decrypt 1 false) (fst (run unpadded start))) = AskDecrypt 7 CPkcs1v15.
Proof. do 2 eexists. vm_compute. auto 20. Qed.
Definition sha224 : list op :=
  [New 0 7 (RSA 2048) ToEncrypt; SetPad 0 OAEP; SetOaepMd 0 (Some (OtherMd 28)); New 1 7 (RSA 2048) ToDecrypt; SetPad 1 OAEP; SetOaepMd 1 (Some (OtherMd 28))].
Lemma sha224_wrong : Forall (fun e => snd e = Fine) (snd (run sha224 start)) /\
  snd (step (Encrypt 0) (fst (run sha224 start))) = AskEncrypt 7 OAEP (Some (OtherMd 28)) (Some (Sha 0)) [] /\
  snd (step (Decrypt 1 false) (fst (run sha224 start))) = AskDecrypt 7 (COaep None (Some 0) []).
Proof. vm_compute. auto 20. Qed.
Definition relabelled : list op := [New 0 7 (RSA 2048) ToDecrypt; SetLabel 0 [1]; SetLabel 0 [2]; Free 0].
Lemma relabelled_leaks : all_freed (fst (run relabelled start)) /\ w_labels (fst (run relabelled start)) 0 = Some [1].
Proof. split; [|reflexivity]. intros c. cbn. destruct (Nat.eqb c 0); reflexivity. Qed.
Definition negative : list op := [New 0 7 (RSA 2048) ToSign; SetPad 0 PSS; SetSalt 0 (-4)].
Lemma negative_accepted : Forall (fun e => snd e = Fine) (snd (run negative start)) /\
  snd (step (Sign 0) (fst (run negative start))) = AskSign 7 (RsaPss 0 0 (2 ^ 64 - 4)).
Proof. vm_compute. auto 10. Qed.
Lemma left_open : w_open (fst (run [New 0 7 (RSA 2048) ToDecrypt; Decrypt 0 true; Free 0] start)) = 1%nat /\
  w_lost (fst (run [New 0 7 (RSA 2048) ToDecrypt; SetLabel 0 [1]; Dup 0 1 true false; Free 0] start)) = 1%nat.
Proof. split; reflexivity. Qed.
Lemma no_room : exists r s room n, 0 <= r < 2 ^ 256 /\ 0 <= s < 2 ^ 256 /\ ec_sign_out 32 r s (Some room) = Wrote n /\ room < n /\
  derive_out false 32 (Some 4) = Wrote 8.
Proof. exists (2 ^ 255), (2 ^ 255), 64, 72. vm_compute. intuition congruence. Qed.
Lemma announced_derive : exists size n, derive_out true size None = Announced n /\ derive_out true size (Some n) = Wrote 8 /\ n <> 8.
Proof. exists 256, 256. vm_compute. intuition congruence. Qed.
