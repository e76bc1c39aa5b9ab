From Verif Require Import Base M_EngPkey S_EngPkey.

Definition label_ok (w : world) (a : app) (q : asked) : Prop :=
  match a_label a with
  | Some i => i < w_next w /\ w_labels w i = Some (q_label q) /\ a_label_length a = zlen (q_label q)
  | None => q_label q = [] /\ a_label_length a = 0
  end.
Definition same (a : app) (q : asked) : Prop :=
  a_key a = q_key q /\ a_type a = q_type q /\ a_purpose a = q_purpose q /\ a_md a = digest q /\
  match q_type q with RSA _ => a_pad a = padding q /\ a_salt a = salt q /\ a_mgf1 a = Some (mgf1 q) | EC => True end.
Definition apart (w : world) : Prop :=
  forall c d a b i, w_ctxs w c = Some a -> w_ctxs w d = Some b -> a_label a = Some i -> a_label b = Some i -> c = d.
Definition tied (w : world) (k : nat -> option asked) : Prop :=
  forall c, match w_ctxs w c, k c with
            | Some a, Some q => same a q /\ label_ok w a q
            | None, None => True
            | _, _ => False
            end.
Definition Inv (w : world) (k : nat -> option asked) : Prop := tied w k /\ apart w.

Lemma nateq x c : (x =? c)%nat = true -> x = c.
Proof. apply Nat.eqb_eq. Qed.

Lemma hear_not_fine k o a : a <> Fine -> hear k (o, a) = k.
Proof. intros H. destruct o, a; cbn; congruence. Qed.

(** A setting that leaves the label alone. *)
Lemma setting_inv w k o c pass f (g : asked -> asked) :
  hear k (o, Fine) = match k c with Some q => upd k c (Some (g q)) | None => k end ->
  Inv w k ->
  (forall a q, same a q -> pass a = true -> same (f a) (g q)) ->
  (forall a, a_label (f a) = a_label a /\ a_label_length (f a) = a_label_length a) ->
  (forall q, q_label (g q) = q_label q) ->
  Inv (fst (setting w c pass f)) (hear k (o, snd (setting w c pass f))).
Proof.
  intros HH [T A] HS HL HQ. unfold setting. pose proof (T c) as Tc.
  destruct (w_ctxs w c) as [a|] eqn:E; [|cbn [fst snd]; rewrite hear_not_fine by discriminate; split; assumption].
  destruct (k c) as [q|] eqn:Ek; [|contradiction].
  destruct (pass a) eqn:P; cbn [fst snd]; [|rewrite hear_not_fine by discriminate; split; assumption].
  rewrite HH.
  split.
  - intros x. unfold upd. cbn. destruct (Nat.eqb x c) eqn:X; [|apply T].
    destruct Tc as [S L]. split; [auto|].
    unfold label_ok in *. cbn. destruct (HL a) as [-> ->]. rewrite HQ. exact L.
  - intros x y a' b' i. cbn. destruct (Nat.eqb x c) eqn:X; destruct (Nat.eqb y c) eqn:Y.
    + apply nateq in X, Y. congruence.
    + intros H1 H2 H3 H4. injection H1 as <-. rewrite (proj1 (HL a)) in H3. apply nateq in X. subst x. eapply A; eauto.
    + intros H1 H2 H3 H4. injection H2 as <-. rewrite (proj1 (HL a)) in H4. apply nateq in Y. subst y. eapply A; eauto.
    + apply A.
Qed.


Ltac same_tac :=
  let a := fresh "a" in let q := fresh "q" in
  intros a q [H1 [H2 [H3 [H4 H5]]]] P; unfold same, digest, padding, salt, mgf1, is_rsa in *; cbn in *; rewrite <- ?H2 in *;
  destruct (a_type a); cbn in *; try discriminate; intuition congruence.

Lemma inv_step w k o : Inv w k -> Inv (fst (step o w)) (hear k (o, snd (step o w))).
Proof.
  intros I0. pose proof I0 as [T A].
  destruct o.
  - (* New *)
    cbn [step]. pose proof (T c) as Tc. destruct (w_ctxs w c) eqn:E; cbn [fst snd]; [rewrite hear_not_fine by discriminate; exact I0|].
    cbn [hear]. split.
    + intros x. unfold upd. cbn. destruct (Nat.eqb x c) eqn:X; [|apply T].
      unfold same, label_ok, digest, padding, salt, mgf1, init. destruct t; cbn; auto 10.
    + intros x y a b i. cbn. destruct (Nat.eqb x c) eqn:X; destruct (Nat.eqb y c) eqn:Y.
      * apply nateq in X, Y. congruence.
      * intros H1 H2 H3. injection H1 as <-. destruct t; discriminate.
      * intros H1 H2 H3 H4. injection H2 as <-. destruct t; discriminate.
      * apply A.
  - cbn [step]. eapply setting_inv; [reflexivity|exact I0| |cbn; auto|cbn; auto]. same_tac.
  - cbn [step]. eapply setting_inv; [reflexivity|exact I0| |cbn; auto|cbn; auto]. same_tac.
  - cbn [step]. eapply setting_inv; [reflexivity|exact I0| |cbn; auto|cbn; auto]. same_tac.
  - cbn [step]. eapply setting_inv; [reflexivity|exact I0| |cbn; auto|cbn; auto]. destruct m; same_tac.
  - cbn [step]. eapply setting_inv; [reflexivity|exact I0| |cbn; auto|cbn; auto]. same_tac.
  - (* SetLabel *)
    cbn [step]. pose proof (T c) as Tc. destruct (w_ctxs w c) as [a|] eqn:E; cbn [fst snd]; [|rewrite hear_not_fine by discriminate; exact I0].
    destruct (k c) as [q|] eqn:Ek; [|contradiction].
    destruct (is_rsa a && negb (signs a)) eqn:P; [|cbn [fst snd]; rewrite hear_not_fine by discriminate; exact I0].
    cbn [alloc fst snd hear]. rewrite Ek. split.
    + intros x. unfold upd. cbn. destruct (Nat.eqb x c) eqn:X.
      * destruct Tc as [[H1 [H2 [H3 [H4 H5]]]] _]. split.
        -- unfold same, digest, padding, salt, mgf1 in *. cbn. auto.
        -- unfold label_ok. cbn. rewrite Z.eqb_refl. split; [lia|auto].
      * pose proof (T x) as Tx. destruct (w_ctxs w x) as [a'|] eqn:E'; destruct (k x) as [q'|]; try exact Tx.
        destruct Tx as [S L]. split; [exact S|]. unfold label_ok in *. cbn. destruct (a_label a') as [i|]; [|exact L].
        destruct L as [L1 [L2 L3]]. replace (i =? w_next w) with false by lia. repeat split; try assumption; lia.
    + intros x y a' b' i. cbn. 
      assert (F : forall z b, w_ctxs w z = Some b -> a_label b = Some (w_next w) -> False).
      { intros z b Z1 Z2. pose proof (T z) as Tz. rewrite Z1 in Tz. destruct (k z); [|contradiction]. destruct Tz as [_ L].
        unfold label_ok in L. rewrite Z2 in L. lia. }
      destruct (Nat.eqb x c) eqn:X; destruct (Nat.eqb y c) eqn:Y.
      * apply nateq in X, Y. congruence.
      * intros H1 H2 H3 H4. injection H1 as <-. cbn in H3. injection H3 as <-. exfalso. eauto.
      * intros H1 H2 H3 H4. injection H2 as <-. cbn in H4. injection H4 as <-. exfalso. eauto.
      * apply A.
  - (* Dup *)
    cbn [step]. pose proof (T c) as Tc. pose proof (T d) as Td.
    destruct (w_ctxs w c) as [a|] eqn:E; cbn [fst snd]; [|rewrite hear_not_fine by discriminate; exact I0].
    destruct (w_ctxs w d) as [a2|] eqn:E2; cbn [fst snd]; [rewrite hear_not_fine by discriminate; exact I0|].
    destruct (k c) as [q|] eqn:Ek; [|contradiction].
    destruct ok1; cbn [negb fst snd]; [|rewrite hear_not_fine by discriminate; exact I0].
    assert (F : forall z b, w_ctxs w z = Some b -> a_label b = Some (w_next w) -> False).
    { intros z b Z1 Z2. pose proof (T z) as Tz. rewrite Z1 in Tz. destruct (k z); [|contradiction]. destruct Tz as [_ L].
      unfold label_ok in L. rewrite Z2 in L. lia. }
    destruct (0 <? a_label_length a) eqn:P.
    + destruct ok2; cbn [alloc fst snd].
      * cbn [hear]. rewrite Ek. split.
        -- intros x. unfold upd. cbn. destruct (Nat.eqb x d) eqn:X.
           ++ destruct Tc as [S L]. split; [exact S|]. unfold label_ok in *. cbn. rewrite Z.eqb_refl. unfold label_of.
              destruct (a_label a); [|lia]. destruct L as [L1 [L2 L3]]. rewrite L2. split; [lia|auto].
           ++ pose proof (T x) as Tx. destruct (w_ctxs w x) as [a'|] eqn:E'; destruct (k x) as [q'|]; try exact Tx.
              destruct Tx as [S L]. split; [exact S|]. unfold label_ok in *. cbn. destruct (a_label a') as [i|]; [|exact L].
              destruct L as [L1 [L2 L3]]. replace (i =? w_next w) with false by lia. repeat split; try assumption; lia.
        -- intros x y a' b' i. cbn. destruct (Nat.eqb x d) eqn:X; destruct (Nat.eqb y d) eqn:Y.
           ++ apply nateq in X, Y. congruence.
           ++ intros H1 H2 H3 H4. injection H1 as <-. cbn in H3. injection H3 as <-. exfalso. eauto.
           ++ intros H1 H2 H3 H4. injection H2 as <-. cbn in H4. injection H4 as <-. exfalso. eauto.
           ++ apply A.
      * rewrite hear_not_fine by discriminate. exact I0.
    + cbn [fst snd hear]. rewrite Ek. split.
      * intros x. unfold upd. cbn. destruct (Nat.eqb x d) eqn:X; [|apply T].
        destruct Tc as [S L]. split; [exact S|]. unfold label_ok in *. cbn. split; [|reflexivity].
        destruct (a_label a); [|tauto]. destruct L as [_ [_ L]]. destruct (q_label q); [reflexivity|]. unfold zlen in L. cbn [length] in L. lia.
      * intros x y a' b' i. cbn. destruct (Nat.eqb x d) eqn:X; destruct (Nat.eqb y d) eqn:Y.
        -- apply nateq in X, Y. congruence.
        -- intros H1 H2 H3. injection H1 as <-. discriminate.
        -- intros H1 H2 H3 H4. injection H2 as <-. discriminate.
        -- apply A.
  - (* Free *)
    cbn [step]. pose proof (T c) as Tc. destruct (w_ctxs w c) as [a|] eqn:E; cbn [fst snd]; [|rewrite hear_not_fine by discriminate; exact I0].
    cbn [hear]. split.
    + intros x. unfold upd. cbn. destruct (Nat.eqb x c) eqn:X; [destruct (a_label a); exact Logic.I|].
      pose proof (T x) as Tx. 
      replace (w_ctxs match a_label a with Some i => set_label w i None | None => w end x) with (w_ctxs w x) by (destruct (a_label a); reflexivity).
      destruct (w_ctxs w x) as [a'|] eqn:E'; destruct (k x) as [q'|]; try exact Tx.
      destruct Tx as [S L]. split; [exact S|]. unfold label_ok in *. destruct (a_label a') as [j|] eqn:J; [|exact L].
      cbn. destruct (a_label a) as [i|] eqn:Ei; cbn; [|exact L].
      destruct (j =? i) eqn:JI; [|exact L]. assert (j = i) by lia. subst j. assert (x = c) by eauto. subst x. rewrite Nat.eqb_refl in X. discriminate.
    + intros x y a' b' i. cbn. destruct (Nat.eqb x c) eqn:X; [discriminate|]. destruct (Nat.eqb y c) eqn:Y; [discriminate|].
      destruct (a_label a); cbn; apply A.
  - cbn [step]. destruct (w_ctxs w c) as [a|]; cbn [fst snd]; [|exact I0]. destruct (a_purpose a); exact I0.
  - cbn [step]. destruct (w_ctxs w c) as [a|]; cbn [fst snd]; [|exact I0]. destruct (a_purpose a); exact I0.
  - cbn [step]. destruct (w_ctxs w c) as [a|]; cbn [fst snd]; [|exact I0]. destruct (a_purpose a); try exact I0. destruct (is_rsa a); exact I0.
  - cbn [step]. destruct (w_ctxs w c) as [a|]; cbn [fst snd]; [|exact I0]. destruct (a_purpose a); try exact I0. destruct (is_rsa a); try exact I0.
    destruct unsupported; exact I0.
Qed.

Lemma inv_run l : forall w k, Inv w k -> Inv (fst (run l w)) (fold_left hear (snd (run l w)) k).
Proof.
  induction l as [|o l IH]; intros w k I0; cbn [run]; [exact I0|].
  pose proof (inv_step w k o I0) as H. destruct (step o w) as [w1 a]. cbn [fst snd] in H.
  specialize (IH w1 _ H). destruct (run l w1) as [w2 r]. exact IH.
Qed.
Lemma inv_start : Inv start (fun _ => None).
Proof. split; [intros c; exact Logic.I|]. intros c d a b i H. discriminate. Qed.

(** What is known of a context is so. *)
Lemma at_ctx l c q : heard (snd (run l start)) c = Some q ->
  exists a, w_ctxs (fst (run l start)) c = Some a /\ same a q /\ label_of (fst (run l start)) a = q_label q /\ a_label_length a = zlen (q_label q).
Proof.
  intros H. destruct (inv_run l start _ inv_start) as [T _]. specialize (T c). unfold heard in H. rewrite H in T.
  destruct (w_ctxs _ c) as [a|]; [|contradiction]. exists a. destruct T as [S L]. split; [reflexivity|]. split; [exact S|].
  unfold label_ok, label_of in *. destruct (a_label a).
  - destruct L as [_ [-> ->]]. auto.
  - destruct L as [-> ->]. auto.
Qed.

Lemma longest_is bits m : (let n := (bits + 7) / 8 - md_size m - 2 in if bits mod 8 =? 1 then n - 1 else n) = longest_salt bits m.
Proof. unfold longest_salt. change octets with md_size. cbn zeta. destruct (bits mod 8 =? 1) eqn:E; lia. Qed.

Lemma sign_pkcs1 l c q bits d : heard (snd (run l start)) c = Some q -> q_purpose q = ToSign -> q_type q = RSA bits ->
  padding q = PKCS1 -> digest q = Some (Sha d) ->
  snd (step (Sign c) (fst (run l start))) = AskSign (q_key q) (Pkcs1v15 d).
Proof.
  intros H P Q R D. destruct (at_ctx l c q H) as [a [E [[H1 [H2 [H3 [H4 H5]]]] _]]]. rewrite Q in H5. destruct H5 as [H5 [H6 H7]].
  cbn [step]. rewrite E, H3, P. cbn [snd]. unfold sign. rewrite H2, Q, H5, R. cbn. rewrite H4, D, H1. reflexivity.
Qed.
Lemma sign_pss l c q bits d g : heard (snd (run l start)) c = Some q -> q_purpose q = ToSign -> q_type q = RSA bits ->
  padding q = PSS -> digest q = Some (Sha d) -> mgf1 q = Sha g -> -3 <= salt q < 2 ^ 31 ->
  let n := salt_of bits (Sha d) (salt q) in
  snd (step (Sign c) (fst (run l start))) = if n <? 0 then Refused else AskSign (q_key q) (RsaPss d g n).
Proof.
  intros H P Q R D G B. destruct (at_ctx l c q H) as [a [E [[H1 [H2 [H3 [H4 H5]]]] _]]]. rewrite Q in H5. destruct H5 as [H5 [H6 H7]].
  cbn [step]. rewrite E, H3, P. cbn [snd]. unfold sign. rewrite H2, Q, H5, R. cbn [PSS PKCS1 Z.eqb Pos.eqb].
  rewrite H4, D. cbn [from_md]. rewrite H7, G. cbn [from_md]. rewrite longest_is, H6, H1. cbn zeta. unfold salt_of. change octets with md_size.
  destruct (salt q =? SALT_DIGEST) eqn:S1.
  - replace (md_size (Sha d) <? 0) with false; [reflexivity|]. cbn. destruct (d =? 0), (d =? 1), (d =? 2); reflexivity.
  - destruct ((salt q =? SALT_AUTO) || (salt q =? SALT_MAX)) eqn:S2; [reflexivity|].
    unfold SALT_DIGEST, SALT_AUTO, SALT_MAX in *. rewrite Z.mod_small by lia. replace (salt q <? 0) with false by lia. reflexivity.
Qed.
Lemma sign_ec l c q d : heard (snd (run l start)) c = Some q -> q_purpose q = ToSign -> q_type q = EC ->
  digest q = Some (Sha d) -> snd (step (Sign c) (fst (run l start))) = AskSign (q_key q) (Ecdsa d).
Proof.
  intros H P Q D. destruct (at_ctx l c q H) as [a [E [[H1 [H2 [H3 [H4 H5]]]] _]]].
  cbn [step]. rewrite E, H3, P. cbn [snd]. unfold sign. rewrite H2, Q, H4, D. cbn. rewrite H1. reflexivity.
Qed.
(** Nothing else is signed. *)
Lemma sign_only l c q : heard (snd (run l start)) c = Some q -> q_purpose q = ToSign ->
  (forall d, digest q <> Some (Sha d)) \/ (exists bits, q_type q = RSA bits /\ padding q <> PKCS1 /\ padding q <> PSS) \/
  (exists bits n, q_type q = RSA bits /\ padding q = PSS /\ mgf1 q = OtherMd n) ->
  snd (step (Sign c) (fst (run l start))) = Refused.
Proof.
  intros H P C. destruct (at_ctx l c q H) as [a [E [[H1 [H2 [H3 [H4 H5]]]] _]]].
  cbn [step]. rewrite E, H3, P. cbn [snd]. unfold sign. rewrite H2, H4. 
  destruct C as [D|[[bits [Q [R1 R2]]]|[bits [n [Q [R G]]]]]].
  - destruct (q_type q); [destruct (a_pad a =? PKCS1); [|destruct (a_pad a =? PSS); [|reflexivity]]|];
      (destruct (digest q) as [[d|m]|]; [congruence|reflexivity|reflexivity]).
  - rewrite Q in *. destruct H5 as [-> _]. replace (padding q =? PKCS1) with false by lia. replace (padding q =? PSS) with false by lia. reflexivity.
  - rewrite Q in *. destruct H5 as [-> [_ ->]]. rewrite R, G. cbn. destruct (digest q) as [[d|m]|]; reflexivity.
Qed.

(** Verification with the settings used to sign. *)
Lemma verify_alike l c d p q s : heard (snd (run l start)) c = Some p -> heard (snd (run l start)) d = Some q ->
  q_purpose p = ToSign -> q_purpose q = ToVerify -> alike p q -> -3 <= salt p < 2 ^ 31 ->
  snd (step (Sign c) (fst (run l start))) = AskSign (q_key p) s ->
  exists pad m g n, snd (step (Verify d) (fst (run l start))) = AskVerify (q_key q) pad m g n /\ takes (q_type q) pad m g n s.
Proof.
  intros H H' P P' [K1 [K2 [K3 [K4 [K5 [K6 _]]]]]] B S.
  destruct (at_ctx l c p H) as [a [E [[H1 [H2 [H3 [H4 H5]]]] _]]].
  destruct (at_ctx l d q H') as [b [F [[G1 [G2 [G3 [G4 G5]]]] _]]].
  cbn [step] in *. rewrite E, H3, P in S. rewrite F, G3, P'. cbn [fst snd] in *. unfold verify. rewrite G1. do 4 eexists. split; [reflexivity|].
  assert (D : digest p = digest q) by (unfold digest; rewrite K2, K5; reflexivity).
  assert (PD : padding p = padding q) by (unfold padding; rewrite K3; reflexivity).
  assert (SL : salt p = salt q) by (unfold salt; rewrite K4; reflexivity).
  assert (MG : mgf1 p = mgf1 q) by (unfold mgf1; rewrite K6; reflexivity).
  unfold sign in S. rewrite H2, H4, D, K2 in S. rewrite G4. destruct (q_type q) as [bits|] eqn:Q; rewrite K2 in H5; cbn [takes].
  - destruct H5 as [H5 [H6 H7]], G5 as [G5 [G6 G7]]. rewrite H5, H6, H7, PD, SL, MG in S. rewrite G5, G6, G7. rewrite SL in B.
    destruct (padding q =? PKCS1) eqn:T1.
    + destruct (digest q) as [[x|]|]; cbn in S; try discriminate. injection S as _ <-. split; [lia|reflexivity].
    + destruct (padding q =? PSS) eqn:T2; [|discriminate].
      destruct (digest q) as [[x|]|]; try discriminate S; cbn [from_md] in S; try discriminate S.
      destruct (mgf1 q) as [y|]; cbn [from_md] in S; [|discriminate S]. rewrite longest_is in S.
      destruct (salt q =? SALT_DIGEST) eqn:S1.
      * injection S as _ <-. split; [lia|]; split; [reflexivity|]; split; [reflexivity|]. rewrite ?S1; reflexivity.
      * destruct ((salt q =? SALT_AUTO) || (salt q =? SALT_MAX)) eqn:S2.
        -- destruct (longest_salt bits (Sha x) <? 0); [discriminate S|]. injection S as _ <-. split; [lia|]; split; [reflexivity|]; split; [reflexivity|].
           rewrite ?S1; destruct (salt q =? SALT_AUTO) eqn:S3; [exact Logic.I|]. cbn in S2; rewrite ?S2; reflexivity.
        -- injection S as _ <-. split; [lia|]; split; [reflexivity|]; split; [reflexivity|]. apply orb_false_elim in S2. destruct S2 as [S2 S3]. rewrite ?S1, ?S2, ?S3.
           unfold SALT_DIGEST, SALT_AUTO, SALT_MAX in *. apply Z.mod_small. lia.
  - destruct (digest q) as [[x|]|]; cbn in S; try discriminate. injection S as _ <-. reflexivity.
Qed.

(** Encryption and decryption with the same settings. *)
Lemma oaep_alike l c d p q bits m g u : heard (snd (run l start)) c = Some p -> heard (snd (run l start)) d = Some q ->
  q_purpose p = ToEncrypt -> q_purpose q = ToDecrypt -> alike p q -> q_type p = RSA bits -> padding p = OAEP ->
  digest p = Some (Sha m) -> mgf1 p = Sha g ->
  snd (step (Encrypt c) (fst (run l start))) = AskEncrypt (q_key p) OAEP (Some (Sha m)) (Some (Sha g)) (q_label p) /\
  snd (step (Decrypt d u) (fst (run l start))) = AskDecrypt (q_key p) (COaep (Some m) (Some g) (q_label p)).
Proof.
  intros H H' P P' [K1 [K2 [K3 [K4 [K5 [K6 K7]]]]]] Q R D G.
  destruct (at_ctx l c p H) as [a [E [[H1 [H2 [H3 [H4 H5]]]] [HL HN]]]].
  destruct (at_ctx l d q H') as [b [F [[G1 [G2 [G3 [G4 G5]]]] [GL GN]]]].
  cbn [step] in *. rewrite E, H3, P. rewrite F, G3, P'. unfold is_rsa. rewrite H2, Q, G2, <- K2, Q. cbn [fst snd].
  rewrite Q in H5. rewrite <- K2, Q in G5. destruct H5 as [H5 [H6 H7]], G5 as [G5 [G6 G7]].
  assert (D' : digest q = Some (Sha m)) by (rewrite <- D; unfold digest; rewrite K2, K5; reflexivity).
  assert (PD : padding q = OAEP) by (rewrite <- R; unfold padding; rewrite K3; reflexivity).
  assert (MG : mgf1 q = Sha g) by (rewrite <- G; unfold mgf1; rewrite K6; reflexivity).
  split.
  - unfold encrypt. rewrite H5, R. cbn [OAEP Z.eqb Pos.eqb]. rewrite H1, H4, D, H7, G, HN, HL. destruct (q_label p); [reflexivity|]. 
    replace (0 <? zlen (z :: l0)) with true; [reflexivity|]. unfold zlen. cbn [length]. lia.
  - unfold decrypt. rewrite G5, PD. cbn [OAEP Z.eqb Pos.eqb]. rewrite G1, G4, D', G7, MG, GL, K1, K7. reflexivity.
Qed.
Lemma pkcs1_alike l c d p q bits u : heard (snd (run l start)) c = Some p -> heard (snd (run l start)) d = Some q ->
  q_purpose p = ToEncrypt -> q_purpose q = ToDecrypt -> alike p q -> q_type p = RSA bits -> padding p = PKCS1 ->
  snd (step (Encrypt c) (fst (run l start))) = AskEncrypt (q_key p) PKCS1 None None [] /\
  snd (step (Decrypt d u) (fst (run l start))) = AskDecrypt (q_key p) CPkcs1v15.
Proof.
  intros H H' P P' [K1 [K2 [K3 [K4 [K5 [K6 K7]]]]]] Q R.
  destruct (at_ctx l c p H) as [a [E [[H1 [H2 [H3 [H4 H5]]]] [HL HN]]]].
  destruct (at_ctx l d q H') as [b [F [[G1 [G2 [G3 [G4 G5]]]] [GL GN]]]].
  cbn [step] in *. rewrite E, H3, P. rewrite F, G3, P'. unfold is_rsa. rewrite H2, Q, G2, <- K2, Q. cbn [fst snd].
  rewrite Q in H5. rewrite <- K2, Q in G5. destruct H5 as [H5 [H6 H7]], G5 as [G5 [G6 G7]].
  assert (PD : padding q = PKCS1) by (rewrite <- R; unfold padding; rewrite K3; reflexivity).
  split.
  - unfold encrypt. rewrite H5, R. cbn. rewrite H1. reflexivity.
  - unfold decrypt. rewrite G5, PD. cbn. rewrite G1, K1. reflexivity.
Qed.
