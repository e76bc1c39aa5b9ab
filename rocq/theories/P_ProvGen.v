From Coq Require Import String.
From Verif Require Import Base M_ProvGen S_ProvGen.

Lemma curve_put c t : 0 <= c < 2 ^ 32 -> curve (put_curve c t) = c.
Proof. intros H. unfold curve, put_curve, word. cbn [t_p app]. change (2 ^ 32) with 4294967296 in H. lia. Qed.
Lemma firstn_pad l : firstn (Z.to_nat (zlen l)) (pad l) = l.
Proof. unfold pad, zlen. rewrite Nat2Z.id, firstn_app, Nat.sub_diag, firstn_all. cbn [firstn]. apply app_nil_r. Qed.
Lemma roundtrip t r : of_type t r -> request_of t (fst (made r)) (snd (made r)) = r.
Proof.
  destruct t, r; cbn [of_type]; intros H; try contradiction; cbn [made fst snd request_of]; try reflexivity.
  1: cbn [t_plen t_glen t_p t_g]; rewrite !firstn_pad; reflexivity.
  all: rewrite curve_put; [reflexivity|]; cbn [In] in H; lia.
Qed.

Lemma name_known n c : named n = Some c -> curve_of_name n = c /\ In c [0; 1; 2; 7; 8] /\ (String.length n < 50)%nat.
Proof.
  unfold named. destruct (find _ names) as [e|] eqn:F; [|discriminate]. intros H. injection H as <-.
  apply find_some in F. destruct F as [I E]. apply String.eqb_eq in E. subst n.
  cbn [names In] in I. repeat (destruct I as [<- | I]); [..|contradiction]; vm_compute; repeat split; auto 10; repeat constructor.
Qed.

Lemma params_fine t both size q p wi :
  careful_params t p -> serves (request_of t size q) wi -> of_type t (request_of t size q) ->
  exists size' q', set_params (G t both size q) p = (G t both size' q', true) /\
    serves (request_of t size' q') (with_params t p wi) /\ of_type t (request_of t size' q').
Proof.
  intros [HB HG] HS HT. unfold set_params.
  assert (X : exists size', match bits p with
            | Some (Some b) => set_group (G (g_ty (G t both size q)) (g_pair (G t both size q)) (b / 8) (g_tp (G t both size q))) p
            | Some None => (G t both size q, false) | None => set_group (G t both size q) p end = set_group (G t both size' q) p /\
            (t = RSA -> match bits p with Some (Some b) => 8 * size' = b | _ => size' = size end)).
  { destruct (bits p) as [[b|]|]; [| contradiction |]; eexists; split; try reflexivity; intros; lia. }
  destruct X as [size' [-> HZ]]. unfold set_group.
  destruct (group p) as [n|] eqn:N.
  - destruct HG as [-> HN]. destruct (named n) as [c|] eqn:Nc; [|contradiction].
    destruct (name_known n c Nc) as [Hc [Hi Hl]]. replace (MAX_NAME_SIZE <=? String.length n)%nat with false by (unfold MAX_NAME_SIZE; lia).
    rewrite Hc. cbn [g_ty g_pair g_size g_tp]. exists size', (put_curve c q).
    replace (negb (c =? UINT32_MAX)) with true by (unfold UINT32_MAX; cbn [In] in Hi; lia). split; [reflexivity|].
    cbn [request_of with_params]. rewrite N, Nc. cbn [serves of_type]. rewrite curve_put by (cbn [In] in Hi; lia). auto.
  - exists size', q. split; [reflexivity|].
    destruct t; cbn [with_params request_of] in *; rewrite ?N; try (split; assumption).
    specialize (HZ eq_refl). cbn [serves of_type] in *. split; [|exact Logic.I].
    destruct (bits p) as [[b|]|]; cbn; [assumption|contradiction|subst; assumption].
Qed.

Lemma fresh_serves t both : exists size q, fresh t both = G t both size q /\
  serves (request_of t size q) (default t) /\ of_type t (request_of t size q).
Proof. destruct t; do 2 eexists; (split; [reflexivity|]); vm_compute; auto 10. Qed.

Lemma fits_type t r : fits t r = true -> of_type t r.
Proof. destruct t, r; cbn [fits of_type In]; intros; try discriminate; try exact Logic.I; lia. Qed.
Lemma serves_self t r : of_type t r -> serves r (of_request r).
Proof. destruct r; cbn; auto. Qed.

Definition good_key (x : kobj) (wi : wish) : Prop :=
  let r := request_of (k_ty x) (k_size x) (k_tp x) in serves r wi /\ of_type (k_ty x) r /\ (forall r', k_key x = Some r' -> r' = r).
Definition good_ctx (g : gctx) (q : kty * bool * wish) : Prop :=
  g_ty g = fst (fst q) /\ g_pair g = snd (fst q) /\
  let r := request_of (g_ty g) (g_size g) (g_tp g) in serves r (snd q) /\ of_type (g_ty g) r.
Definition Inv (w : world) (k : known) : Prop :=
  (forall c, match w_g w c, of_ctx k c with Some g, Some q => good_ctx g q | None, None => True | _, _ => False end) /\
  (forall o, match w_k w o, of_key k o with Some x, Some wi => good_key x wi | None, None => True | _, _ => False end).

Lemma import_good t s x : careful_source t s -> import t s = inl x -> good_key x (given t s).
Proof.
  intros C H. destruct s as [r|r taken|built i]; cbn [import given] in *.
  - injection H as <-. unfold good_key. cbn [k_ty k_size k_tp k_key]. cbn [careful_source] in C. rewrite roundtrip by exact C.
    split; [eapply serves_self; exact C|]. split; [exact C|]. intros r' E. congruence.
  - destruct (fits t r) eqn:F; cbn [negb] in H; [|discriminate]. apply fits_type in F.
    assert (X : x = K t (fst (made r)) (snd (made r)) (Some r) true) by (destruct t, taken; congruence). subst x.
    unfold good_key. cbn [k_ty k_size k_tp k_key]. rewrite roundtrip by exact F.
    split; [eapply serves_self; exact F|]. split; [exact F|]. intros r' E. congruence.
  - destruct t; cbn [careful_source] in C.
    + destruct (i_bits i) as [b|]; [|contradiction]. injection H as <-. unfold good_key; cbn [k_ty k_size k_tp k_key request_of serves of_type]. split; [lia|]. split; [exact Logic.I|discriminate].
    + contradiction.
    + destruct (i_group i) as [n|]; [|contradiction]. destruct (named n) as [c|] eqn:N; [|contradiction].
      destruct (name_known n c N) as [Hc [Hi Hl]]. replace (MAX_NAME_SIZE <=? String.length n)%nat with false in H by (unfold MAX_NAME_SIZE; lia).
      rewrite Hc in H. injection H as <-. unfold good_key. cbn [k_ty k_size k_tp k_key request_of serves of_type].
      rewrite curve_put by (cbn [In] in Hi; lia). split; [reflexivity|]. split; [exact Hi|discriminate].
    + injection H as <-. vm_compute. repeat split; discriminate.
    + injection H as <-. vm_compute. repeat split; discriminate.
    + injection H as <-. vm_compute. repeat split; discriminate.
    + injection H as <-. vm_compute. repeat split; discriminate.
Qed.

Lemma kty_eq a b : kty_eqb a b = true -> a = b.
Proof. destruct a, b; cbn; congruence. Qed.

Definition careful_op (o : op) (k : known) : Prop :=
  match o with
  | Init _ t _ p => careful_params t p
  | SetParams c p => careful_params (type_of k c) p
  | Import _ t s => careful_source t s
  | _ => True
  end.
Ltac at_name x c E := intros x; unfold upd; cbn [w_g w_k of_ctx of_key set_g set_k]; destruct (Nat.eqb x c) eqn:E; [apply Nat.eqb_eq in E; subst x|].

Lemma inv_step w k o : Inv w k -> careful_op o k -> Inv (fst (step o w)) (hear k (o, snd (step o w))).
Proof.
  intros I0 C. pose proof I0 as [HG HK]. destruct o; cbn [step careful_op] in *.
  - pose proof (HG c) as X. destruct (w_g w c) eqn:E; [exact I0|]. cbn [fst snd hear].
    destruct (fresh_serves t pair) as [size [q [Hf [Hs Ht]]]]. rewrite Hf.
    destruct (params_fine t pair size q p (default t) C Hs Ht) as [size' [q' [-> [Hs' Ht']]]]. cbn [fst].
    split; [|exact HK]. at_name x c E'; [|apply HG]. unfold good_ctx. cbn. auto.
  - pose proof (HG c) as X. destruct (w_g w c) as [[t both size q]|] eqn:E; [|exact I0].
    destruct (of_ctx k c) as [[[t' b'] wi]|] eqn:Ek; [|contradiction]. unfold type_of in C. rewrite Ek in C.
    destruct X as [X1 [X2 [X3 X4]]]. cbn [g_ty g_pair g_size g_tp fst snd] in *. subst t' b'.
    destruct (params_fine t both size q p wi C X3 X4) as [size' [q' [-> [Hs' Ht']]]]. cbn [fst snd hear]. rewrite Ek.
    split; [|exact HK]. at_name x c E'; [|apply HG]. unfold good_ctx. cbn. auto.
  - pose proof (HG c) as X. pose proof (HK k0) as Y. destruct (w_g w c) as [g|] eqn:E; [|exact I0].
    destruct (w_k w k0) as [x|] eqn:E2; [|exact I0]. destruct (of_ctx k c) as [[[t' b'] wi]|] eqn:Ek; [|contradiction].
    destruct (of_key k k0) as [wk|] eqn:Ek2; [|contradiction].
    destruct (kty_eqb _ _) eqn:T; [|exact I0]. apply kty_eq in T. cbn [fst snd hear]. rewrite Ek, Ek2.
    split; [|exact HK]. at_name y c E'; [|apply HG]. destruct X as [X1 [X2 X3]], Y as [Y1 [Y2 Y3]]. unfold good_ctx.
    cbn [g_ty g_pair g_size g_tp fst snd] in *. rewrite T. rewrite <- T. rewrite T. repeat split; try assumption; congruence.
  - pose proof (HG c) as X. pose proof (HK k0) as Y. destruct (w_g w c) as [g|] eqn:E; [|destruct ok; exact I0].
    destruct (w_k w k0) as [x|] eqn:E2; [destruct ok; exact I0|]. destruct (of_ctx k c) as [[[t' b'] wi]|] eqn:Ek; [|contradiction].
    destruct X as [X1 [X2 [X3 X4]]]. cbn [fst snd] in *.
    destruct (g_pair g).
    + destruct ok; cbn [fst snd hear]; [|exact I0]. rewrite Ek. split; [exact HG|]. at_name y k0 E'; [|apply HK].
      unfold good_key. cbn [k_ty k_size k_tp k_key]. rewrite roundtrip by exact X4. repeat split; try assumption. intros; congruence.
    + cbn [fst snd]. assert (HH : hear k (Gen c k0 ok, Fine) = Known (of_ctx k) (upd (of_key k) k0 (Some wi))) by (destruct ok; cbn [hear]; rewrite Ek; reflexivity).
      rewrite HH. split; [exact HG|]. at_name y k0 E'; [|apply HK]. unfold good_key. cbn. repeat split; try assumption. discriminate.
  - pose proof (HG c) as X. destruct (w_g w c) eqn:E; [|exact I0]. cbn [fst snd hear]. split; [|exact HK]. at_name x c E'; [exact Logic.I|apply HG].
  - pose proof (HK k0) as Y. destruct (w_k w k0) eqn:E; [exact I0|]. destruct (import t s) as [x|a] eqn:Im; cbn [fst snd hear].
    + split; [exact HG|]. at_name y k0 E'; [|apply HK]. apply import_good; assumption.
    + destruct a; try exact I0. exfalso. clear - Im. destruct s as [r|r taken|b i]; cbn [import] in Im; [discriminate| |].
      * destruct (fits t r), t, taken; discriminate.
      * destruct t; try discriminate.
        -- destruct (i_p i) as [[?|]|], (i_g i) as [[?|]|]; try discriminate. destruct (_ || _); discriminate.
        -- destruct (i_group i); [destruct (_ <=? _)%nat|]; discriminate.
  - pose proof (HK k0) as Y. destruct (w_k w k0) eqn:E; [|exact I0]. cbn [fst snd hear]. split; [exact HG|]. at_name x k0 E'; [exact Logic.I|apply HK].
Qed.

Lemma inv_run l : forall w k, careful l w k -> Inv w k -> Inv (fst (run l w)) (fold_left hear (snd (run l w)) k).
Proof.
  induction l as [|o l IH]; intros w k C H; cbn [run]; [exact H|].
  cbn [careful] in C. destruct C as [C1 C2]. pose proof (inv_step w k o H C1) as H1.
  destruct (step o w) as [w1 a]. cbn [fst snd] in *. specialize (IH w1 _ C2 H1). destruct (run l w1) as [w2 r]. exact IH.
Qed.
Lemma inv_start : Inv start unheard.
Proof. split; intros; exact Logic.I. Qed.

Lemma asked l c t wi o ok : careful l start unheard -> of_ctx (heard (snd (run l start))) c = Some (t, true, wi) ->
  of_key (heard (snd (run l start))) o = None ->
  exists r, snd (step (Gen c o ok) (fst (run l start))) = Asked r /\ serves r wi /\ of_type t r.
Proof.
  intros C H N. destruct (inv_run l _ _ C inv_start) as [HG HK]. specialize (HG c). specialize (HK o).
  unfold heard, unheard in *. rewrite H in HG. rewrite N in HK. cbn [step].
  destruct (w_g _ c) as [g|]; [|contradiction]. destruct (w_k _ o); [contradiction|].
  destruct HG as [X1 [X2 [X3 X4]]]. cbn [fst snd] in *. rewrite X2. subst t. eexists. split; [reflexivity|]. split; assumption.
Qed.
Lemma kinds l o x r : careful l start unheard -> w_k (fst (run l start)) o = Some x -> k_key x = Some r ->
  of_type (k_ty x) r /\ exists wi, of_key (heard (snd (run l start))) o = Some wi /\ serves r wi.
Proof.
  intros C H N. destruct (inv_run l _ _ C inv_start) as [_ HK]. specialize (HK o). unfold heard, unheard in *. rewrite H in HK.
  destruct (of_key _ o) as [wi|]; [|contradiction]. destruct HK as [X1 [X2 X3]]. rewrite (X3 r N). split; [exact X2|]. eauto.
Qed.

Lemma few_bytes v : v < 256 ^ 512 -> num_bytes v <= 512.
Proof.
  intros H. unfold num_bytes. destruct (Z.leb_spec v 0); [lia|].
  assert (L : Z.log2 v < 4096) by (apply Z.log2_lt_pow2; [lia|]; replace (2 ^ 4096) with (256 ^ 512) by reflexivity; exact H). lia.
Qed.
Lemma import_safe t s : readable s -> import t s <> inr OutOfBounds /\ import t s <> inr FreedTwice.
Proof.
  intros R. destruct s as [r|r taken|built i]; cbn [import].
  - split; discriminate.
  - destruct (fits t r), t, taken; split; discriminate.
  - destruct R as [R1 [R2 R3]]. destruct t; try (split; discriminate).
    + destruct (i_p i) as [[p|]|], (i_g i) as [[g|]|]; try congruence; try (split; discriminate).
      pose proof (few_bytes p (R3 p (or_introl eq_refl))). pose proof (few_bytes g (R3 g (or_intror eq_refl))).
      replace (512 <? num_bytes p) with false by lia. replace (512 <? num_bytes g) with false by lia. split; discriminate.
    + destruct (i_group i); [destruct (_ <=? _)%nat|]; split; discriminate.
Qed.

(** ** What goes wrong *)
Lemma odd_bits : fine [Init 0 RSA true (bits_are 2049)] /\ asks [Init 0 RSA true (bits_are 2049)] (AskRsa 256).
Proof. split; [repeat constructor|]. intros ok. vm_compute. reflexivity. Qed.
Lemma refused_changes : map snd (snd (run spoilt start)) = [Fine; Refused] /\ asks spoilt (AskEc 4294967295).
Proof. split; [reflexivity|]. intros ok. vm_compute. reflexivity. Qed.
Lemma init_ignores : fine unknown /\ asks unknown (AskRsa 256).
Proof. split; [repeat constructor|]. intros ok. vm_compute. reflexivity. Qed.
Lemma other_curve : asks [Init 0 X25519 true (group_is "P-256")] (AskEc 0) /\
  exists x, w_k (fst (run wrong_curve start)) 1%nat = Some x /\ k_ty x = X25519 /\ k_key x = Some (AskEc 0).
Proof. split; [intros ok; vm_compute; reflexivity|]. eexists. repeat split. Qed.
Lemma dh_group : exists p, fine [Init 0 DH true (group_is "P-384")] /\ asks [Init 0 DH true (group_is "P-384")] (AskDh p [2]) /\
  firstn 4 p = [1; 0; 0; 0] /\ skipn 4 p = skipn 4 MODP_2048_P.
Proof. eexists. split; [repeat constructor|]. split; [intros ok; vm_compute; reflexivity|]. split; reflexivity. Qed.
Lemma dh_template : fine small_group /\ of_ctx (heard (snd (run small_group start))) 0%nat = Some (DH, true, Modulo [11; 3] [2]) /\
  asks small_group (AskDh [3; 11] [2]).
Proof. split; [repeat constructor|]. split; [vm_compute; reflexivity|]. intros ok. vm_compute. reflexivity. Qed.
Lemma other_type : exists x, w_k (fst (run [Import 0 EC (Handle (AskRsa 256))] start)) 0%nat = Some x /\ k_ty x = EC /\ k_key x = Some (AskRsa 256).
Proof. eexists. repeat split. Qed.
Lemma import_wild : import DH (Public true (I (Some (Some (256 ^ 512))) (Some (Some 2)) None None)) = inr OutOfBounds /\
  import DH (Public true (I (Some (Some 2819)) (Some None) None None)) = inr FreedTwice.
Proof. split; vm_compute; reflexivity. Qed.
Lemma has_public : exists x, w_k (fst (run [Import 0 X25519 (Public true (I None None None None))] start)) 0%nat = Some x /\
  k_public x = true /\ has x PublicPart = false.
Proof. eexists. repeat split. Qed.
