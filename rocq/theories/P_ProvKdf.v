(** Proofs about key derivation with the provider. *)
From Verif Require Import Base M_Rights M_Mac M_Kdf S_Rights S_Mac S_Kdf P_Mac P_Kdf M_ProvKdf S_ProvKdf.
From Coq Require Import String.
Local Open Scope Z_scope.
Local Open Scope list_scope.

Lemma then_inv : forall a b c t c' t', then_ a b c t = (true, c', t') ->
  exists c1 t1, a c t = (true, c1, t1) /\ b c1 t1 = (true, c', t').
Proof. unfold then_. intros a b c t c' t' H. destruct (a c t) as [[[|] c1] t1]; [|discriminate]. exists c1, t1. split; [reflexivity|exact H]. Qed.

Definition with_key (c : kctx) (h : option Z) : kctx :=
  MkCtx (x_alg c) (match h with Some h => h | None => x_key c end) (x_delete c) (x_digest c) (x_salt c) (x_info c) (x_sep c) (x_l c).
Definition smaller (t' t : table) : Prop := forall h, t' h = t h \/ t' h = None.
Lemma smaller_refl : forall t, smaller t t. Proof. intros t h. left. reflexivity. Qed.
Lemma smaller_trans : forall a b c, smaller a b -> smaller b c -> smaller a c.
Proof. intros a b c H1 H2 h. destruct (H1 h) as [E|E]; rewrite E; [apply H2|right; reflexivity]. Qed.
Lemma release_smaller : forall t h, smaller (release t h) t.
Proof. intros t h x. unfold release, upd. destruct (x =? h); [right|left]; reflexivity. Qed.
Lemma take_inv : forall c t h c' t', take_key c t h = Some (c', t') ->
  c' = with_key c (Some h) /\ smaller t' t /\ t h <> None /\ (x_key c = NO_HANDLE -> t' = t).
Proof.
  unfold take_key. intros c t h c' t' H. destruct (t h) eqn:E; [|discriminate].
  injection H as H1 H2. subst. split; [reflexivity|].
  destruct (Z.eqb_spec (x_key c) NO_HANDLE) as [K|K]; cbn.
  - split; [apply smaller_refl|]. split; [discriminate|reflexivity].
  - split; [apply release_smaller|]. split; [discriminate|]. intros; contradiction.
Qed.
Lemma with_none : forall c, with_key c None = c. Proof. intros []; reflexivity. Qed.
Definition key8 (q : option (option (list Z))) : option Z := match q with Some (Some b) => Some (le_value b) | _ => None end.
Definition opt {A} (q : option (option A)) : option A := match q with Some a => a | None => None end.
Lemma set_key_inv : forall q junk c t c' t', (forall b, q = Some (Some b) -> List.length b = 8%nat) -> set_key q junk c t = (true, c', t') ->
  c' = with_key c (key8 q) /\ smaller t' t /\ (q = None \/ x_key c = NO_HANDLE -> t' = t) /\ q <> Some None.
Proof.
  intros q junk c t c' t' P H. destruct q as [[b|]|]; unfold set_key in H.
  - specialize (P b eq_refl). rewrite firstn_app, P in H. cbn [Nat.sub] in H. rewrite firstn_O, app_nil_r, <- P, firstn_all in H.
    destruct (take_key c t (le_value b)) as [[c1 t1]|] eqn:T; [|discriminate]. injection H as H1 H2. subst c1 t1.
    destruct (take_inv _ _ _ _ _ T) as (A & B & C & D). split; [exact A|]. split; [exact B|].
    split; [|discriminate]. intros [E|E]; [discriminate|apply D, E].
  - discriminate.
  - injection H as H1 H2. subst. cbn. rewrite with_none. split; [reflexivity|]. split; [apply smaller_refl|]. split; [reflexivity|discriminate].
Qed.
Lemma set_sa_inv : forall q c t c' t', set_sa_key q c t = (true, c', t') ->
  c' = with_key c (opt q) /\ smaller t' t /\ (q = None \/ x_key c = NO_HANDLE -> t' = t) /\ q <> Some None.
Proof.
  intros q c t c' t' H. destruct q as [[b|]|]; cbn in H.
  - destruct (take_key c t b) as [[c1 t1]|] eqn:T; [|discriminate]. injection H as H1 H2. subst c1 t1.
    destruct (take_inv _ _ _ _ _ T) as (A & B & C & D). split; [exact A|]. split; [exact B|].
    split; [|discriminate]. intros [E|E]; [discriminate|apply D, E].
  - discriminate.
  - injection H as H1 H2. subst. cbn. rewrite with_none. split; [reflexivity|]. split; [apply smaller_refl|]. split; [reflexivity|discriminate].
Qed.

(** The context after all steps, field by field. *)
Definition after (p : params) (c : kctx) : kctx :=
  MkCtx (x_alg c) (match key_asked p with Some h => h | None => x_key c end)
    (match q_delete p with Some (Some d) => negb (d =? 0) | _ => x_delete c end)
    (match q_digest p with Some (Some n) => digest_from_name n | _ => x_digest c end)
    (match q_salt p with Some (Copied b) => Bytes b | _ => x_salt c end)
    (match q_info p with Some (Copied b) => Bytes b | _ => x_info c end)
    (match q_sep p with Some (Some n) => n | _ => x_sep c end) (match q_l p with Some (Some n) => n | _ => x_l c end).
Lemma set_inv : forall p junk c t c' t', proper p -> kdf_set_ctx_params (Some p) junk c t = (true, c', t') ->
  c' = after p c /\ smaller t' t /\
  (gives_key p = false \/ (x_key c = NO_HANDLE /\ (q_key p = None \/ q_sa_key p = None)) -> t' = t).
Proof.
  intros p junk c t c' t' (PK & _ & _) H. unfold kdf_set_ctx_params in H.
  apply then_inv in H. destruct H as (c1 & t1 & H1 & H). apply then_inv in H. destruct H as (c2 & t2 & H2 & H).
  apply then_inv in H. destruct H as (c3 & t3 & H3 & H). apply then_inv in H. destruct H as (c4 & t4 & H4 & H).
  apply then_inv in H. destruct H as (c5 & t5 & H5 & H). apply then_inv in H. destruct H as (c6 & t6 & H6 & H).
  apply then_inv in H. destruct H as (c7 & t7 & H7 & H).
  apply set_key_inv in H1; [|exact PK]. destruct H1 as (A1 & B1 & C1 & D1).
  apply set_sa_inv in H2. destruct H2 as (A2 & B2 & C2 & D2).
  assert (E3 : t3 = t2 /\ c3 = MkCtx (x_alg c2) (x_key c2) (match q_delete p with Some (Some d) => negb (d =? 0) | _ => x_delete c2 end) (x_digest c2) (x_salt c2) (x_info c2) (x_sep c2) (x_l c2))
    by (unfold set_delete in H3; destruct (q_delete p) as [[|]|]; [|discriminate|]; injection H3 as E1 E2; subst t3 c3; split; [reflexivity|reflexivity|reflexivity|clear; destruct c2; reflexivity]).
  assert (E4 : t4 = t3 /\ c4 = MkCtx (x_alg c3) (x_key c3) (x_delete c3) (match q_digest p with Some (Some n) => digest_from_name n | _ => x_digest c3 end) (x_salt c3) (x_info c3) (x_sep c3) (x_l c3))
    by (unfold set_digest in H4; destruct (q_digest p) as [[|]|]; [|discriminate|]; injection H4 as E1 E2; subst t4 c4; split; [reflexivity|reflexivity|reflexivity|destruct c3; reflexivity]).
  assert (E5 : t5 = t4 /\ c5 = MkCtx (x_alg c4) (x_key c4) (x_delete c4) (x_digest c4) (match q_salt p with Some (Copied b) => Bytes b | _ => x_salt c4 end) (x_info c4) (x_sep c4) (x_l c4))
    by (unfold set_salt in H5; destruct (q_salt p) as [[|[|]]|]; cbn in H5; [|discriminate|discriminate|]; injection H5 as E1 E2; subst t5 c5; split; [reflexivity|reflexivity|reflexivity|destruct c4; reflexivity]).
  assert (E6 : t6 = t5 /\ c6 = MkCtx (x_alg c5) (x_key c5) (x_delete c5) (x_digest c5) (x_salt c5) (match q_info p with Some (Copied b) => Bytes b | _ => x_info c5 end) (x_sep c5) (x_l c5))
    by (unfold set_info in H6; destruct (q_info p) as [[|[|]]|]; cbn in H6; [|discriminate|discriminate|]; injection H6 as E1 E2; subst t6 c6; split; [reflexivity|reflexivity|reflexivity|destruct c5; reflexivity]).
  assert (E7 : t7 = t6 /\ c7 = MkCtx (x_alg c6) (x_key c6) (x_delete c6) (x_digest c6) (x_salt c6) (x_info c6) (match q_sep p with Some (Some n) => n | _ => x_sep c6 end) (x_l c6))
    by (unfold set_sep in H7; destruct (q_sep p) as [[|]|]; [|discriminate|]; injection H7 as E1 E2; subst t7 c7; split; [reflexivity|reflexivity|reflexivity|destruct c6; reflexivity]).
  assert (E8 : t' = t7 /\ c' = MkCtx (x_alg c7) (x_key c7) (x_delete c7) (x_digest c7) (x_salt c7) (x_info c7) (x_sep c7) (match q_l p with Some (Some n) => n | _ => x_l c7 end))
    by (unfold set_l in H; destruct (q_l p) as [[|]|]; [|discriminate|]; injection H as E1 E2; subst t' c'; split; [reflexivity|reflexivity|reflexivity|destruct c7; reflexivity]).
  destruct E3 as [? E3], E4 as [? E4], E5 as [? E5], E6 as [? E6], E7 as [? E7], E8 as [? E8].
  subst t' t7 t6 t5 t4 t3. split; [|split].
  - rewrite A1 in A2. unfold with_key in A2. cbn [x_alg x_key x_delete x_digest x_salt x_info x_sep x_l] in A2.
    rewrite A2 in E3. cbn [x_alg x_key x_delete x_digest x_salt x_info x_sep x_l] in E3.
    rewrite E3 in E4. cbn [x_alg x_key x_delete x_digest x_salt x_info x_sep x_l] in E4.
    rewrite E4 in E5. cbn [x_alg x_key x_delete x_digest x_salt x_info x_sep x_l] in E5.
    rewrite E5 in E6. cbn [x_alg x_key x_delete x_digest x_salt x_info x_sep x_l] in E6.
    rewrite E6 in E7. cbn [x_alg x_key x_delete x_digest x_salt x_info x_sep x_l] in E7.
    rewrite E7 in E8. cbn [x_alg x_key x_delete x_digest x_salt x_info x_sep x_l] in E8.
    rewrite E8. clear - D2. unfold after, with_key, key_asked, key8, opt. cbn.
    destruct (q_sa_key p) as [[|]|]; [reflexivity|congruence|]. destruct (q_key p) as [[|]|]; reflexivity.
  - eapply smaller_trans; eassumption.
  - intros [G|[G1 G2]].
    + unfold gives_key in G. destruct (q_key p); [discriminate|]. destruct (q_sa_key p); [discriminate|].
      rewrite (C2 (or_introl eq_refl)), (C1 (or_introl eq_refl)). reflexivity.
    + rewrite (C1 (or_intror G1)) in C2. destruct G2 as [G2|G2].
      * apply C2. right. subst c1. rewrite G2. exact G1.
      * apply C2. left. exact G2.
Qed.

(** What a context holds, in terms of what was asked; [fresh]: no reset so far. *)
Definition holds (i : input) (o : option (list Z)) (fresh : bool) : Prop :=
  match o with Some b => i = Bytes b | None => exists m, i = Null m /\ 0 <= m /\ (fresh = true -> m = 0) end.
Lemma holds_len : forall i o fresh, holds i o fresh -> 0 <= in_length i.
Proof. intros i [b|] fresh H; cbn in H; [subst; cbn; lia|destruct H as (m & -> & H & _); exact H]. Qed.
Definition agrees (alg : Z) (c : kctx) (s : asked) (fresh : bool) : Prop :=
  x_alg c = alg /\ x_key c = match a_key s with Some h => h | None => NO_HANDLE end /\ x_delete c = a_delete s /\
  (forall name, a_digest s = Some name -> x_digest c = digest_from_name name) /\
  holds (x_salt c) (a_salt s) fresh /\ holds (x_info c) (a_info s) fresh /\
  x_sep c = a_sep s /\ x_l c = a_l s /\ (a_sep s = 0 \/ a_sep s = 1) /\ (a_l s = 0 \/ a_l s = 1).
Lemma agrees_new : forall alg, agrees alg (kdf_newctx alg) nothing true.
Proof.
  intros alg. unfold agrees, kdf_newctx, nothing. cbn. split; [reflexivity|]. split; [reflexivity|]. split; [reflexivity|].
  split; [discriminate|]. split; [exists 0; repeat split; lia|]. split; [exists 0; repeat split; lia|].
  split; [reflexivity|]. split; [reflexivity|]. split; left; reflexivity.
Qed.
Lemma agrees_after : forall alg c s p fresh, proper p -> agrees alg c s fresh -> agrees alg (after p c) (ask s p) fresh.
Proof.
  intros alg c s p fresh (PK & PS & PL) (A & B & C & D & E & F & G & H & I & J). unfold agrees, after, ask. cbn.
  split; [exact A|]. split; [destruct (key_asked p); [reflexivity|exact B]|].
  split; [destruct (q_delete p) as [[|]|]; [reflexivity|exact C|exact C]|].
  split; [unfold latest; destruct (q_digest p) as [[|]|]; [intros name N; injection N as N; subst; reflexivity|exact D|exact D]|].
  split; [destruct (q_salt p) as [[|]|]; [reflexivity|exact E|exact E]|].
  split; [destruct (q_info p) as [[|]|]; [reflexivity|exact F|exact F]|].
  split; [destruct (q_sep p) as [[|]|]; [reflexivity|exact G|exact G]|].
  split; [destruct (q_l p) as [[|]|]; [reflexivity|exact H|exact H]|].
  split; [destruct (q_sep p) as [[|]|]; [apply PS; reflexivity|exact I|exact I]|].
  destruct (q_l p) as [[|]|]; [apply PL; reflexivity|exact J|exact J].
Qed.
Lemma agrees_reset : forall alg c t s fresh, agrees alg c s fresh -> agrees alg (fst (kdf_reset c t)) nothing false.
Proof.
  intros alg c t s fresh (A & _ & _ & _ & S & I & _). unfold agrees, kdf_reset, nothing. cbn. split; [exact A|]. split; [reflexivity|]. split; [reflexivity|].
  split; [discriminate|]. split; [eexists; split; [reflexivity|split; [eapply holds_len; exact S|discriminate]]|]. split; [eexists; split; [reflexivity|split; [eapply holds_len; exact I|discriminate]]|].
  split; [reflexivity|]. split; [reflexivity|]. split; left; reflexivity.
Qed.
Definition is_reset (v : event) : bool := match v with Reset => true | _ => false end.
Definition still (fresh : bool) (l : list event) : bool := fresh && negb (existsb is_reset l).

Lemma derive_inv : forall c t out n p e c' t' out', proper p -> kdf_derive c t out n (Some p) e = Answer true c' t' out' ->
  c' = after p c /\ exists t2 k, smaller t2 t /\ t' = upd t2 (e_handle e) (Some k) /\
  (gives_key p = false \/ (x_key c = NO_HANDLE /\ (q_key p = None \/ q_sa_key p = None)) -> t2 = t) /\
  do_derive (after p c) t2 n e = Some (KdfKey k) /\ put out (le_bytes 8 (e_handle e)) = Some out'.
Proof.
  intros c t out n p e c' t' out' P H. unfold kdf_derive in H.
  destruct (kdf_set_ctx_params (Some p) (e_junk e) c t) as [[[|] c1] t1] eqn:S; [|discriminate].
  destruct (set_inv _ _ _ _ _ _ P S) as (A & B & C). subst c1.
  destruct (do_derive (after p c) t1 n e) as [[k|s| |]|] eqn:D; try discriminate.
  destruct (put out (le_bytes 8 (e_handle e))) as [o|] eqn:O; [|discriminate]. injection H as H1 H2 H3. subst.
  split; [reflexivity|]. exists t1, k. auto.
Qed.

Lemma life_agrees : forall alg l c t s fresh c' t', agrees alg c s fresh -> all_proper l -> life (c, t) l = Some (c', t') ->
  agrees alg c' (fold_left asks l s) (still fresh l).
Proof.
  induction l as [|v l IH]; intros c t s fresh c' t' A P H.
  - cbn in *. injection H as H1 H2. subst. unfold still. cbn. rewrite andb_true_r. exact A.
  - assert (P' : all_proper l) by (intros w p W; apply P; right; exact W).
    assert (Pv : forall p, In p (parameters v) -> proper p) by (intros p; apply P; left; reflexivity).
    cbn [life] in H. destruct (happens (c, t) v) as [[c1 t1]|] eqn:V; [|discriminate].
    cbn [fold_left]. destruct v as [p junk| |out n p e]; cbn [happens parameters asks] in *.
    + destruct (kdf_set_ctx_params (Some p) junk c t) as [[[|] c2] t2] eqn:S; [|discriminate]. injection V as V1 V2. subst c2 t2.
      destruct (set_inv _ _ _ _ _ _ (Pv p (or_introl eq_refl)) S) as (E & _). subst c1.
      unfold still. cbn. eapply IH; [apply agrees_after; [apply Pv; left; reflexivity|exact A]|exact P'|exact H].
    + assert (E : kdf_reset c t = (c1, t1)) by congruence. pose proof (agrees_reset _ _ t _ _ A) as A'. rewrite E in A'.
      unfold still. cbn. rewrite andb_false_r. change false with (still false l).
      eapply IH; [exact A'|exact P'|exact H].
    + destruct (kdf_derive c t out n (Some p) e) as [[|] c2 t2 o|] eqn:D; try discriminate. injection V as V1 V2. subst c2 t2.
      destruct (derive_inv _ _ _ _ _ _ _ _ _ (Pv p (or_introl eq_refl)) D) as (E & _). subst c1.
      unfold still. cbn. eapply IH; [apply agrees_after; [apply Pv; left; reflexivity|exact A]|exact P'|exact H].
Qed.

(** The names of the digests. *)
Lemma named : forall name d, digest_named name = Some d -> digest_from_name name = d.
Proof.
  intros name d. unfold digest_named. cbn [existsb].
  repeat match goal with |- context [String.eqb ?a ?b] => destruct (String.eqb_spec a b); [subst; intros H; injection H as <-; reflexivity|] end.
  discriminate.
Qed.

Lemma zlen_app' : forall (a b : list Z), zlen (a ++ b) = zlen a + zlen b.
Proof. intros. unfold zlen. rewrite app_length. lia. Qed.
(** The data for CMAC. *)
Lemma other_fine : forall alg c s fresh n malloc, agrees alg c s fresh ->
  match other_data c n malloc with
  | None => False
  | Some None => True
  | Some (Some d) => d = bytes_of (a_salt s) ++ (if a_sep s =? 1 then [0] else []) ++ bytes_of (a_info s) ++ (if a_l s =? 1 then be32_of n else [])
  end.
Proof.
  intros alg c s fresh n malloc (_ & _ & _ & _ & E & F & G & H & I & J).
  unfold other_data. destruct ((_ =? 0) || negb malloc); [exact Logic.I|].
  assert (ES : in_bytes (x_salt c) = bytes_of (a_salt s)) by (unfold holds in E; destruct (a_salt s); [rewrite E; reflexivity|destruct E as (m & E & _); rewrite E; reflexivity]).
  assert (EI : in_bytes (x_info c) = bytes_of (a_info s)) by (unfold holds in F; destruct (a_info s); [rewrite F; reflexivity|destruct F as (m & F & _); rewrite F; reflexivity]).
  assert (LS : zlen (in_bytes (x_salt c)) <= in_length (x_salt c)) by (apply holds_len in E; destruct (x_salt c); cbn in *; [exact E|unfold zlen; lia]).
  assert (LI : zlen (in_bytes (x_info c)) <= in_length (x_info c)) by (apply holds_len in F; destruct (x_info c); cbn in *; [exact F|unfold zlen; lia]).
  rewrite <- ES, <- EI, G, H. set (u := in_bytes (x_salt c)) in *. set (w := in_bytes (x_info c)) in *.
  assert (PU : 0 <= zlen u) by (unfold zlen; lia). assert (PW : 0 <= zlen w) by (unfold zlen; lia).
  assert (L4 : zlen (be32_of n) = 4) by reflexivity. set (bl := be32_of n) in *.
  assert (L1 : zlen [0] = 1) by reflexivity.
  destruct I as [I|I], J as [J|J]; rewrite I, J; cbn [Z.eqb Pos.eqb negb add_to app];
    repeat (match goal with |- context [if ?a <=? ?b then _ else _] => destruct (Z.leb_spec a b) as [?H|?H]; [|exfalso; rewrite ?zlen_app', ?L1, ?L4 in *; cbn [zlen] in *; change (zlen (@nil Z)) with 0 in *; lia] end; cbn [add_to app]);
    rewrite ?List.app_nil_r; repeat rewrite <- List.app_assoc; reflexivity.
Qed.
