(** Reuse of the provider's contexts, and their keys. *)
From Verif Require Import Base S_Bytes M_Mac M_Unwrap P_Unwrap M_Cipher S_Cipher P_Cipher P_Cipher2 M_Provider S_Provider P_Provider P_Provider2 P_Provider3.

(** ** Reuse *)
Lemma reinit_ready ks p a key iv encrypt : has_key ks p a key -> length iv = vector_length a ->
  exists p2, init ks p None true (Some iv) no_params encrypt = (true, ks, p2) /\ ready ks p2 a encrypt key /\
    vector p2 = new_vector a iv /\ p_rem p2 = p_rem p /\ p_tag p2 = p_tag p.
Proof.
  intros (Ha & Hi & Ht & Hg & h & Hk & Hl) Hv. unfold init. cbn [p_iv p_alg p_ksize p_key p_delete p_tag p_rem].
  assert (Hle : (length iv <= length (p_iv p))%nat) by (rewrite Hv, Hi; destruct a; cbn; lia).
  rewrite (put_in (p_iv p) iv Hle).
  eexists. split; [reflexivity|]. cbn [p_rem p_tag].
  split.
  { unfold ready. cbn. repeat split; auto.
    - rewrite app_length, skipn_length. lia.
    - exists h. auto. }
  split; [|auto]. unfold vector, new_vector. cbn [p_alg p_iv]. rewrite Ha.
  assert (E12 : vector_length a = 12%nat -> firstn 12 (iv ++ skipn (length iv) (p_iv p)) = iv) by (intros E; apply firstn_exact; lia).
  assert (E16 : vector_length a = 16%nat -> iv ++ skipn (length iv) (p_iv p) = iv) by (intros E; rewrite skipn_all2 by lia; apply app_nil_r).
  destruct a; cbn [vector_length] in *; auto.
Qed.

(** What a former message has left over comes before the next one. *)
Lemma leftover_prepended L ks p a key r ds p2 outs out : good_clib L -> k_ahead L = false -> ready ks p a true key -> p_rem p = r ->
  is_padded a = true -> r <> [] -> zlen r < 16 -> Forall (fun d => zlen d < 2 ^ 31) ds -> completes (zlen r) ds ->
  updates L ks p ds p2 outs -> zlen out = final_room a ->
  exists p3 out3 n, final L ks p2 (Some out) = Done true p3 out3 (Some n) /\
    let text := outs ++ firstn (Z.to_nat n) out3 in
    encryption L a key (vector p) (r ++ concat ds) text /\
    (bytes_ok r -> bytes_ok (concat ds) -> bytes_ok (p_iv p) -> ~ encryption L a key (vector p) (concat ds) text).
Proof.
  intros HL Ha R Hr Hp Hne Hl F Hc U Ho.
  assert (Hb : is_block a = true) by (destruct a; try discriminate; reflexivity).
  assert (Hrl : (length r < Z.to_nat (block_size a))%nat) by (rewrite block_nat, Hb; unfold zlen in Hl; lia).
  pose proof (provider_encrypts_kept L ks p a key None p ds p2 outs r out HL Ha R Hr Hrl I (begins_plain L ks p) F U Ho) as H.
  cbv zeta in H. unfold kept_of in H. rewrite Hb, (kept_whole ds r Hc) in H.
  replace (complete a (r ++ concat ds)) with true in H by (destruct a; try discriminate; reflexivity).
  destruct H as (p3 & out3 & n & E & _ & Henc & _). exists p3, out3, n. split; [exact E|]. cbv zeta. split; [exact Henc|].
  intros Br Bd Bi E2. destruct R as (Halg & _ & _ & Hi & _).
  assert (Hlen : is_chained a = true -> length (vector p) = 16%nat) by (intros; unfold vector; rewrite Halg; destruct a; try discriminate; exact Hi).
  assert (Bv : bytes_ok (vector p)) by (unfold vector; rewrite Halg; destruct a; try discriminate; [constructor|exact Bi]).
  assert (Brd : bytes_ok (r ++ concat ds)) by (apply Forall_app; split; assumption).
  pose proof (encryption_inj L a key (vector p) _ _ _ HL Brd Bd Bv Hlen Henc E2) as Eq.
  apply (f_equal (@length Z)) in Eq. rewrite app_length in Eq. destruct r; [congruence|cbn in Eq; lia].
Qed.

(** ** Keys *)
Lemma lookup_release ks h h' : h <> h' -> lookup (release ks h') h = lookup ks h.
Proof.
  intros N. unfold release. induction ks as [|[x k] ks IH]; [reflexivity|]. cbn [filter fst lookup]. destruct (x =? h') eqn:E; cbn [negb lookup].
  - apply Z.eqb_eq in E. subst. rewrite IH. destruct (h =? h') eqn:E2; [apply Z.eqb_eq in E2; congruence|reflexivity].
  - now rewrite IH.
Qed.
Lemma lookup_released ks h : lookup (release ks h) h = None.
Proof.
  unfold release. induction ks as [|[x k] ks IH]; [reflexivity|]. cbn [filter fst]. destruct (x =? h) eqn:E; cbn [negb lookup]; [exact IH|].
  rewrite Z.eqb_sym, E. exact IH.
Qed.
Lemma lookup_slot ks h o : o <> Some h -> lookup (release_slot ks o) h = lookup ks h.
Proof. intros N. destruct o as [x|]; [|reflexivity]. cbn. apply lookup_release. congruence. Qed.

Lemma set_params_keys ks p o b ks2 p2 : set_ctx_params ks p o = (b, ks2, p2) ->
  (forall h k, lookup ks h = Some k -> p_key p <> Some h -> lookup ks2 h = Some k) /\
  (forall h, p_key p2 = Some h -> p_key p = Some h \/ o_key o = Some h) /\
  (o_key o = None -> ks2 = ks /\ p_key p2 = p_key p /\ (o_delete o = None -> p_delete p2 = p_delete p)).
Proof.
  intros E. unfold set_ctx_params in E.
  set (q := match o_padding o with Some b => set_alg p (with_padding (p_alg p) b) | None => p end) in *.
  assert (Q : p_key q = p_key p /\ p_delete q = p_delete p /\ p_ksize q = p_ksize p) by (unfold q; destruct (o_padding o); auto).
  destruct Q as (Qk & Qd & _).
  set (qo := match o_tag o with Some t => match put (p_tag q) t with Some t => Some (set_tag_bytes q t) | None => None end | None => Some q end) in *.
  assert (QO : match qo with Some x => p_key x = p_key p /\ p_delete x = p_delete p | None => True end).
  { unfold qo. destruct (o_tag o) as [t|]; [destruct (put (p_tag q) t)|]; cbn; auto. }
  destruct qo as [x|].
  2:{ injection E as <- <- <-. split; [auto|]. split; [intros h; rewrite Qk; auto|auto]. }
  destruct QO as (Xk & Xd). destruct (o_key o) as [h0|] eqn:Eo.
  - destruct (lookup ks h0) as [k0|].
    2:{ injection E as <- <- <-. split; [auto|]. split; [intros h; rewrite Xk; auto|discriminate]. }
    destruct (negb (p_ksize x =? zlen k0)).
    { injection E as <- <- <-. split; [auto|]. split; [intros h; rewrite Xk; auto|discriminate]. }
    injection E as <- <- <-. split; [intros h k H1 H2; rewrite lookup_slot; [exact H1|now rewrite Xk]|].
    split; [|discriminate]. intros h. destruct (o_delete o); cbn; auto.
  - injection E as <- <- <-. split; [auto|]. split; [intros h; destruct (o_delete o); cbn; rewrite Xk; auto|].
    intros _. split; [reflexivity|]. split; [destruct (o_delete o); cbn; exact Xk|]. intros ->. exact Xd.
Qed.

Lemma init_keys ks p key header iv o e b ks2 p2 : free_handle ks key -> init ks p key header iv o e = (b, ks2, p2) ->
  (forall h k, lookup ks h = Some k -> p_key p <> Some h -> lookup ks2 h = Some k) /\
  (forall h k, lookup ks h = Some k -> p_key p2 = Some h -> p_key p = Some h \/ o_key o = Some h) /\
  (key = None -> o_key o = None -> ks2 = ks /\ p_key p2 = p_key p /\ (o_delete o = None -> p_delete p2 = p_delete p)).
Proof.
  intros Fr E. unfold init in E. cbn [p_iv p_alg p_ksize p_key p_delete p_tag p_rem] in E.
  set (q := MkP (p_alg p) (p_ksize p) e (p_iv p) (p_key p) (p_delete p) None (p_tag p) (p_rem p)) in *.
  set (qo := match iv with Some v => match put (p_iv p) v with Some v => Some (MkP (p_alg p) (p_ksize p) e v (p_key p) (p_delete p) None (p_tag p) (p_rem p)) | None => None end | None => Some q end) in *.
  assert (QO : match qo with Some x => p_key x = p_key p /\ p_delete x = p_delete p | None => True end).
  { unfold qo. destruct iv as [v|]; [destruct (put (p_iv p) v)|]; cbn; auto. }
  destruct qo as [x|].
  2:{ injection E as <- <- <-. cbn. split; [auto|]. split; [auto|auto]. }
  destruct QO as (Xk & Xd). destruct key as [[k0 [h0|]]|].
  - cbn in Fr.
    assert (A : forall h k, lookup ks h = Some k -> p_key p <> Some h -> lookup ((h0, k0) :: release_slot ks (p_key x)) h = Some k).
    { intros h k H1 H2. cbn. destruct (h =? h0) eqn:E2; [apply Z.eqb_eq in E2; congruence|]. rewrite lookup_slot; [exact H1|now rewrite Xk]. }
    destruct (negb header).
    { injection E as <- <- <-. split; [exact A|]. split; [|discriminate]. cbn. intros h k H1 H2. congruence. }
    destruct (negb (p_ksize x =? zlen k0)).
    { injection E as <- <- <-. split; [exact A|]. split; [|discriminate]. cbn. intros h k H1 H2. congruence. }
    destruct (set_params_keys _ _ _ _ _ _ E) as (S1 & S2 & _). split; [|split; [|discriminate]].
    + intros h k H1 H2. apply S1; [now apply A|]. cbn. congruence.
    + intros h k H1 H2. destruct (S2 h H2) as [H|H]; [|auto]. cbn in H. congruence.
  - injection E as <- <- <-. split; [intros h k H1 H2; rewrite lookup_slot; [exact H1|now rewrite Xk]|].
    split; [intros h k _; rewrite Xk; auto|discriminate].
  - destruct (set_params_keys _ _ _ _ _ _ E) as (S1 & S2 & S3). rewrite Xk in *. split; [exact S1|]. split.
    + intros h k _ H2. exact (S2 h H2).
    + intros _ H. destruct (S3 H) as (-> & Hk & Hd). split; [reflexivity|]. split; [exact Hk|]. rewrite Xd in Hd. exact Hd.
Qed.

Lemma loop_keys fuel L : forall p c out off inp total pos st sum fs st2 p2 c2 out2 pos2 sum2,
  update_loop fuel L p c out off inp total pos st sum fs = Loop st2 p2 c2 out2 pos2 sum2 -> p_key p2 = p_key p /\ p_delete p2 = p_delete p.
Proof.
  induction fuel as [|fuel IH]; intros p c out off inp total pos st sum fs st2 p2 c2 out2 pos2 sum2 E; cbn [update_loop] in E.
  - destruct (total <? block_size (p_alg p)); [|discriminate]. injection E as <- <- <- <- <- <-. auto.
  - destruct (total <? block_size (p_alg p)); [injection E as <- <- <- <- <- <-; auto|].
    destruct (p_rem p) as [|x r].
    + destruct (process L c _ _ _ _) as [s c1 b1 n1 k1 t1|]; [|discriminate]. destruct s; apply IH in E; exact E.
    + destruct (process L c _ _ _ _) as [s c1 b1 n1 k1 t1|]; [|discriminate]. destruct s; apply IH in E; exact E.
Qed.
Lemma cipher_keys L ks p out inp refused pf lf b p2 o n : cipher_cipher L ks p out inp refused pf lf = Done b p2 o n ->
  p_key p2 = p_key p /\ p_delete p2 = p_delete p.
Proof.
  intros E. unfold cipher_cipher in E. destruct (match p_key p with None => true | Some _ => false end); [injection E as <- <- <- <-; auto|].
  destruct (match p_cipher p with Some c => Some c | None => _ end) as [c|]; [|injection E as <- <- <- <-; auto].
  destruct out as [out|]; [|injection E as <- <- <- <-; auto]. destruct inp as [d|].
  - destruct (update_loop _ _ _ _ _ _ _ _ _ _ _ _) as [st p1 c1 out1 pos sum| |] eqn:El; try discriminate.
    apply loop_keys in El. destruct (pos <? length d)%nat; destruct st; injection E as <- <- <- <-; exact El.
  - destruct (match p_alg (set_cipher p (Some c)) with CBC | ECB => true | _ => false end).
    + destruct (p_rem (set_cipher p (Some c))); injection E as <- <- <- <-; auto.
    + destruct (process_last _ _ _ _ _ _ _) as [st c1 b1 n1 k1 t1|]; [|discriminate].
      destruct t1; destruct st; injection E as <- <- <- <-; auto.
Qed.

Lemma used_keys L ks p u ks2 p2 : used L ks p u ks2 p2 ->
  (forall h k, lookup ks h = Some k -> p_key p <> Some h -> lookup ks2 h = Some k) /\
  (forall h k, lookup ks h = Some k -> p_key p2 = Some h -> p_key p = Some h \/ gives u h) /\
  (same_key u -> ks2 = ks /\ p_key p2 = p_key p /\ p_delete p2 = p_delete p).
Proof.
  destruct u as [key header iv o e|o|out inp refused pf lf]; cbn [used gives same_key].
  - intros (Fr & b & E). destruct (init_keys _ _ _ _ _ _ _ _ _ _ Fr E) as (A & B & C). split; [exact A|]. split; [exact B|].
    intros (H1 & H2 & H3). destruct (C H1 H2) as (D1 & D2 & D3). auto.
  - intros (b & E). destruct (set_params_keys _ _ _ _ _ _ E) as (A & B & C). split; [exact A|]. split; [intros h k _; apply B|].
    intros (H1 & H2). destruct (C H1) as (D1 & D2 & D3). auto.
  - intros (-> & b & o & n & E). apply cipher_keys in E. destruct E as (E1 & E2). split; [auto|]. rewrite E1. split; auto.
Qed.

Lemma provider_others L ks p us ks2 p2 h k : uses L ks p us ks2 p2 -> lookup ks h = Some k -> p_key p <> Some h ->
  Forall (fun u => ~ gives u h) us -> lookup ks2 h = Some k /\ lookup (freectx ks2 p2) h = Some k.
Proof.
  induction 1 as [ks p|ks p u ks1 p1 us ks2 p2 H U IH]; intros Hl Hk F.
  - split; [exact Hl|]. unfold freectx. destruct (p_delete p); [|exact Hl]. rewrite lookup_slot; assumption.
  - inversion F as [|x l F1 F2]; subst. destruct (used_keys L ks p u ks1 p1 H) as (A & B & _).
    apply IH; [now apply A| |exact F2]. intros E. destruct (B h k Hl E); contradiction.
Qed.

Lemma provider_same L ks p us ks2 p2 : uses L ks p us ks2 p2 -> Forall same_key us -> ks2 = ks /\ p_key p2 = p_key p /\ p_delete p2 = p_delete p.
Proof.
  induction 1 as [ks p|ks p u ks1 p1 us ks2 p2 H U IH]; intros F; [auto|].
  inversion F as [|x l F1 F2]; subst. destruct (used_keys L ks p u ks1 p1 H) as (_ & _ & C). destruct (C F1) as (-> & E1 & E2).
  destruct (IH F2) as (-> & E3 & E4). split; [reflexivity|]. split; congruence.
Qed.

Lemma provider_kept L ks a n iv o e ks1 p1 us ks2 p2 h k : o_key o = Some h -> o_delete o <> Some true -> lookup ks h = Some k ->
  init ks (newctx a n) None true iv o e = (true, ks1, p1) -> uses L ks1 p1 us ks2 p2 -> Forall same_key us ->
  ks1 = ks /\ ks2 = ks /\ freectx ks2 p2 = ks.
Proof.
  intros Ho Hd Hl E U F.
  assert (E1 : ks1 = ks /\ p_key p1 = Some h /\ p_delete p1 = false).
  { unfold init in E. cbn [p_iv p_alg p_ksize p_key p_delete p_tag p_rem newctx] in E.
    destruct (match iv with Some v => _ | None => _ end) as [q|] eqn:Eq; [|discriminate].
    assert (Q : p_key q = None /\ p_delete q = false /\ p_ksize q = n).
    { destruct iv as [v|]; [destruct (put (repeat 0 16) v); [|discriminate]|]; injection Eq as <-; auto. }
    destruct Q as (Qk & Qd & Qn). unfold set_ctx_params in E. rewrite Ho, Hl in E.
    set (q1 := match o_padding o with Some b => set_alg q (with_padding (p_alg q) b) | None => q end) in *.
    assert (Q1 : p_key q1 = None /\ p_delete q1 = false) by (unfold q1; destruct (o_padding o); auto).
    destruct (match o_tag o with Some t => _ | None => _ end) as [q2|] eqn:E2; [|discriminate].
    assert (Q2 : p_key q2 = None /\ p_delete q2 = false).
    { destruct (o_tag o) as [t|]; [destruct (put (p_tag q1) t); [|discriminate]|]; injection E2 as <-; auto. }
    destruct Q2 as (Q2 & Q3). destruct (negb (p_ksize q2 =? zlen k)); [discriminate|]. injection E as <- <-. rewrite Q2. cbn.
    split; [reflexivity|]. destruct (o_delete o) as [[|]|]; cbn; auto. congruence. }
  destruct E1 as (-> & _ & D1). destruct (provider_same L ks p1 us ks2 p2 U F) as (-> & _ & D2).
  split; [reflexivity|]. split; [reflexivity|]. unfold freectx. now rewrite D2, D1.
Qed.

Lemma provider_released L ks a n k h iv e ks1 p1 us ks2 p2 : lookup ks h = None ->
  init ks (newctx a n) (Some (k, Some h)) true iv no_params e = (true, ks1, p1) -> uses L ks1 p1 us ks2 p2 -> Forall same_key us ->
  lookup ks2 h = Some k /\ forall h2, lookup (freectx ks2 p2) h2 = lookup ks h2.
Proof.
  intros Hl E U F.
  assert (E1 : ks1 = (h, k) :: ks /\ p_key p1 = Some h /\ p_delete p1 = true).
  { unfold init in E. cbn [p_iv p_alg p_ksize p_key p_delete p_tag p_rem newctx] in E.
    destruct (match iv with Some v => _ | None => _ end) as [q|] eqn:Eq; [|discriminate].
    assert (Q : p_key q = None).
    { destruct iv as [v|]; [destruct (put (repeat 0 16) v); [|discriminate]|]; injection Eq as <-; auto. }
    rewrite Q in E. cbn [negb release_slot] in E. destruct (negb (p_ksize q =? zlen k)); [discriminate|].
    injection E as <- <-. auto. }
  destruct E1 as (-> & K1 & D1). destruct (provider_same L _ p1 us ks2 p2 U F) as (-> & K2 & D2).
  split; [cbn; now rewrite Z.eqb_refl|]. intros h2. unfold freectx. rewrite D2, D1, K2, K1. cbn [release_slot].
  destruct (Z.eq_dec h2 h) as [->|N].
  - rewrite lookup_released. now symmetry.
  - rewrite lookup_release by exact N. cbn. apply Z.eqb_neq in N. now rewrite N.
Qed.

(** The same key once more: the context releases it and goes on with it. *)
Lemma provider_same_key_lost L ks p h k : p_key p = Some h -> lookup ks h = Some k -> zlen k = p_ksize p ->
  exists ks2 p2, set_ctx_params ks p (MkParams None None (Some h) None) = (true, ks2, p2) /\ lookup ks2 h = None /\ p_key p2 = Some h /\
    (p_cipher p = None -> forall out inp refused pf lf, exists p3 o n, cipher_cipher L ks2 p2 out inp refused pf lf = Done false p3 o n).
Proof.
  intros Hk Hl Hz. unfold set_ctx_params. cbn [o_padding o_tag o_key o_delete]. rewrite Hl, Hz, Z.eqb_refl, Hk. cbn [negb release_slot].
  eexists _, _. split; [reflexivity|]. split; [apply lookup_released|]. split; [reflexivity|].
  intros Hc out inp refused pf lf. unfold cipher_cipher. cbn [p_key set_key p_cipher]. rewrite Hc.
  assert (Es : forall aad, start (release ks h) (set_key p (Some h) (p_delete p)) aad refused = None).
  { intros aad. unfold start. cbn [p_key set_key]. now rewrite lookup_released. }
  rewrite Es. do 3 eexists. reflexivity.
Qed.

(** ** Keys of MACs *)
Lemma mac_set_keys ks m okey d b ks2 m2 : mac_set_ctx_params ks m okey d = (b, ks2, m2) ->
  (forall h k, lookup ks h = Some k -> m_key m <> Some h -> lookup ks2 h = Some k) /\
  (forall h, m_key m2 = Some h -> m_key m = Some h \/ okey = Some h) /\
  (okey = None -> ks2 = ks /\ m_key m2 = m_key m /\ (d = None -> m_delete m2 = m_delete m)).
Proof.
  intros E. unfold mac_set_ctx_params in E. destruct okey as [h0|].
  - assert (A : forall h k, lookup ks h = Some k -> m_key m <> Some h -> lookup (release_slot ks (m_key m)) h = Some k)
      by (intros h k H1 H2; now rewrite lookup_slot).
    destruct (lookup (release_slot ks (m_key m)) h0); injection E as <- <- <-; (split; [exact A|]); (split; [|discriminate]);
      [destruct d|]; cbn; auto.
  - injection E as <- <- <-. split; [auto|]. destruct d; cbn; (split; [auto|]); intros _; repeat split; auto; discriminate.
Qed.
Lemma mac_used_keys ks m u ks2 m2 : mac_used ks m u ks2 m2 ->
  (forall h k, lookup ks h = Some k -> m_key m <> Some h -> lookup ks2 h = Some k) /\
  (forall h k, lookup ks h = Some k -> m_key m2 = Some h -> m_key m = Some h \/ mac_gives u h) /\
  (mac_same_key u -> ks2 = ks /\ m_key m2 = m_key m /\ m_delete m2 = m_delete m).
Proof.
  destruct u as [key header okey d refused|okey d]; cbn [mac_used mac_gives mac_same_key].
  2:{ intros (b & E). destruct (mac_set_keys _ _ _ _ _ _ _ E) as (A & B & C). split; [exact A|]. split; [intros h k _; apply B|].
      intros (H1 & H2). destruct (C H1) as (D1 & D2 & D3). auto. }
  intros (Fr & b & E). unfold mac_init in E. cbn [m_key m_delete] in E.
  set (go := fun (ks : keys) (m : pmac) => match mac_set_ctx_params ks m okey d with
    | (true, ks, m) => match m_key m with
        | Some h => if refused || match lookup ks h with Some _ => false | None => true end then (false, ks, m)
                    else (true, ks, MkPMac (m_key m) (m_delete m) true)
        | None => (false, ks, m) end
    | r => r end) in E.
  assert (G : forall ks m ks2 m2 b, go ks m = (b, ks2, m2) -> exists b' m', mac_set_ctx_params ks m okey d = (b', ks2, m') /\
      m_key m2 = m_key m' /\ m_delete m2 = m_delete m').
  { intros ks' m' ks2' m2' b' G. unfold go in G. destruct (mac_set_ctx_params ks' m' okey d) as [[[|] k1] m1] eqn:E1.
    - destruct (m_key m1) as [h1|] eqn:Ek.
      + destruct (refused || _); injection G as <- <- <-; exists true, m1; split; auto.
      + injection G as <- <- <-. exists true, m1. auto.
    - injection G as <- <- <-. exists false, m1. auto. }
  destruct key as [[k0 [h0|]]|].
  - cbn in Fr.
    assert (A : forall h k, lookup ks h = Some k -> m_key m <> Some h -> lookup ((h0, k0) :: release_slot ks (m_key m)) h = Some k).
    { intros h k H1 H2. cbn. destruct (h =? h0) eqn:E2; [apply Z.eqb_eq in E2; congruence|]. now rewrite lookup_slot. }
    destruct (negb header).
    { injection E as <- <- <-. split; [exact A|]. split; [cbn; intros h k H1 H2; congruence|intros (H & _); discriminate]. }
    destruct (G _ _ _ _ _ E) as (b' & m' & E1 & K1 & D1). destruct (mac_set_keys _ _ _ _ _ _ _ E1) as (S1 & S2 & _).
    split; [|split; [|intros (H & _); discriminate]].
    + intros h k H1 H2. apply S1; [now apply A|]. cbn. congruence.
    + intros h k H1 H2. rewrite K1 in H2. destruct (S2 h H2) as [H|H]; [|auto]. cbn in H. congruence.
  - injection E as <- <- <-. split; [intros h k H1 H2; now rewrite lookup_slot|]. split; [auto|intros (H & _); discriminate].
  - destruct (G _ _ _ _ _ E) as (b' & m' & E1 & K1 & D1). destruct (mac_set_keys _ _ _ _ _ _ _ E1) as (S1 & S2 & S3). cbn [m_key m_delete] in *.
    rewrite K1, D1. split; [exact S1|]. split; [intros h k _; apply S2|]. intros (_ & H2 & H3). destruct (S3 H2) as (T1 & T2 & T3). auto.
Qed.
Lemma mac_others ks m us ks2 m2 h k : mac_uses ks m us ks2 m2 -> lookup ks h = Some k -> m_key m <> Some h ->
  Forall (fun u => ~ mac_gives u h) us -> lookup ks2 h = Some k /\ lookup (mac_freectx ks2 m2) h = Some k.
Proof.
  induction 1 as [ks m|ks m u ks1 m1 us ks2 m2 H U IH]; intros Hl Hk F.
  - split; [exact Hl|]. unfold mac_freectx. destruct (m_delete m); [|exact Hl]. rewrite lookup_slot; assumption.
  - inversion F as [|x l F1 F2]; subst. destruct (mac_used_keys ks m u ks1 m1 H) as (A & B & _).
    apply IH; [now apply A| |exact F2]. intros E. destruct (B h k Hl E); contradiction.
Qed.
Lemma mac_same ks m us ks2 m2 : mac_uses ks m us ks2 m2 -> Forall mac_same_key us -> ks2 = ks /\ m_key m2 = m_key m /\ m_delete m2 = m_delete m.
Proof.
  induction 1 as [ks m|ks m u ks1 m1 us ks2 m2 H U IH]; intros F; [auto|].
  inversion F as [|x l F1 F2]; subst. destruct (mac_used_keys ks m u ks1 m1 H) as (_ & _ & C). destruct (C F1) as (-> & E1 & E2).
  destruct (IH F2) as (-> & E3 & E4). split; [reflexivity|]. split; congruence.
Qed.
Lemma mac_kept ks d refused b ks1 m1 us ks2 m2 h k : d <> Some true -> lookup ks h = Some k ->
  mac_init ks mac_newctx None true (Some h) d refused = (b, ks1, m1) -> mac_uses ks1 m1 us ks2 m2 -> Forall mac_same_key us ->
  b = negb refused /\ ks2 = ks /\ mac_freectx ks2 m2 = ks.
Proof.
  intros Hd Hl E U F.
  assert (E1 : b = negb refused /\ ks1 = ks /\ m_delete m1 = false).
  { unfold mac_init, mac_set_ctx_params in E. cbn [m_key m_delete m_running mac_newctx release_slot] in E. rewrite Hl in E.
    destruct d as [[|]|]; [congruence| |]; cbn [m_key m_delete] in E; rewrite Hl in E; destruct refused; cbn in E; injection E as <- <- <-; auto. }
  destruct E1 as (-> & -> & D1). destruct (mac_same ks m1 us ks2 m2 U F) as (-> & _ & D2).
  split; [reflexivity|]. split; [reflexivity|]. unfold mac_freectx. now rewrite D2, D1.
Qed.
Lemma mac_released ks k h refused b ks1 m1 us ks2 m2 : lookup ks h = None ->
  mac_init ks mac_newctx (Some (k, Some h)) true None None refused = (b, ks1, m1) -> mac_uses ks1 m1 us ks2 m2 -> Forall mac_same_key us ->
  b = negb refused /\ lookup ks2 h = Some k /\ forall h2, lookup (mac_freectx ks2 m2) h2 = lookup ks h2.
Proof.
  intros Hl E U F.
  assert (E1 : b = negb refused /\ ks1 = (h, k) :: ks /\ m_key m1 = Some h /\ m_delete m1 = true).
  { unfold mac_init, mac_set_ctx_params in E. cbn [m_key m_delete m_running mac_newctx release_slot negb lookup] in E. rewrite Z.eqb_refl in E.
    destruct refused; cbn in E; injection E as <- <- <-; auto. }
  destruct E1 as (-> & -> & K1 & D1). destruct (mac_same _ m1 us ks2 m2 U F) as (-> & K2 & D2).
  split; [reflexivity|]. split; [cbn; now rewrite Z.eqb_refl|]. intros h2. unfold mac_freectx. rewrite D2, D1, K2, K1. cbn [release_slot].
  destruct (Z.eq_dec h2 h) as [->|N].
  - rewrite lookup_released. now symmetry.
  - rewrite lookup_release by exact N. cbn. apply Z.eqb_neq in N. now rewrite N.
Qed.
Lemma mac_same_key_lost ks m h d : m_key m = Some h ->
  exists m2, mac_init ks m None true (Some h) d false = (false, release ks h, m2) /\ lookup (release ks h) h = None.
Proof.
  intros Hk. unfold mac_init, mac_set_ctx_params. cbn [m_key m_delete]. rewrite Hk. cbn [release_slot]. rewrite lookup_released.
  eexists. split; reflexivity.
Qed.
