(** Properties of the provider's ciphers. *)
From Verif Require Import Base S_Bytes M_Mac M_Unwrap P_Unwrap M_Cipher S_Cipher P_Cipher P_Cipher2 M_Provider S_Provider P_Provider P_Provider2.

Lemma zlen_nil_iff (r : list Z) : zlen r = 0 <-> r = [].
Proof. unfold zlen. destruct r; cbn; split; (congruence || lia). Qed.

Lemma joined_app r d : zlen r = 0 \/ d = [] \/ 16 <= zlen r + zlen d -> joined r d = r ++ d.
Proof.
  intros H. unfold joined. destruct r as [|x r]; [reflexivity|]. destruct d as [|y d]; [reflexivity|].
  destruct H as [H|[H|H]]; [apply zlen_nil_iff in H; discriminate|discriminate|].
  rewrite (proj2 (Z.ltb_ge _ _) H). reflexivity.
Qed.
Lemma rest_length (all : list Z) : zlen (skipn (16 * (length all / 16)) all) = zlen all mod 16.
Proof.
  unfold zlen. rewrite skipn_length. pose proof (Nat.div_mod (length all) 16 ltac:(lia)) as D.
  transitivity (Z.of_nat (length all mod 16)); [f_equal; lia|]. rewrite Nat2Z.inj_mod. reflexivity.
Qed.
Lemma kept_whole ds : forall r, completes (zlen r) ds -> kept r ds = r ++ concat ds.
Proof.
  induction ds as [|d ds IH]; intros r H; cbn [kept concat].
  - now rewrite app_nil_r.
  - destruct H as (H1 & H2). rewrite (joined_app r d H1).
    assert (E : (zlen r + zlen d) mod 16 = zlen (skipn (16 * (length (r ++ d) / 16)) (r ++ d))).
    { rewrite rest_length. unfold zlen. rewrite app_length, Nat2Z.inj_add. reflexivity. }
    rewrite E in H2. rewrite (IH _ H2). rewrite app_assoc, firstn_skipn. now rewrite app_assoc.
Qed.

(** A message from associated data to the last update. *)
Lemma message L ks p a encrypt key aad p1 ds p2 outs r : good_clib L -> k_ahead L = false -> ready ks p a encrypt key -> p_rem p = r ->
  (length r < Z.to_nat (block_size a))%nat -> aad_short aad -> begins L ks p aad p1 ->
  Forall (fun d => zlen d < 2 ^ 31) ds -> updates L ks p1 ds p2 outs ->
  exists P1 P2 c0 c ins r2 h, create a encrypt key P1 P2 = Some c0 /\ short_aad a P2 /\ vector_of a P1 P2 = vector p /\
    associated_of a P2 = associated a aad /\ reached L c0 c ins outs /\ bs_ok a p2 r2 /\ p_key p2 = Some h /\ sees ks p2 c /\
    p_tag p2 = p_tag p /\ length (p_tag p2) = 16%nat /\ ins ++ r2 = kept_of a r ds.
Proof.
  intros HL Ha R Hr Hrl Hs B F U.
  destruct (begins_sees L ks p a encrypt key aad p1 R Hs B) as (P1 & P2 & c0 & S & C & Sh & V & A & Al & Hr1).
  destruct R as (Halg & _ & _ & _ & Ht & _ & h & Hk & _).
  assert (B1 : bs_ok a p1 r).
  { split; [rewrite <- Halg; apply Al|]. split; [rewrite <- Hr; exact Hr1|exact Hrl]. }
  assert (K1 : p_key p1 = Some h) by (rewrite <- Hk; apply Al).
  destruct (all_updates L a encrypt key P1 P2 c0 ks h HL Ha C Sh ds p1 c0 [] [] r p2 outs (reached_start L c0) B1 K1 S F U)
    as (c & ins & r2 & Al2 & B2 & S2 & R2 & Hk2).
  exists P1, P2, c0, c, ins, r2, h. split; [exact C|]. split; [exact Sh|]. split; [exact V|]. split; [exact A|].
  split; [exact R2|]. split; [exact B2|]. split; [rewrite <- K1; apply Al2|]. split; [exact S2|].
  assert (Et : p_tag p2 = p_tag p) by (destruct Al as (_ & _ & _ & _ & _ & E1); destruct Al2 as (_ & _ & _ & _ & _ & E2); congruence).
  split; [exact Et|]. split; [now rewrite Et|exact Hk2].
Qed.

Lemma no_rest a : (length ([] : list Z) < Z.to_nat (block_size a))%nat.
Proof. rewrite block_nat. destruct (is_block a); cbn; lia. Qed.

Lemma kept_of_whole a ds : (is_block a = true -> completes 0 ds) -> kept_of a [] ds = concat ds.
Proof.
  intros H. unfold kept_of. destruct (is_block a); [|reflexivity]. rewrite kept_whole by (apply H; reflexivity). reflexivity.
Qed.

Lemma provider_accepts L ks p a encrypt key aad p1 ds p2 outs d out : good_clib L -> k_ahead L = false -> ready ks p a encrypt key -> p_rem p = [] ->
  aad_short aad -> begins L ks p aad p1 -> Forall (fun d => zlen d < 2 ^ 31) ds -> updates L ks p1 ds p2 outs ->
  zlen d < 2 ^ 31 -> zlen out = update_room a (zlen d) ->
  exists p3 out3 n, update L ks p2 out d = Done true p3 out3 (Some n) /\ length out3 = length out /\ 0 <= n <= zlen out.
Proof.
  intros HL Ha R Hr Hs B F U Hd Ho.
  destruct (message L ks p a encrypt key aad p1 ds p2 outs [] HL Ha R Hr (no_rest a) Hs B F U)
    as (P1 & P2 & c0 & c & ins & r2 & h & C & Sh & _ & _ & R2 & B2 & K2 & S2 & _).
  destruct (one_update L a encrypt key P1 P2 c0 ks h HL Ha C Sh p2 c ins outs r2 out d R2 B2 K2 S2 Hd Ho)
    as (c3 & r3 & p3 & out3 & n & E & _ & _ & _ & Hl & Hn & _).
  eauto 10.
Qed.

Lemma provider_encrypts_kept L ks p a key aad p1 ds p2 outs r out : good_clib L -> k_ahead L = false -> ready ks p a true key -> p_rem p = r ->
  (length r < Z.to_nat (block_size a))%nat -> aad_short aad -> begins L ks p aad p1 ->
  Forall (fun d => zlen d < 2 ^ 31) ds -> updates L ks p1 ds p2 outs -> zlen out = final_room a ->
  let msg := kept_of a r ds in
  if complete a msg
  then exists p3 out3 n, final L ks p2 (Some out) = Done true p3 out3 (Some n) /\ length out3 = length out /\
         let text := outs ++ firstn (Z.to_nat n) out3 in
         encryption L a key (vector p) msg text /\
         (is_aead a = true -> p_tag p3 = tag_of L a key (vector p) (associated a aad) text 16)
  else exists p3, final L ks p2 (Some out) = Done false p3 out (Some 0).
Proof.
  intros HL Ha R Hr Hrl Hs B F U Ho msg.
  destruct (message L ks p a true key aad p1 ds p2 outs r HL Ha R Hr Hrl Hs B F U)
    as (P1 & P2 & c0 & c & ins & r2 & h & C & Sh & V & A & R2 & B2 & K2 & S2 & _ & Ht & Hk).
  pose proof (final_encrypts L ks p2 a key P1 P2 c0 c ins outs r2 h out HL C Sh R2 B2 K2 S2 Ht Ho) as H. cbv zeta in H.
  rewrite Hk, V, A in H. fold msg in H. exact H.
Qed.
Lemma provider_encrypts L ks p a key aad p1 ds p2 outs out : good_clib L -> k_ahead L = false -> ready ks p a true key -> p_rem p = [] ->
  aad_short aad -> begins L ks p aad p1 -> Forall (fun d => zlen d < 2 ^ 31) ds -> updates L ks p1 ds p2 outs ->
  (is_block a = true -> completes 0 ds) -> zlen out = final_room a ->
  let msg := concat ds in
  if complete a msg
  then exists p3 out3 n, final L ks p2 (Some out) = Done true p3 out3 (Some n) /\ length out3 = length out /\
         let text := outs ++ firstn (Z.to_nat n) out3 in
         encryption L a key (vector p) msg text /\
         (is_aead a = true -> p_tag p3 = tag_of L a key (vector p) (associated a aad) text 16)
  else exists p3, final L ks p2 (Some out) = Done false p3 out (Some 0).
Proof.
  intros HL Ha R Hr Hs B F U Hc Ho msg.
  pose proof (provider_encrypts_kept L ks p a key aad p1 ds p2 outs [] out HL Ha R Hr (no_rest a) Hs B F U Ho) as H.
  cbv zeta in H. rewrite (kept_of_whole a ds Hc) in H. exact H.
Qed.

Lemma provider_decrypts L ks p a key aad p1 ds p2 outs out : good_clib L -> k_ahead L = false -> ready ks p a false key -> p_rem p = [] ->
  aad_short aad -> begins L ks p aad p1 -> Forall (fun d => zlen d < 2 ^ 31) ds -> updates L ks p1 ds p2 outs ->
  (is_block a = true -> completes 0 ds) -> zlen out = final_room a ->
  let text := concat ds in
  exists b p3 out3 n, final L ks p2 (Some out) = Done b p3 out3 (Some n) /\ length out3 = length out /\
    (b = true <-> (exists msg, decryption L a key (vector p) text msg) /\
       (is_aead a = true -> p_tag p = tag_of L a key (vector p) (associated a aad) text 16)) /\
    (b = true -> decryption L a key (vector p) text (outs ++ firstn (Z.to_nat n) out3)).
Proof.
  intros HL Ha R Hr Hs B F U Hc Ho text.
  destruct (message L ks p a false key aad p1 ds p2 outs [] HL Ha R Hr (no_rest a) Hs B F U)
    as (P1 & P2 & c0 & c & ins & r2 & h & C & Sh & V & A & R2 & B2 & K2 & S2 & Et & Ht & Hk).
  pose proof (final_decrypts L ks p2 a key P1 P2 c0 c ins outs r2 h out HL C Sh R2 B2 K2 S2 Ht Ho) as H. cbv zeta in H.
  rewrite Hk, V, A, Et, (kept_of_whole a ds Hc) in H. exact H.
Qed.

(** Two contexts: what one encrypts the other decrypts. *)
Lemma provider_round_trip L ks p q a key aad p1 ds p2 outs out p3 out3 n q1 es q2 outs2 out4 : good_clib L -> k_ahead L = false ->
  ready ks p a true key -> p_rem p = [] -> aad_short aad -> begins L ks p aad p1 -> Forall (fun d => zlen d < 2 ^ 31) ds ->
  updates L ks p1 ds p2 outs -> (is_block a = true -> completes 0 ds) -> zlen out = final_room a ->
  final L ks p2 (Some out) = Done true p3 out3 (Some n) ->
  bytes_ok (concat ds) -> bytes_ok (vector p) ->
  ready ks q a false key -> p_rem q = [] -> vector q = vector p -> (is_aead a = true -> p_tag q = p_tag p3) ->
  begins L ks q aad q1 -> Forall (fun d => zlen d < 2 ^ 31) es -> updates L ks q1 es q2 outs2 -> (is_block a = true -> completes 0 es) ->
  zlen out4 = final_room a -> concat es = outs ++ firstn (Z.to_nat n) out3 ->
  exists q3 out5 m, final L ks q2 (Some out4) = Done true q3 out5 (Some m) /\ outs2 ++ firstn (Z.to_nat m) out5 = concat ds.
Proof.
  intros HL Ha R Hr Hs B F U Hc Ho E Hb Hv R' Hr' Vq Tq B' F' U' Hc' Ho' Hcat.
  pose proof (provider_encrypts L ks p a key aad p1 ds p2 outs out HL Ha R Hr Hs B F U Hc Ho) as H. cbv zeta in H.
  destruct (complete a (concat ds)); [|destruct H as (? & H); congruence].
  destruct H as (p3' & out3' & n' & E' & _ & Henc & Htag). rewrite E in E'. injection E' as <- <- <-.
  destruct (provider_decrypts L ks q a key aad q1 es q2 outs2 out4 HL Ha R' Hr' Hs B' F' U' Hc' Ho')
    as (b & q3 & out5 & m & E5 & _ & Hiff & Hdec).
  rewrite Hcat, Vq in *.
  assert (Hlen : is_chained a = true -> length (vector p) = 16%nat).
  { intros Hch. destruct R as (Halg & _ & _ & Hi & _). unfold vector. rewrite Halg. destruct a; try discriminate; exact Hi. }
  pose proof (decryption_encryption L a key (vector p) _ _ HL Hb Hv Hlen Henc) as D.
  assert (Eb : b = true).
  { apply Hiff. split; [eexists; exact D|]. intros Hae. rewrite (Tq Hae). exact (Htag Hae). }
  subst b. exists q3, out5, m. split; [exact E5|].
  exact (decryption_fun L a key (vector p) _ _ _ (Hdec eq_refl) D).
Qed.

(** ** Lost pieces *)
Lemma encryption_inj L a key iv m1 m2 text : good_clib L -> bytes_ok m1 -> bytes_ok m2 -> bytes_ok iv ->
  (is_chained a = true -> length iv = 16%nat) -> encryption L a key iv m1 text -> encryption L a key iv m2 text -> m1 = m2.
Proof.
  intros HL H1 H2 Hi Hl E1 E2.
  eapply decryption_fun; eapply decryption_encryption; eassumption.
Qed.

Lemma kept_short x y : x <> [] -> y <> [] -> zlen x + zlen y < 16 -> kept [] [x; y] = y.
Proof.
  intros Hx Hy H. cbn [kept]. assert (Ej : joined [] x = x) by reflexivity. rewrite Ej.
  assert (E : (length x / 16 = 0)%nat) by (apply Nat.div_small; unfold zlen in H; lia). rewrite E. change (16 * 0)%nat with 0%nat. cbn [firstn skipn List.app].
  assert (Ey : joined x y = y).
  { unfold joined. destruct x; [congruence|]. destruct y; [congruence|]. now rewrite (proj2 (Z.ltb_lt _ _) H). }
  rewrite Ey. assert (E2 : (length y / 16 = 0)%nat) by (apply Nat.div_small; unfold zlen in H; lia). rewrite E2. reflexivity.
Qed.

Lemma provider_lost L ks p a key x y p2 outs out : good_clib L -> k_ahead L = false -> ready ks p a true key -> p_rem p = [] ->
  is_padded a = true -> x <> [] -> y <> [] -> zlen x + zlen y < 16 -> updates L ks p [x; y] p2 outs -> zlen out = final_room a ->
  exists p3 out3 n, final L ks p2 (Some out) = Done true p3 out3 (Some n) /\
    let text := outs ++ firstn (Z.to_nat n) out3 in
    encryption L a key (vector p) y text /\
    (bytes_ok x -> bytes_ok y -> bytes_ok (p_iv p) -> ~ encryption L a key (vector p) (x ++ y) text).
Proof.
  intros HL Ha R Hr Hp Hx Hy Hxy U Ho.
  assert (F : Forall (fun d : list Z => zlen d < 2 ^ 31) [x; y]) by (repeat constructor; unfold zlen in *; lia).
  pose proof (provider_encrypts_kept L ks p a key None p [x; y] p2 outs [] out HL Ha R Hr (no_rest a) I (begins_plain L ks p) F U Ho) as H.
  assert (Hb : is_block a = true) by (destruct a; try discriminate; reflexivity).
  cbv zeta in H. unfold kept_of in H. rewrite Hb, (kept_short x y Hx Hy Hxy) in H.
  replace (complete a y) with true in H by (destruct a; try discriminate; reflexivity).
  destruct H as (p3 & out3 & n & E & _ & Henc & _). exists p3, out3, n. split; [exact E|]. cbv zeta. split; [exact Henc|].
  intros Bx By Bi E2. destruct R as (Halg & _ & _ & Hi & _).
  assert (Hlen : is_chained a = true -> length (vector p) = 16%nat) by (intros; unfold vector; rewrite Halg; destruct a; try discriminate; exact Hi).
  assert (Bv : bytes_ok (vector p)) by (unfold vector; rewrite Halg; destruct a; try discriminate; [constructor|exact Bi]).
  assert (Bxy : bytes_ok (x ++ y)) by (apply Forall_app; split; assumption).
  pose proof (encryption_inj L a key (vector p) _ _ _ HL By Bxy Bv Hlen Henc E2) as Eq.
  apply (f_equal (@length Z)) in Eq. rewrite app_length in Eq. destruct x; [congruence|cbn in Eq; lia].
Qed.

(** ** Associated data and tags *)
Lemma provider_aad_ignored L ks p a encrypt key d1 p1 d2 n : ready ks p a encrypt key -> aad_short (Some d1) -> update_aad L ks p d1 = Done true p1 [] n ->
  update_aad L ks p1 d2 = Done true p1 [] (Some 0).
Proof.
  intros R S E. destruct (begins_sees L ks p a encrypt key (Some d1) p1 R S (begins_aad L ks p d1 p1 n E)) as (P1 & P2 & c0 & _ & _ & _ & _ & _ & Al & _).
  destruct R as (_ & _ & Hn & _ & _ & _ & h & Hk & _).
  assert (K1 : p_key p1 = Some h) by (rewrite <- Hk; apply Al).
  assert (C1 : exists c, p_cipher p1 = Some c).
  { unfold update_aad, cipher_cipher in E. rewrite Hk, Hn in E. destruct (start ks p (Bytes d1) false); [|discriminate].
    injection E as <- _. eexists. reflexivity. }
  destruct C1 as (c & C1). unfold update_aad, cipher_cipher. rewrite K1, C1. f_equal. unfold set_cipher. destruct p1; cbn in *. now rewrite C1.
Qed.

Lemma provider_null_final L ks p a encrypt key aad p1 ds p2 outs : good_clib L -> k_ahead L = false -> ready ks p a encrypt key -> p_rem p = [] ->
  aad_short aad -> begins L ks p aad p1 -> Forall (fun d => zlen d < 2 ^ 31) ds -> updates L ks p1 ds p2 outs ->
  exists p3, final L ks p2 None = Done true p3 [] (Some 0).
Proof.
  intros HL Ha R Hr Hs B F U.
  destruct (message L ks p a encrypt key aad p1 ds p2 outs [] HL Ha R Hr (no_rest a) Hs B F U)
    as (P1 & P2 & c0 & c & ins & r2 & h & C & Sh & V & A & R2 & B2 & K2 & S2 & _).
  unfold final, cipher_cipher. rewrite K2.
  destruct S2 as [S2|(S2 & S3)]; rewrite S2; [eexists; reflexivity|]. rewrite S3. eexists; reflexivity.
Qed.

(** ** Failures below *)
Lemma provider_failure L ks p out d v pf lf p2 out2 n h c : p_key p = Some h -> p_cipher p = Some c -> p_rem p = [] ->
  cipher_cipher L ks p (Some out) (Some d) false (Some v :: pf) lf = Done true p2 out2 (Some n) -> zlen d < block_size (p_alg p).
Proof.
  intros Hk Hc Hr E. destruct (Z.lt_ge_cases (zlen d) (block_size (p_alg p))) as [H|H]; [exact H|exfalso].
  unfold cipher_cipher in E. rewrite Hk, Hc in E.
  assert (Hone : exists one, one = 1%nat) by eauto. destruct Hone as (one & Hone).
  replace (update_loop 2) with (update_loop (S one)) in E by (now rewrite Hone).
  cbn [update_loop p_rem set_cipher p_alg] in E. rewrite Hr in E. cbn [zlen length Z.of_nat Z.add] in E.
  rewrite !Z.add_0_l in E.
  rewrite (proj2 (Z.ltb_ge _ _) H) in E. cbn [hd tl] in E.
  assert (Hb : 0 < block_size (p_alg p)) by (unfold block_size; destruct (is_block (p_alg p)); lia).
  assert (Hz : 0 <= zlen d) by (unfold zlen; lia).
  pose proof (floor_facts (zlen d) (block_size (p_alg p)) Hz Hb) as (M1 & M2 & _).
  rewrite Z.sub_0_r in E. set (m := zlen d / block_size (p_alg p) * block_size (p_alg p)) in *.
  destruct (process_fault L c (skipn 0 out) (skipn 0 d) m v) as (st & c2 & n2 & Ep & Hst). rewrite Ep in E.
  subst one. cbn [update_loop p_rem p_alg set_cipher set_rem] in E.
  assert (Eo : (zlen d - m <? block_size (p_alg p)) = true) by (apply Z.ltb_lt; lia).
  rewrite !Eo in E. destruct st; try congruence.
Qed.
