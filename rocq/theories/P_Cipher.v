(** Proofs about cipher contexts on bytes. *)
From Verif Require Import Base M_Memory S_Bytes M_Mac M_Unwrap P_Unwrap M_Cipher S_Cipher.

(** ** Lists *)
Lemma xor_length a b : length (xor a b) = Nat.min (length a) (length b).
Proof. unfold xor. now rewrite map_length, combine_length. Qed.
Lemma xor_nth a b i : (i < length a)%nat -> (i < length b)%nat -> nth i (xor a b) 0 = Z.lxor (nth i a 0) (nth i b 0).
Proof.
  revert b i; induction a as [|x a IH]; intros [|y b] i Ha Hb; cbn in *; try lia.
  destruct i; [reflexivity|]. apply IH; lia.
Qed.
Lemma len16_concat bs : Forall (fun b : list Z => length b = 16%nat) bs -> length (concat bs) = (16 * length bs)%nat.
Proof. induction 1 as [|b bs Hb _ IH]; cbn; [reflexivity|]. rewrite app_length, Hb, IH. lia. Qed.

Lemma split_blocks (l : list Z) : exists bs rest, l = concat bs ++ rest /\
  Forall (fun b : list Z => length b = 16%nat) bs /\ (length rest < 16)%nat /\ length bs = (length l / 16)%nat.
Proof.
  remember (length l) as n eqn:En. revert l En. induction n as [n IH] using lt_wf_ind. intros l ->.
  destruct (Nat.lt_ge_cases (length l) 16) as [H|H].
  { exists [], l. rewrite Nat.div_small by lia. repeat split; auto. }
  destruct (IH (length (skipn 16 l))) with (l := skipn 16 l) as (bs & rest & E & Hb & Hr & Hn); try reflexivity.
  { rewrite skipn_length. lia. }
  exists (firstn 16 l :: bs), rest. cbn [concat]. rewrite <- app_assoc, <- E, firstn_skipn.
  repeat split; auto.
  - constructor; auto. rewrite firstn_length. lia.
  - cbn [length]. rewrite Hn, skipn_length.
    replace (length l) with (1 * 16 + (length l - 16))%nat at 2 by lia. rewrite Nat.div_add_l by lia. lia.
Qed.
Lemma split_full (l : list Z) : (length l mod 16 = 0)%nat -> exists bs, in_blocks l bs /\ length bs = (length l / 16)%nat.
Proof.
  intros H. destruct (split_blocks l) as (bs & rest & E & Hb & Hr & Hn).
  assert (rest = []) as ->.
  { apply length_zero_iff_nil. pose proof (len16_concat _ Hb) as Hc. rewrite E, app_length, Hc in H.
    rewrite Nat.add_comm, Nat.mul_comm, Nat.mod_add, Nat.mod_small in H by lia. exact H. }
  exists bs. rewrite app_nil_r in E. repeat split; auto.
Qed.
Lemma in_blocks_app a b xs ys : in_blocks a xs -> in_blocks b ys -> in_blocks (a ++ b) (xs ++ ys).
Proof. intros [<- Hx] [<- Hy]. split; [apply concat_app|]. now apply Forall_app. Qed.
Lemma in_blocks_unique a xs : in_blocks a xs -> forall ys, in_blocks a ys -> xs = ys.
Proof.
  revert a. induction xs as [|x xs IH]; intros a [<- Hx] ys [E Hy].
  - destruct ys as [|y ys]; [reflexivity|]. inversion Hy; subst. cbn in E. destruct y; discriminate.
  - inversion Hx; subst. destruct ys as [|y ys].
    + cbn in E. destruct x; discriminate.
    + inversion Hy; subst. cbn in E.
      assert (y = x /\ concat ys = concat xs) as [-> E2].
      { assert (F : firstn 16 (y ++ concat ys) = firstn 16 (x ++ concat xs)) by now rewrite E.
        assert (G : skipn 16 (y ++ concat ys) = skipn 16 (x ++ concat xs)) by now rewrite E.
        rewrite !firstn_app in F. rewrite !skipn_app in G.
        replace (16 - length y)%nat with 0%nat in * by lia. replace (16 - length x)%nat with 0%nat in * by lia.
        rewrite !firstn_O, !app_nil_r, (firstn_all2 y), (firstn_all2 x) in F by lia.
        rewrite (skipn_all2 y), (skipn_all2 x) in G by lia. cbn [skipn Datatypes.app] in G. auto. }
      f_equal. apply (IH (concat xs)); split; auto.
Qed.

Lemma skipn_twice {A} (l : list A) : forall a b, skipn a (skipn b l) = skipn (b + a) l.
Proof. induction l as [|x l IH]; intros a [|b]; cbn; rewrite ?skipn_nil; auto. Qed.

(** ** Chains of blocks *)
Fixpoint go (L : clib) (c : ctx) (prev : list Z) (bs : list (list Z)) : list (list Z) * list Z :=
  match bs with
  | [] => ([], prev)
  | b :: bs => let '(o, p) := crypt_block L c prev b in let '(os, q) := go L c p bs in (o :: os, q)
  end.
Lemma go_blocks L c bs : forall prev rest, Forall (fun b : list Z => length b = 16%nat) bs ->
  crypt_blocks L c prev (length bs) (concat bs ++ rest) = (concat (fst (go L c prev bs)), snd (go L c prev bs)).
Proof.
  induction bs as [|b bs IH]; intros prev rest H; [reflexivity|]. inversion H as [|? ? Hb Hbs]; subst.
  cbn [crypt_blocks length concat go]. rewrite <- app_assoc. rewrite firstn_app, skipn_app. rewrite Hb.
  rewrite Nat.sub_diag, firstn_O, app_nil_r, (firstn_all2 b), (skipn_all2 b) by lia.
  change (skipn 0 (concat bs ++ rest)) with (concat bs ++ rest).
  cbn [Datatypes.app]. destruct (crypt_block L c prev b) as [o p]. rewrite (IH p rest Hbs).
  destruct (go L c p bs) as [os q]. reflexivity.
Qed.
Lemma go_app L c xs : forall prev ys,
  go L c prev (xs ++ ys) = (fst (go L c prev xs) ++ fst (go L c (snd (go L c prev xs)) ys),
                            snd (go L c (snd (go L c prev xs)) ys)).
Proof.
  induction xs as [|x xs IH]; intros prev ys; cbn.
  - now destruct (go L c prev ys).
  - destruct (crypt_block L c prev x) as [o p]. rewrite IH. now destruct (go L c p xs).
Qed.
Lemma go_evp L c v prev bs : go L (with_evp c v) prev bs = go L c prev bs.
Proof.
  revert prev; induction bs as [|b bs IH]; intros prev; cbn; [reflexivity|].
  change (crypt_block L (with_evp c v) prev b) with (crypt_block L c prev b).
  destruct (crypt_block L c prev b). now rewrite IH.
Qed.
Lemma go_length L c bs : forall prev, length (fst (go L c prev bs)) = length bs.
Proof.
  induction bs as [|b bs IH]; intros prev; cbn; [reflexivity|]. destruct (crypt_block L c prev b) as [o p].
  specialize (IH p). destruct (go L c p bs). cbn in *. lia.
Qed.
Lemma crypt_block_len L c prev b : good_clib L -> length b = 16%nat -> (is_chained (c_alg c) = true -> length prev = 16%nat) ->
  length (fst (crypt_block L c prev b)) = 16%nat /\ (is_chained (c_alg c) = true -> length (snd (crypt_block L c prev b)) = 16%nat).
Proof.
  intros (He & Hd & _) Hb Hp. unfold crypt_block.
  destruct (c_encrypt c), (is_chained (c_alg c)); cbn; split; auto; try discriminate.
  - apply He. rewrite xor_length, Hb, Hp; auto.
  - intros _. apply He. rewrite xor_length, Hb, Hp; auto.
  - rewrite xor_length, Hd, Hp; auto.
Qed.
Lemma go_len16 L c bs : good_clib L -> forall prev, Forall (fun b : list Z => length b = 16%nat) bs ->
  (is_chained (c_alg c) = true -> length prev = 16%nat) ->
  Forall (fun b : list Z => length b = 16%nat) (fst (go L c prev bs)) /\
  (is_chained (c_alg c) = true -> length (snd (go L c prev bs)) = 16%nat).
Proof.
  intros HL. induction bs as [|b bs IH]; intros prev H Hp; cbn; [auto|]. inversion H as [|? ? Hb Hbs]; subst.
  destruct (crypt_block_len L c prev b HL Hb Hp) as [A B]. destruct (crypt_block L c prev b) as [o p]. cbn in A, B.
  destruct (IH p Hbs B) as [C D]. destruct (go L c p bs) as [os q]. cbn in *. auto.
Qed.

(** The chains are the modes of the specification. *)
Lemma go_encrypts L c prev bs : c_encrypt c = true -> is_block (c_alg c) = true ->
  fst (go L c prev bs) = if is_chained (c_alg c) then cbc_encryption (k_enc L (c_key c)) prev bs
                         else map (k_enc L (c_key c)) bs.
Proof.
  intros He Hb. revert prev. induction bs as [|b bs IH]; intros prev; cbn; [now destruct (is_chained _)|].
  unfold crypt_block. rewrite He. destruct (is_chained (c_alg c)).
  - specialize (IH (k_enc L (c_key c) (xor b prev))). destruct (go _ _ _ bs). cbn in *. now rewrite IH.
  - specialize (IH prev). destruct (go _ _ _ bs). cbn in *. now rewrite IH.
Qed.
Lemma go_decrypts L c prev bs : c_encrypt c = false -> is_block (c_alg c) = true ->
  fst (go L c prev bs) = if is_chained (c_alg c) then cbc_decryption (k_dec L (c_key c)) prev bs
                         else map (k_dec L (c_key c)) bs.
Proof.
  intros He Hb. revert prev. induction bs as [|b bs IH]; intros prev; cbn; [now destruct (is_chained _)|].
  unfold crypt_block. rewrite He. destruct (is_chained (c_alg c)).
  - specialize (IH b). destruct (go _ _ _ bs). cbn in *. now rewrite IH.
  - specialize (IH prev). destruct (go _ _ _ bs). cbn in *. now rewrite IH.
Qed.

(** ** The invariant: a context that has taken [I] and reported [O] *)
Definition held_bytes (v : evp) : list Z := match v_held v with Some h => h | None => [] end.
Definition invb (L : clib) (iv : list Z) (c : ctx) (I O : list Z) : Prop :=
  v_buf (c_evp c) = [] /\
  exists bs, in_blocks I bs /\ v_iv (c_evp c) = snd (go L c iv bs) /\
    O ++ held_bytes (c_evp c) = concat (fst (go L c iv bs)) /\
    (if holds_back (c_alg c) (c_encrypt c)
     then match v_held (c_evp c) with Some h => length h = 16%nat | None => I = [] end
     else v_held (c_evp c) = None).
Definition invs (L : clib) (iv : list Z) (c : ctx) (I O : list Z) : Prop :=
  v_iv (c_evp c) = iv /\ v_pos (c_evp c) = zlen I /\ streamed (k_stream L (c_alg c) (c_key c) iv) I O /\
  v_text (c_evp c) = (if c_encrypt c then O else I).
Definition inv (L : clib) (a : calg) (encrypt : bool) (key iv aad : list Z) (c : ctx) (I O : list Z) : Prop :=
  c_alg c = a /\ c_encrypt c = encrypt /\ c_key c = key /\ v_done (c_evp c) = false /\ v_aad (c_evp c) = aad /\
  (is_chained a = true -> length iv = 16%nat) /\
  (if is_block a then invb L iv c I O else invs L iv c I O).

Lemma streamed_app st (a b oa ob : list Z) : streamed st a oa ->
  length ob = length b -> (forall i, (i < length b)%nat -> nth i ob 0 = Z.lxor (nth i b 0) (st (zlen a + Z.of_nat i))) ->
  streamed st (a ++ b) (oa ++ ob).
Proof.
  intros [Hl Hn] Hb Hi. split; [rewrite !app_length; lia|]. intros i H. rewrite app_length in H.
  destruct (Nat.lt_ge_cases i (length a)) as [Hlt|Hge].
  - rewrite !app_nth1 by lia. auto.
  - rewrite !app_nth2 by lia. rewrite Hl, (Hi (i - length a)%nat) by lia. f_equal. f_equal. unfold zlen. lia.
Qed.
Lemma key_stream_len L c v n : length (key_stream L c v n) = n.
Proof. unfold key_stream. now rewrite map_length, seq_length. Qed.
Lemma key_stream_nth L c v n i : (i < n)%nat ->
  nth i (key_stream L c v n) 0 = k_stream L (c_alg c) (c_key c) (v_iv v) (v_pos v + Z.of_nat i).
Proof.
  intros H. unfold key_stream. set (f := fun i : nat => _).
  rewrite (nth_indep _ 0 (f 0%nat)) by (rewrite map_length, seq_length; lia).
  rewrite (map_nth f), seq_nth by lia. reflexivity.
Qed.
Lemma stream_out L c v data : length (xor data (key_stream L c v (length data))) = length data.
Proof. rewrite xor_length, key_stream_len. lia. Qed.

Lemma firstn_all_int (l : list Z) : zlen l < 2 ^ 31 -> firstn (Z.to_nat (int_of (zlen l))) l = l.
Proof. intros H. rewrite int_of_small by (unfold zlen in *; lia). apply firstn_all2. unfold zlen. lia. Qed.

(** One update of a context in the invariant. *)
Definition update_ok (L : clib) a encrypt key iv aad (c : ctx) (I O data : list Z) (r : evp * option (list Z * Z)) : Prop :=
  exists v w o rest, r = (v, Some (w, zlen o)) /\ w = o ++ rest /\
    (length rest <= if k_ahead L then 16 else 0)%nat /\ (holds_back a encrypt = false -> rest = [] /\ length o = length data) /\
    (length o <= length data)%nat /\ (length w <= length data + (if v_held (c_evp c) then 16 else 0))%nat /\
    v_tag v = v_tag (c_evp c) /\ inv L a encrypt key iv aad (with_evp c v) (I ++ data) (O ++ o).

Lemma update_blocks_spec L c v data bs rest : v_buf v = [] -> data = concat bs ++ rest ->
  Forall (fun b : list Z => length b = 16%nat) bs -> length bs = (length data / 16)%nat ->
  update_blocks L c v data =
    (MkEvp (snd (go L c (v_iv v) bs)) rest (v_held v) (v_pos v) (v_aad v) (v_text v) (v_tag v) (v_done v),
     concat (fst (go L c (v_iv v) bs))).
Proof.
  intros Hb E Hf Hn. unfold update_blocks. rewrite Hb. cbn [Datatypes.app]. rewrite <- Hn.
  rewrite E at 1. rewrite go_blocks by assumption.
  rewrite E, skipn_app, (skipn_all2 (concat bs)) by (rewrite len16_concat by assumption; lia).
  rewrite len16_concat by assumption. now rewrite Nat.sub_diag.
Qed.

Lemma update_inv L a encrypt key iv aad c I O data : good_clib L ->
  inv L a encrypt key iv aad c I O -> zlen data < 2 ^ 31 ->
  (is_block a = true -> (length data mod 16 = 0)%nat) ->
  update_ok L a encrypt key iv aad c I O data (evp_update L c data None).
Proof.
  intros HL HI Hlen Hmod. destruct HI as (Ha & He & Hk & Hd & Haad & Hiv & HB).
  unfold evp_update, reuse. rewrite Hd. cbn [andb]. rewrite firstn_all_int by assumption.
  rewrite int_of_small by (unfold zlen in *; lia).
  replace (zlen data <? 0) with false by (unfold zlen; lia). rewrite Ha.
  destruct (is_block a) eqn:Eb.
  - destruct HB as (Hbuf & bs & HbI & Hviv & HO & Hheld). specialize (Hmod eq_refl).
    destruct (zlen data =? 0) eqn:Ez.
    { assert (data = []) as -> by (apply length_zero_iff_nil; unfold zlen in Ez; lia).
      exists (c_evp c), [], [], []. cbn [length Datatypes.app]. rewrite !app_nil_r.
      repeat split; auto; try lia. rewrite Eb. split; [assumption|].
      exists bs. rewrite !go_evp. repeat split; auto; apply HbI. }
    destruct (split_full data Hmod) as (ds & HbD & Hnd).
    rewrite (update_blocks_spec L c (c_evp c) data ds []); auto;
      [|now rewrite app_nil_r; symmetry; apply HbD|apply HbD].
    rewrite Hviv. set (p := snd (go L c iv bs)).
    assert (Hp : is_chained (c_alg c) = true -> length p = 16%nat).
    { intros Hc. apply (go_len16 L c bs HL iv); [apply HbI| |assumption]. rewrite Ha. exact Hiv. }
    destruct (go_len16 L c ds HL p (proj2 HbD) Hp) as [Hds Hq].
    pose proof (len16_concat _ Hds) as Hlo. rewrite go_length in Hlo.
    assert (Hlo' : length (concat (fst (go L c p ds))) = length data).
    { rewrite Hlo, <- (proj1 HbD), (len16_concat _ (proj2 HbD)). reflexivity. }
    assert (Hall : concat (fst (go L c iv (bs ++ ds))) = (O ++ held_bytes (c_evp c)) ++ concat (fst (go L c p ds))).
    { rewrite go_app. cbn [fst]. rewrite concat_app, <- HO. reflexivity. }
    assert (Hnext : snd (go L c iv (bs ++ ds)) = snd (go L c p ds)) by (rewrite go_app; reflexivity).
    assert (Hdata : (16 <= length data)%nat).
    { assert (length data <> 0)%nat by (unfold zlen in Ez; lia). clear - H Hmod. pose proof (Nat.div_mod_eq (length data) 16). lia. }
    rewrite He. fold (holds_back a encrypt). destruct (holds_back a encrypt) eqn:Eh.
    + cbn [v_buf length]. rewrite Nat.eqb_refl. fold (held_bytes (c_evp c)).
      set (all := held_bytes (c_evp c) ++ concat (fst (go L c p ds))).
      assert (Hla : length all = (length (held_bytes (c_evp c)) + length data)%nat) by (unfold all; now rewrite app_length, Hlo').
      assert (Hlh : (length (held_bytes (c_evp c)) <= if v_held (c_evp c) then 16 else 0)%nat).
      { unfold held_bytes. rewrite Ha, He, Eh in Hheld. destruct (v_held (c_evp c)); cbn; lia. }
      set (n := (length all - 16)%nat).
      eexists _, _, (firstn n all), (if k_ahead L then skipn n all else []). split.
      { f_equal. f_equal. f_equal. unfold zlen. rewrite firstn_length. lia. }
      split; [destruct (k_ahead L); [now rewrite firstn_skipn|now rewrite app_nil_r]|].
      split; [destruct (k_ahead L); [rewrite skipn_length; lia|reflexivity]|].
      split; [congruence|].
      split; [rewrite firstn_length; destruct (v_held (c_evp c)); lia|].
      split; [destruct (k_ahead L); [|rewrite firstn_length]; destruct (v_held (c_evp c)); lia|]. split; [reflexivity|].
      unfold inv. rewrite Eb. cbn. repeat split; auto.
      exists (bs ++ ds). rewrite !go_evp. cbn. rewrite Ha, He, Eh.
      split; [now apply in_blocks_app|]. split; [now rewrite Hnext|].
      split; [|rewrite skipn_length; lia].
      unfold held_bytes. cbn. rewrite <- app_assoc, firstn_skipn, Hall. unfold all. now rewrite <- app_assoc.
    + rewrite Ha, He, Eh in Hheld. rewrite Hheld. unfold held_bytes in *. rewrite Hheld in *. cbn [Datatypes.app] in *.
      eexists _, _, _, []. split; [reflexivity|]. rewrite app_nil_r in *.
      split; [reflexivity|]. split; [destruct (k_ahead L); cbn; lia|]. split; [auto|]. split; [lia|]. split; [lia|]. split; [reflexivity|].
      unfold inv. rewrite Eb. cbn. repeat split; auto.
      exists (bs ++ ds). rewrite !go_evp. cbn. rewrite Ha, He, Eh.
      split; [now apply in_blocks_app|]. split; [now rewrite Hnext|]. split; [|reflexivity].
      unfold held_bytes. cbn. now rewrite app_nil_r, Hall.
  - destruct HB as (Hviv & Hpos & Hst & Htx). set (o := xor data (key_stream L c (c_evp c) (length data))).
    assert (Ho : length o = length data) by apply stream_out.
    eexists _, _, o, []. split; [f_equal; f_equal; f_equal; unfold zlen; now rewrite Ho|]. rewrite app_nil_r.
    split; [reflexivity|]. split; [destruct (k_ahead L); cbn; lia|]. split; [auto|]. split; [lia|]. split; [destruct (v_held (c_evp c)); lia|]. split; [reflexivity|].
    unfold inv. rewrite Eb. cbn. repeat split; auto.
    + cbn. rewrite Hpos. unfold zlen. rewrite app_length. lia.
    + rewrite !app_length, Ho. now rewrite (proj1 Hst).
    + apply (streamed_app _ _ _ _ _ Hst Ho). intros i Hi. unfold o.
      rewrite xor_nth by (rewrite ?key_stream_len; lia). rewrite key_stream_nth by assumption.
      now rewrite Hviv, Hpos.
    + cbn. rewrite Htx, He. now destruct encrypt.
Qed.

(** ** process *)
Lemma fits_dec a n buf inb : {fits a n buf inb} + {~ fits a n buf inb}.
Proof.
  unfold fits. destruct (Z_le_dec n (zlen buf)); [|right; tauto]. destruct (Z_le_dec n (zlen inb)); [|right; tauto].
  destruct (is_block a); [|left; repeat split; auto; discriminate].
  destruct (Z.eq_dec (n mod 16) 0); [left|right]; tauto.
Qed.
Lemma zlen_firstn (l : list Z) n : 0 <= n <= zlen l -> length (firstn (Z.to_nat n) l) = Z.to_nat n.
Proof. intros H. rewrite firstn_length. unfold zlen in H. lia. Qed.

Lemma process_refused L c buf inb n f : 0 <= n < 2 ^ 31 -> ~ fits (c_alg c) n buf inb ->
  process L c (Some buf) inb n f = Result INVALID_PARAMETER c buf n 0 (Null 0).
Proof.
  intros Hn H. unfold process. replace (wrap64 (n + 0)) with n by (unfold wrap64, W64; rewrite Z.add_0_r, Z.mod_small; lia).
  replace (if is_padded (c_alg c) then n else n) with n by now destruct (is_padded _).
  destruct (zlen buf <? n) eqn:E1; [reflexivity|]. destruct (zlen inb <? n) eqn:E2; [reflexivity|].
  destruct (is_block (c_alg c)) eqn:E3; cbn [andb].
  - destruct (n mod 16 =? 0) eqn:E4; cbn [negb]; [|reflexivity]. exfalso. apply H. unfold fits. rewrite E3. repeat split; lia.
  - exfalso. apply H. unfold fits. rewrite E3. repeat split; try lia; discriminate.
Qed.
Lemma mod16 n : 0 <= n -> (n mod 16 = 0 <-> (Z.to_nat n mod 16 = 0)%nat).
Proof.
  intros H. rewrite <- (Z2Nat.id n H) at 1. change 16 with (Z.of_nat 16). rewrite <- Nat2Z.inj_mod. lia.
Qed.
Lemma put_spec (buf w : list Z) : put buf w = if (length w <=? length buf)%nat then Some (w ++ skipn (length w) buf) else None.
Proof. reflexivity. Qed.

Lemma process_fits L a encrypt key iv aad c I O buf inb n : good_clib L ->
  inv L a encrypt key iv aad c I O -> 0 <= n < 2 ^ 31 -> fits a n buf inb ->
  let data := firstn (Z.to_nat n) inb in
  exists v w o rest, evp_update L c data None = (v, Some (w, zlen o)) /\ w = o ++ rest /\
    (length rest <= if k_ahead L then 16 else 0)%nat /\ (holds_back a encrypt = false -> rest = [] /\ length o = length data) /\
    (length o <= length data)%nat /\ (length w <= length data + (if v_held (c_evp c) then 16 else 0))%nat /\
    inv L a encrypt key iv aad (with_evp c v) (I ++ data) (O ++ o) /\
    process L c (Some buf) inb n None =
      if (length w <=? length buf)%nat then Result OK (with_evp c v) (w ++ skipn (length w) buf) (zlen o) n (Null 0) else Corrupts.
Proof.
  intros HL HI Hn (H1 & H2 & H3) data.
  assert (Hld : length data = Z.to_nat n) by (apply zlen_firstn; lia).
  destruct (update_inv L a encrypt key iv aad c I O data HL HI) as (v & w & o & rest & E & Hw & Hr & Hh & Ho & Hlw & Htg & HI').
  { unfold zlen. lia. }
  { intros Hb. rewrite Hld. apply mod16; [lia|auto]. }
  exists v, w, o, rest. repeat (split; [assumption|]).
  destruct HI as (Ha & He & _). unfold process. replace (wrap64 (n + 0)) with n by (unfold wrap64, W64; rewrite Z.add_0_r, Z.mod_small; lia).
  replace (if is_padded (c_alg c) then n else n) with n by now destruct (is_padded _).
  replace (zlen buf <? n) with false by lia. replace (zlen inb <? n) with false by lia. rewrite Ha.
  replace (is_block a && negb (n mod 16 =? 0)) with false by (destruct (is_block a); cbn; [rewrite H3|]; auto).
  unfold context_update. fold data. rewrite Bool.eqb_reflx. cbn [negb]. rewrite Ha.
  replace (is_block a && negb (zlen data mod 16 =? 0)) with false.
  2: { destruct (is_block a); cbn; [|reflexivity]. unfold zlen. rewrite Hld, Z2Nat.id by lia. now rewrite H3. }
  rewrite E, put_spec. now destruct (length w <=? length buf)%nat.
Qed.

Lemma firstn_exact {A} (a b : list A) n : n = length a -> firstn n (a ++ b) = a.
Proof. intros ->. rewrite firstn_app, Nat.sub_diag, firstn_O, firstn_all. apply app_nil_r. Qed.

Lemma process_step L a encrypt key iv aad c I O buf inb n st c1 buf1 n1 k1 t : good_clib L ->
  inv L a encrypt key iv aad c I O -> 0 <= n < 2 ^ 31 ->
  process L c (Some buf) inb n None = Result st c1 buf1 n1 k1 t ->
  (st = OK /\ fits a n buf inb /\ k1 = n /\
   inv L a encrypt key iv aad c1 (I ++ firstn (Z.to_nat n) inb) (O ++ firstn (Z.to_nat n1) buf1)) \/
  (st = INVALID_PARAMETER /\ ~ fits a n buf inb /\ c1 = c /\ buf1 = buf /\ n1 = n /\ k1 = 0).
Proof.
  intros HL HI Hn E. destruct (fits_dec a n buf inb) as [F|F].
  - left. destruct (process_fits L a encrypt key iv aad c I O buf inb n HL HI Hn F) as (v & w & o & rest & _ & Hw & _ & _ & _ & _ & HI' & E').
    rewrite E' in E. destruct (length w <=? length buf)%nat; [|discriminate]. injection E as <- <- <- <- <- <-.
    split; [reflexivity|]. split; [assumption|]. split; [reflexivity|].
    rewrite Hw, <- app_assoc, firstn_exact by (unfold zlen; lia). exact HI'.
  - right. assert (Ha : c_alg c = a) by apply HI. rewrite process_refused in E by (try assumption; now rewrite Ha).
    injection E as <- <- <- <- <- <-. repeat split; auto.
Qed.

Lemma runs_inv L c calls c2 ins outs : good_clib L -> runs L c calls c2 ins outs ->
  forall a encrypt key iv aad I O, inv L a encrypt key iv aad c I O -> Forall short calls ->
  inv L a encrypt key iv aad c2 (I ++ ins) (O ++ outs).
Proof.
  intros HL. induction 1 as [c|c buf inb n c1 buf1 n1 k1 t calls c2 ins outs E _ IH|c buf inb n st c1 buf1 n1 k1 t calls c2 ins outs E Hs _ IH
    |c inb n st c1 buf1 n1 k1 t calls c2 ins outs E _ IH|c inb n p st c1 buf1 n1 k1 t calls c2 ins outs E _ IH];
    intros a encrypt key iv aad I O HI HS.
  - now rewrite !app_nil_r.
  - inversion HS as [|? ? Hn HS']; subst. cbn in Hn.
    destruct (process_step _ _ _ _ _ _ _ _ _ _ _ _ _ _ _ _ _ _ HL HI Hn E) as [(_ & _ & -> & HI')|(? & _)]; [|discriminate].
    rewrite !app_assoc. now apply IH.
  - inversion HS as [|? ? Hn HS']; subst. cbn in Hn.
    destruct (process_step _ _ _ _ _ _ _ _ _ _ _ _ _ _ _ _ _ _ HL HI Hn E) as [(? & _)|(_ & _ & -> & _)]; [contradiction|].
    now apply IH.
  - inversion HS; subst. cbn in E. injection E as <- <- <- <- <- <-. now apply IH.
  - inversion HS; subst. cbn in E. injection E as <- <- <- <- <- <-. now apply IH.
Qed.

(** A new context. *)
Lemma create_inv L a encrypt key p1 p2 c : create a encrypt key p1 p2 = Some c ->
  (is_aead a = true -> zlen (in_bytes p2) < 2 ^ 31) ->
  inv L a encrypt key (vector_of a p1 p2) (associated_of a p2) c [] [].
Proof.
  intros E Hs.
  assert (B : forall iv, (is_chained a = true -> length iv = 16%nat) -> is_aead a = false ->
    inv L a encrypt key iv [] (MkCtx a encrypt key (fresh iv [])) [] []).
  { intros iv Hiv Hae. unfold inv. cbn. repeat (split; [reflexivity || assumption|]). destruct (is_block a) eqn:Eb.
    - split; [reflexivity|]. exists []. cbn. repeat split; auto. now destruct (holds_back a encrypt).
    - repeat split; auto; cbn; [intros; lia|now destruct encrypt]. }
  assert (A : is_block a = false -> is_aead a = true -> create_aead a encrypt key p1 p2 = Some c ->
     inv L a encrypt key (in_bytes p1) (in_bytes p2) c [] []).
  { intros Hb Hae. unfold create_aead. destruct (null p1); [discriminate|].
    destruct (in_length p1 =? 12) eqn:E12; [|discriminate]. cbn [negb orb].
    destruct (bad_input p2) eqn:Ebad; [discriminate|]. destruct (negb (null p2) && (int_of (in_length p2) <? 0)) eqn:Ek; [discriminate|].
    intros [= <-]. unfold inv. cbn. repeat (split; [reflexivity|]).
    replace (firstn (Z.to_nat (int_of (in_length p2))) (in_bytes p2)) with (in_bytes p2).
    2: { destruct p2 as [m|l]; cbn in *; [now rewrite firstn_nil|]. symmetry. apply firstn_all_int. now apply Hs. }
    repeat (split; [reflexivity|]). split; [destruct a; discriminate|]. rewrite Hb.
    repeat split; auto; cbn; [intros; lia|now destruct encrypt]. }
  destruct a; cbn [create vector_of associated_of is_aead] in *;
    repeat match type of E with (if ?x then None else _) = _ => destruct x eqn:?; [discriminate|] end;
    try (injection E as <-; apply B; [intros Hc; try discriminate Hc|reflexivity]).
  all: try (now apply A).
  all: destruct p1 as [m|l]; cbn in *; unfold zlen in *; try rewrite orb_true_r in *; try discriminate; try lia.
Qed.

(** ** process_last *)
Lemma update_padded L key iv aad c a I O d : good_clib L -> inv L a true key iv aad c I O -> is_padded a = true ->
  zlen d < 2 ^ 31 ->
  exists bs ds rest, in_blocks I bs /\ O = concat (fst (go L c iv bs)) /\ d = concat ds ++ rest /\
    Forall (fun b : list Z => length b = 16%nat) ds /\ (length rest < 16)%nat /\
    length (concat (fst (go L c (snd (go L c iv bs)) ds))) = (16 * length ds)%nat /\ length ds = (length d / 16)%nat /\
    (is_chained a = true -> length (snd (go L c iv (bs ++ ds))) = 16%nat) /\
    exists v, evp_update L c d None = (v, Some (concat (fst (go L c (snd (go L c iv bs)) ds)),
                                               zlen (concat (fst (go L c (snd (go L c iv bs)) ds))))) /\
      v_iv v = snd (go L c iv (bs ++ ds)) /\ v_buf v = rest.
Proof.
  intros HL (Ha & He & Hk & Hd & Haad & Hiv & HB) Hp Hlen.
  assert (Eb : is_block a = true) by (destruct a; cbn in *; congruence). rewrite Eb in HB.
  destruct HB as (Hbuf & bs & HbI & Hviv & HO & Hheld).
  assert (Hh : v_held (c_evp c) = None).
  { rewrite Ha, He in Hheld. unfold holds_back in Hheld. rewrite andb_false_r in Hheld. exact Hheld. }
  unfold held_bytes in HO. rewrite Hh, app_nil_r in HO.
  destruct (split_blocks d) as (ds & rest & E & Hds & Hr & Hn).
  assert (Hch : is_chained (c_alg c) = true -> length (snd (go L c iv bs)) = 16%nat).
  { apply (go_len16 L c bs HL iv); [apply HbI|]. rewrite Ha. exact Hiv. }
  destruct (go_len16 L c ds HL _ Hds Hch) as [Hf Hnx].
  exists bs, ds, rest. split; [exact HbI|]. split; [exact HO|]. split; [exact E|]. split; [exact Hds|]. split; [exact Hr|].
  split; [rewrite (len16_concat _ Hf), go_length; reflexivity|]. split; [exact Hn|].
  split; [intros Hc; rewrite go_app; cbn; apply Hnx; now rewrite Ha|].
  unfold evp_update, reuse. rewrite Hd. cbn [andb]. rewrite firstn_all_int by assumption.
  rewrite int_of_small by (unfold zlen in *; lia). replace (zlen d <? 0) with false by (unfold zlen; lia).
  rewrite Ha, Eb. destruct (zlen d =? 0) eqn:Ez.
  - assert (d = []) as -> by (apply length_zero_iff_nil; unfold zlen in Ez; lia).
    symmetry in E. apply app_eq_nil in E as [E1 ->].
    assert (ds = []) as -> by (apply length_zero_iff_nil; rewrite Hn; reflexivity).
    exists (c_evp c). cbn. rewrite app_nil_r. repeat split; auto.
  - rewrite (update_blocks_spec L c (c_evp c) d ds rest) by assumption. rewrite Hp, He, Hviv. cbn [negb andb].
    eexists. split; [reflexivity|]. cbn. rewrite go_app. auto.
Qed.

Lemma pad_blocks I bs ds rest : in_blocks I bs -> Forall (fun b : list Z => length b = 16%nat) ds -> (length rest < 16)%nat ->
  let p := 16 - zlen rest in
  in_blocks (pkcs7_pad (I ++ concat ds ++ rest)) (bs ++ ds ++ [rest ++ repeat p (Z.to_nat p)]).
Proof.
  intros [<- Hb] Hds Hr p. unfold pkcs7_pad.
  assert (E : zlen (concat bs ++ concat ds ++ rest) mod 16 = zlen rest).
  { unfold zlen. rewrite !app_length, (len16_concat bs), (len16_concat ds) by assumption.
    replace (Z.of_nat (16 * length bs + (16 * length ds + length rest)))
      with (Z.of_nat (length rest) + Z.of_nat (length bs + length ds) * 16) by lia.
    rewrite Z.mod_add by lia. apply Z.mod_small. lia. }
  rewrite E. fold p. split.
  - rewrite !concat_app. cbn. rewrite app_nil_r, <- !app_assoc. reflexivity.
  - rewrite !Forall_app. repeat split; auto. constructor; [|constructor].
    rewrite app_length, repeat_length. unfold p, zlen. lia.
Qed.

Lemma encrypts_blocks L c iv msg bs : c_encrypt c = true -> is_block (c_alg c) = true -> in_blocks msg bs ->
  encrypts L (c_alg c) (c_key c) iv msg (concat (fst (go L c iv bs))).
Proof.
  intros He Hb H. rewrite go_encrypts by assumption.
  destruct (c_alg c); cbn in *; try discriminate; exists bs; auto.
Qed.
Lemma decrypts_blocks L c iv msg bs : c_encrypt c = false -> is_block (c_alg c) = true -> in_blocks msg bs ->
  decrypts L (c_alg c) (c_key c) iv msg (concat (fst (go L c iv bs))).
Proof.
  intros He Hb H. rewrite go_decrypts by assumption.
  destruct (c_alg c); cbn in *; try discriminate; exists bs; auto.
Qed.
(** What is decrypted is determined. *)
Lemma decrypts_fun L a key iv text r1 r2 : decrypts L a key iv text r1 -> decrypts L a key iv text r2 -> r1 = r2.
Proof.
  assert (S : forall st, streamed st text r1 -> streamed st text r2 -> r1 = r2).
  { intros st [H1 N1] [H2 N2]. apply nth_ext with 0 0; [congruence|]. intros i Hi. rewrite N1, N2 by lia. reflexivity. }
  destruct a; cbn; try apply S;
    intros (b1 & B1 & ->) (b2 & B2 & ->); now rewrite (in_blocks_unique _ _ B1 _ B2).
Qed.

Lemma padded_room a n : is_padded a = true -> 0 <= n < 2 ^ 31 -> wrap64 (PADDED_SIZE n) = last_room a n.
Proof. intros Hp H. unfold last_room. rewrite Hp. unfold PADDED_SIZE, wrap64, W64. apply Z.mod_small. lia. Qed.

Lemma put_in (buf w : list Z) : (length w <= length buf)%nat -> put buf w = Some (w ++ skipn (length w) buf).
Proof. intros H. rewrite put_spec. now replace (length w <=? length buf)%nat with true by lia. Qed.

(** Update and final both in bounds. *)
Lemma update_final_ok L c buf data v o rest v' f : evp_update L c data None = (v, Some (o ++ rest, zlen o)) ->
  evp_final L (with_evp c v) None = (v', Some f) -> (length (o ++ rest) <= length buf)%nat -> (length (o ++ f) <= length buf)%nat ->
  exists buf2, update_final L c buf data None None = Wrote OK (with_evp c v') buf2 (zlen o + zlen f) /\
    length buf2 = length buf /\ firstn (length (o ++ f)) buf2 = o ++ f /\
    skipn (Nat.max (length (o ++ f)) (length (o ++ rest))) buf2 = skipn (Nat.max (length (o ++ f)) (length (o ++ rest))) buf.
Proof.
  intros E1 E2 H1 H2. unfold update_final. rewrite E1, put_in, E2 by assumption.
  unfold zlen. rewrite Nat2Z.id, <- app_assoc. rewrite firstn_exact by reflexivity.
  rewrite skipn_app, Nat.sub_diag, (skipn_all2 o) by lia. cbn [Datatypes.app skipn].
  set (tail := rest ++ skipn (length (o ++ rest)) buf).
  assert (Ht : length tail = (length buf - length o)%nat).
  { unfold tail. rewrite app_length, skipn_length. rewrite app_length in *. lia. }
  rewrite (put_in tail f) by (rewrite app_length in H2; lia).
  eexists. split; [reflexivity|]. rewrite !app_length in *.
  split; [rewrite skipn_length; lia|]. split.
  - rewrite app_assoc. apply firstn_exact. now rewrite app_length.
  - rewrite app_assoc, skipn_app, app_length.
    rewrite (skipn_all2 (o ++ f)) by (rewrite app_length; lia). cbn [Datatypes.app].
    unfold tail. rewrite skipn_twice. rewrite skipn_app.
    rewrite (skipn_all2 rest) by lia. cbn [Datatypes.app]. rewrite skipn_twice. f_equal. rewrite ?app_length. lia.
Qed.

Lemma encrypt_last_ok L a key iv aad c I O buf d : good_clib L -> inv L a true key iv aad c I O -> zlen d < 2 ^ 31 ->
  is_padded a = true \/ is_block a = false -> (is_padded a = true -> zlen d <= 16) -> last_room a (zlen d) <= zlen buf ->
  exists v buf2 n2, encrypt_last L c buf d None None = Wrote OK (with_evp c v) buf2 n2 /\
    0 <= n2 <= last_room a (zlen d) /\ length buf2 = length buf /\ untouched n2 buf buf2 /\
    encryption L a key iv (I ++ d) (O ++ firstn (Z.to_nat n2) buf2) /\
    (is_aead a = true -> v_tag v = Some (k_tag L a key iv aad (O ++ firstn (Z.to_nat n2) buf2))).
Proof.
  intros HL HI Hlen Hk Hpd Hroom. pose proof HI as (Ha & He & Hkey & _). unfold encrypt_last. rewrite He, Ha. cbn [negb].
  destruct (is_padded a) eqn:Ep.
  - assert (Eb : is_block a = true) by (destruct a; cbn in *; congruence).
    assert (Eae : is_aead a = false) by (destruct a; cbn in *; congruence).
    rewrite Eb. cbn [negb andb]. specialize (Hpd eq_refl). replace (16 <? zlen d) with false by lia.
    destruct (update_padded L key iv aad c a I O d HL HI Ep Hlen) as (bs & ds & rest & HbI & HO & Ed & Hds & Hr & Hlo & Hnd & Hch & v & Eu & Hviv & Hvbuf).
    set (p := 16 - zlen rest). set (blk := rest ++ repeat p (Z.to_nat p)).
    assert (Hblk : length blk = 16%nat) by (unfold blk; rewrite app_length, repeat_length; unfold p, zlen; lia).
    set (o := concat (fst (go L c (snd (go L c iv bs)) ds))) in *.
    set (f := fst (crypt_block L c (snd (go L c iv (bs ++ ds))) blk)).
    assert (Hf : length f = 16%nat).
    { apply crypt_block_len; auto. now rewrite Ha. }
    assert (Ef : exists v', evp_final L (with_evp c v) None = (v', Some f)).
    { unfold evp_final. cbn [with_evp c_alg c_encrypt c_evp]. rewrite Ha, Eae, Eb, Ep, He, Hviv, Hvbuf. cbn [negb]. fold p. fold blk.
      change (crypt_block L (with_evp c v) ?q ?b) with (crypt_block L c q b). unfold f.
      destruct (crypt_block L c (snd (go L c iv (bs ++ ds))) blk) as [x y]. eexists. reflexivity. }
    destruct Ef as [v' Ef].
    assert (Hfit : (length (o ++ f) <= length buf)%nat).
    { rewrite app_length, Hlo, Hf. unfold last_room in Hroom. rewrite Ep in Hroom. unfold zlen in *.
      assert (Z.of_nat (length ds) = Z.of_nat (length d) / 16) by (rewrite Hnd, Nat2Z.inj_div; reflexivity). lia. }
    assert (Hfo : (length o <= length buf)%nat) by (rewrite app_length in Hfit; lia).
    destruct (update_final_ok L c buf d v o [] v' f) as (buf2 & Euf & Hl & Hfst & Hun); auto; try (rewrite app_nil_r; auto).
    exists v', buf2, (zlen o + zlen f). split; [exact Euf|]. 
    assert (Hto : Z.to_nat (zlen o + zlen f) = length (o ++ f)) by (rewrite app_length; unfold zlen; lia).
    split.
    { unfold zlen. rewrite Hlo, Hf. unfold last_room. rewrite Ep. unfold zlen.
      assert (Z.of_nat (length ds) = Z.of_nat (length d) / 16) by (rewrite Hnd, Nat2Z.inj_div; reflexivity). lia. }
    split; [exact Hl|]. split; [unfold untouched; rewrite Hto; rewrite app_nil_r in Hun|].
    { rewrite Nat.max_l in Hun by (rewrite app_length; lia). exact Hun. }
    split; [|now rewrite Eae].
    rewrite Hto, Hfst. unfold encryption. rewrite Ep, Ed.
    pose proof (pad_blocks I bs ds rest HbI Hds Hr) as Hpb. cbn zeta in Hpb. fold p in Hpb. fold blk in Hpb.
    replace (O ++ o ++ f) with (concat (fst (go L c iv (bs ++ ds ++ [blk])))).
    + rewrite <- Ha, <- Hkey. apply encrypts_blocks; auto. now rewrite Ha.
    + rewrite app_assoc, go_app. cbn [fst]. rewrite concat_app, go_app. cbn [fst]. rewrite concat_app, <- HO.
      fold o. rewrite <- app_assoc. f_equal. f_equal.
      replace (snd (go L c (snd (go L c iv bs)) ds)) with (snd (go L c iv (bs ++ ds))) by now rewrite go_app.
      cbn. unfold f. destruct (crypt_block L c _ blk). cbn. now rewrite app_nil_r.
  - destruct Hk as [?|Eb]; [discriminate|]. rewrite Eb. cbn [andb].
    destruct (update_inv L a true key iv aad c I O d HL HI Hlen) as (v & w & o & rest & E & Hw & _ & Hh & _ & _ & _ & HI').
    { rewrite Eb. discriminate. }
    destruct Hh as [-> Hlo]; [unfold holds_back; now rewrite Ep|]. subst w.
    destruct HI' as (_ & _ & _ & _ & Haad & _ & HB). rewrite Eb in HB. destruct HB as (Hviv & _ & Hst & Htx).
    cbn in Hviv, Htx, Haad. rewrite He in Htx.
    assert (Ef : exists v', evp_final L (with_evp c v) None = (v', Some []) /\
               (is_aead a = true -> v_tag v' = Some (k_tag L a key iv aad (O ++ o)))).
    { unfold evp_final. cbn [with_evp c_alg c_encrypt c_evp c_key]. rewrite Ha, Eb, He, Hkey, Hviv, Htx, Haad. cbn [negb].
      destruct (is_aead a); [|exists v; split; [reflexivity|discriminate]]. eexists. split; [reflexivity|]. reflexivity. }
    destruct Ef as (v' & Ef & Htg).
    unfold last_room in *. rewrite Ep in *.
    destruct (update_final_ok L c buf d v o [] v' []) as (buf2 & Euf & Hl & Hfst & Hun); auto;
      try (rewrite app_nil_r; unfold zlen in *; lia).
    exists v', buf2, (zlen o + zlen (@nil Z)). split; [exact Euf|]. rewrite app_nil_r in *. change (zlen (@nil Z)) with 0. rewrite Z.add_0_r.
    assert (Hto : Z.to_nat (zlen o) = length o) by (unfold zlen; lia).
    split; [unfold zlen; lia|]. split; [exact Hl|]. unfold untouched. rewrite Hto, Hfst. rewrite Nat.max_id in Hun.
    split; [exact Hun|]. split; [|exact Htg].
    unfold encryption. rewrite Ep. cbn [with_evp c_alg c_key] in Hst. rewrite Ha, Hkey in Hst. destruct a; try discriminate; exact Hst.
Qed.

Lemma pad_check_ok (pre h : list Z) : (length pre mod 16 = 0)%nat -> length h = 16%nat ->
  let n := last h 0 in
  if (1 <=? n) && (n <=? 16) && list_eqb (skipn (16 - Z.to_nat n) h) (repeat n (Z.to_nat n))
  then pkcs7_pad (pre ++ firstn (16 - Z.to_nat n) h) = pre ++ h
  else ~ exists msg, pkcs7_pad msg = pre ++ h.
Proof.
  intros Hpre Hh n. destruct ((1 <=? n) && (n <=? 16) && _) eqn:E.
  - apply andb_prop in E as [E E3]. apply andb_prop in E as [E1 E2].
    unfold list_eqb in E3. destruct (list_eq_dec _ _ _) as [E4|]; [|discriminate].
    unfold pkcs7_pad.
    assert (Hl : length (firstn (16 - Z.to_nat n) h) = (16 - Z.to_nat n)%nat) by (rewrite firstn_length; lia).
    assert (Hm : 16 - zlen (pre ++ firstn (16 - Z.to_nat n) h) mod 16 = n).
    { unfold zlen. rewrite app_length, Hl. assert (H0 : (Z.of_nat (length pre)) mod 16 = 0) by (change 16 with (Z.of_nat 16); rewrite <- Nat2Z.inj_mod; lia).
      clear - H0 E1 E2. lia. }
    rewrite Hm, <- E4, <- app_assoc, firstn_skipn. reflexivity.
  - intros [msg Hmsg]. unfold pkcs7_pad in Hmsg. set (p := 16 - zlen msg mod 16) in *.
    assert (Hp : 1 <= p <= 16) by (unfold p; lia).
    assert (Hlen : (length msg + Z.to_nat p = length pre + 16)%nat).
    { rewrite <- Hh, <- app_length, <- Hmsg, app_length, repeat_length. reflexivity. }
    assert (Ehh : h = skipn (length pre) msg ++ repeat p (Z.to_nat p)).
    { assert (F : skipn (length pre) (msg ++ repeat p (Z.to_nat p)) = skipn (length pre) (pre ++ h)) by now rewrite Hmsg.
      rewrite skipn_app in F. replace (length pre - length msg)%nat with 0%nat in F by lia.
      rewrite skipn_app, Nat.sub_diag, (skipn_all2 pre) in F by lia. cbn [skipn Datatypes.app] in F. now symmetry. }
    assert (Hn : n = p).
    { unfold n. rewrite Ehh. replace (Z.to_nat p) with (Z.to_nat p - 1 + 1)%nat by lia. rewrite repeat_app, app_assoc. cbn [repeat].
      apply last_last. }
    assert (Hsk : skipn (16 - Z.to_nat n) h = repeat n (Z.to_nat n)).
    { rewrite Hn, Ehh. rewrite skipn_app, skipn_all2 by (rewrite skipn_length; lia).
      rewrite skipn_length. replace (16 - Z.to_nat p - (length msg - length pre))%nat with 0%nat by lia. reflexivity. }
    unfold list_eqb in E. destruct (list_eq_dec _ _ _) as [|N]; [|now apply N].
    rewrite Hn in E. lia.
Qed.

Lemma decrypt_last_res L a key iv aad c I O buf d : good_clib L -> inv L a false key iv aad c I O -> zlen d < 2 ^ 31 ->
  is_padded a = true \/ is_block a = false -> (is_block a = true -> (length d mod 16 = 0)%nat) ->
  (a <> POLY1305 -> zlen d <= 16) -> last_room a (zlen d) <= zlen buf ->
  let tag_ok := is_aead a = true -> exists g, v_tag (c_evp c) = Some g /\ g = tag_of L a key iv aad (I ++ d) (length g) in
  exists v buf2 n2 st, decrypt_last L c buf d None None = Wrote st (with_evp c v) buf2 n2 /\
    length buf2 = length buf /\ untouched (last_room a (zlen d)) buf buf2 /\
    ((st = OK /\ 0 <= n2 <= last_room a (zlen d) /\ decryption L a key iv (I ++ d) (O ++ firstn (Z.to_nat n2) buf2) /\ tag_ok) \/
     (st = INTERNAL_ERROR /\ ~ ((exists msg, decryption L a key iv (I ++ d) msg) /\ tag_ok))).
Proof.
  intros HL HI Hlen Hk Hm Hmax Hroom tag_ok. pose proof HI as (Ha & He & Hkey & _). unfold decrypt_last. rewrite He, Ha.
  replace (is_block a && negb (is_padded a)) with false
    by (destruct Hk as [->| ->]; [now rewrite andb_false_r|reflexivity]).
  replace (match a with POLY1305 => false | _ => 16 <? zlen d end) with false
    by (destruct a; try reflexivity; rewrite (proj2 (Z.ltb_ge _ _)); auto; apply Hmax; discriminate).
  destruct (update_inv L a false key iv aad c I O d HL HI Hlen Hm) as (v & w & o & rest & E & Hw & Hr & Hh & Ho & Hlw & Htg & HI').
  destruct (is_padded a) eqn:Ep.
  - assert (Eb : is_block a = true) by (destruct a; cbn in *; congruence).
    assert (Eae : is_aead a = false) by (destruct a; cbn in *; congruence).
    assert (Hto : tag_ok) by (unfold tag_ok; rewrite Eae; discriminate).
    destruct HI' as (Ha' & He' & Hk' & Hd' & Haad' & Hiv' & HB). rewrite Eb in HB.
    destruct HB as (Hbuf & bs & HbI & Hviv & HO & Hheld). cbn in Hbuf, Hviv, Hheld. rewrite go_evp in *.
    unfold held_bytes in HO. cbn in HO.
    rewrite Ha, He in Hheld. unfold holds_back in Hheld. rewrite Ep in Hheld. cbn [negb andb] in Hheld.
    assert (Hlr : last_room a (zlen d) = zlen d + 16).
    { unfold last_room. rewrite Ep. unfold zlen. specialize (Hm Eb).
      assert (Z.of_nat (length d) mod 16 = 0) by (change 16 with (Z.of_nat 16); rewrite <- Nat2Z.inj_mod; lia). lia. }
    assert (Hwl : (length w <= length buf)%nat) by (unfold zlen in *; destruct (v_held (c_evp c)); lia).
    assert (Hdec : decrypts L a key iv (I ++ d) (concat (fst (go L c iv bs)))).
    { rewrite <- Ha, <- Hkey. apply decrypts_blocks; auto. now rewrite Ha. }
    assert (Hlen16 : length (concat (fst (go L c iv bs))) = (16 * length bs)%nat).
    { rewrite len16_concat; [now rewrite go_length|]. apply go_len16; auto; [apply HbI|]. now rewrite Ha. }
    subst w. unfold evp_final in *.
    set (fin := evp_final L (with_evp c v) None).
    assert (Efin : exists v', fin = (v', match v_held v with
        | Some h => let n := last h 0 in
            if (1 <=? n) && (n <=? 16) && list_eqb (skipn (16 - Z.to_nat n) h) (repeat n (Z.to_nat n))
            then Some (firstn (16 - Z.to_nat n) h) else None
        | None => None end)).
    { unfold fin, evp_final. cbn [with_evp c_alg c_encrypt c_evp]. rewrite Ha, Eae, Eb, Ep, He, Hbuf. cbn [negb length Nat.eqb].
      eexists. reflexivity. }
    destruct Efin as [v' Efin]. subst fin.
    destruct (v_held v) as [h|] eqn:Ehv.
    + assert (Hpre : (length (O ++ o) mod 16 = 0)%nat).
      { assert (length (O ++ o) + 16 = 16 * length bs)%nat by (rewrite <- Hlen16, <- HO, (app_length (O ++ o)); lia).
        replace (length (O ++ o)) with ((length bs - 1) * 16)%nat by lia. apply Nat.mod_mul. lia. }
      pose proof (pad_check_ok (O ++ o) h Hpre Hheld) as Hchk. cbn zeta in Hchk, Efin.
      destruct ((1 <=? last h 0) && (last h 0 <=? 16) && _) eqn:Eck.
      * set (f := firstn (16 - Z.to_nat (last h 0)) h) in *.
        assert (Hf : (length f <= 15)%nat) by (unfold f; rewrite firstn_length; lia).
        destruct (update_final_ok L c buf d v o rest v' f E Efin Hwl) as (buf2 & Euf & Hl & Hfst & Hun).
        { rewrite app_length. unfold zlen in *. lia. }
        exists v', buf2, (zlen o + zlen f), OK. split; [exact Euf|]. split; [exact Hl|].
        split.
        { unfold untouched. set (m := Nat.max _ _) in Hun.
          assert (Hmle : (m <= Z.to_nat (last_room a (zlen d)))%nat).
          { unfold m. rewrite app_length. rewrite Hlr. unfold zlen in *. rewrite app_length in *. destruct (v_held (c_evp c)); lia. }
          replace (Z.to_nat (last_room a (zlen d))) with (m + (Z.to_nat (last_room a (zlen d)) - m))%nat by lia.
          rewrite <- !skipn_twice, Hun. reflexivity. }
        left. split; [reflexivity|]. split; [unfold zlen in *; lia|]. split; [|exact Hto].
        replace (Z.to_nat (zlen o + zlen f)) with (length (o ++ f)) by (rewrite app_length; unfold zlen; lia).
        rewrite Hfst. unfold decryption. rewrite Ep, app_assoc, Hchk, HO. exact Hdec.
      * exists v'. eexists. exists 0, INTERNAL_ERROR. split.
        { unfold update_final. rewrite E, put_in, Efin by assumption. reflexivity. }
        split; [rewrite app_length, skipn_length; lia|]. split.
        { unfold untouched. rewrite skipn_app, skipn_all2 by (rewrite Hlr; unfold zlen; destruct (v_held (c_evp c)); lia).
          cbn [Datatypes.app]. rewrite skipn_twice. f_equal. rewrite Hlr. unfold zlen. destruct (v_held (c_evp c)); lia. }
        right. split; [reflexivity|]. intros [[msg Hmsg] _]. apply Hchk. exists msg. unfold decryption in Hmsg. rewrite Ep in Hmsg.
        rewrite HO. eapply decrypts_fun; [exact Hmsg|exact Hdec].
    + exists v'. eexists. exists 0, INTERNAL_ERROR. split.
      { unfold update_final. rewrite E, put_in, Efin by assumption. reflexivity. }
      split; [rewrite app_length, skipn_length; lia|]. split.
      { unfold untouched. rewrite skipn_app, skipn_all2 by (rewrite Hlr; unfold zlen; destruct (v_held (c_evp c)); lia).
        cbn [Datatypes.app]. rewrite skipn_twice. f_equal. rewrite Hlr. unfold zlen. destruct (v_held (c_evp c)); lia. }
      right. split; [reflexivity|]. intros [[msg Hmsg] _]. unfold decryption in Hmsg. rewrite Ep in Hmsg.
      pose proof (decrypts_fun _ _ _ _ _ _ _ Hmsg Hdec) as Emsg.
      rewrite Hheld in HbI. pose proof (in_blocks_unique _ _ HbI [] (conj eq_refl (Forall_nil _))) as ->. cbn in Emsg.
      unfold pkcs7_pad in Emsg. apply app_eq_nil in Emsg as [_ Emsg].
      assert (Z.to_nat (16 - zlen msg mod 16) <> 0)%nat by lia. destruct (Z.to_nat _); [lia|discriminate].
  - destruct Hk as [?|Eb]; [discriminate|].
    destruct Hh as [-> Hlo]; [unfold holds_back; now rewrite Ep|]. rewrite app_nil_r in Hw. subst w.
    destruct HI' as (_ & _ & _ & _ & Haad & _ & HB). rewrite Eb in HB. destruct HB as (Hviv & _ & Hst & Htx).
    cbn in Hviv, Htx, Haad. rewrite He in Htx. cbn [with_evp c_alg c_key] in Hst. rewrite Ha, Hkey in Hst.
    assert (Hdec : decrypts L a key iv (I ++ d) (O ++ o)) by (destruct a; try discriminate; exact Hst).
    assert (Hlr : last_room a (zlen d) = zlen d) by (unfold last_room; now rewrite Ep). rewrite Hlr in *.
    assert (Hob : (length o <= length buf)%nat) by (unfold zlen in *; lia).
    assert (Efin : exists v' (b : bool), evp_final L (with_evp c v) None = (v', if b then Some [] else None) /\ (b = true <-> tag_ok)).
    { unfold evp_final. cbn [with_evp c_alg c_encrypt c_evp c_key]. rewrite Ha, Eb, He, Hkey, Hviv, Htx, Haad, Htg. cbn [negb].
      unfold tag_ok. destruct (is_aead a).
      - destruct (v_tag (c_evp c)) as [g|].
        + eexists _, _. split; [reflexivity|]. unfold list_eqb, tag_of. destruct (list_eq_dec _ _ _) as [Eg|Ng].
          * split; [|auto]. intros _ _. exists g. auto.
          * split; [discriminate|]. intros H. destruct (H eq_refl) as (g' & [= <-] & Eg). contradiction.
        + exists (finished v None), false. split; [reflexivity|]. split; [discriminate|]. intros H. destruct (H eq_refl) as (g' & ? & _). discriminate.
      - exists v, true. split; [reflexivity|]. split; [discriminate|reflexivity]. }
    destruct Efin as (v' & b & Efin & Hb). destruct b.
    + assert (E0 : evp_update L c d None = (v, Some (o ++ [], zlen o))) by now rewrite app_nil_r.
      destruct (update_final_ok L c buf d v o [] v' [] E0 Efin) as (buf2 & Euf & Hl & Hfst & Hun);
        try (rewrite app_nil_r; lia).
      rewrite app_nil_r, Nat.max_id in *. change (zlen (@nil Z)) with 0 in Euf. rewrite Z.add_0_r in Euf.
      exists v', buf2, (zlen o), OK. split; [exact Euf|]. split; [exact Hl|].
      split; [unfold untouched; replace (Z.to_nat (zlen d)) with (length o) by (unfold zlen; lia); exact Hun|].
      left. split; [reflexivity|]. split; [unfold zlen; lia|]. split; [|now apply Hb].
      replace (Z.to_nat (zlen o)) with (length o) by (unfold zlen; lia). rewrite Hfst. unfold decryption. now rewrite Ep.
    + exists v'. eexists. exists 0, INTERNAL_ERROR. split.
      { unfold update_final. rewrite E, put_in, Efin by assumption. reflexivity. }
      split; [rewrite app_length, skipn_length; lia|]. split.
      { unfold untouched. rewrite skipn_app, skipn_all2 by (unfold zlen; lia). cbn [Datatypes.app]. rewrite skipn_twice. f_equal.
        unfold zlen. lia. }
      right. split; [reflexivity|]. intros [_ Ht]. apply Hb in Ht. discriminate.
Qed.

Definition tag_in (params : option input) : input := match params with Some t => t | None => Null 0 end.
Lemma last_required a n : a <> ECB -> a <> CBC -> 0 <= n < 2 ^ 31 ->
  (if is_padded a then wrap64 (PADDED_SIZE n) else if is_block a then 0 else n) = last_room a n.
Proof.
  intros H1 H2 Hn. destruct (is_padded a) eqn:Ep; [now apply padded_room|]. unfold last_room. rewrite Ep.
  destruct a; try contradiction; try discriminate; reflexivity.
Qed.

Lemma process_last_encrypt L a key iv aad c I O buf inb n params : good_clib L -> inv L a true key iv aad c I O ->
  0 <= n < 2 ^ 31 -> last_args a true n params -> last_room a n <= zlen buf -> n <= zlen inb ->
  exists v buf2 n2 tag2, process_last L c (Some buf) inb n params no_faults = Result OK (with_evp c v) buf2 n2 n tag2 /\
    0 <= n2 <= last_room a n /\ length buf2 = length buf /\ untouched n2 buf buf2 /\
    encryption L a key iv (I ++ firstn (Z.to_nat n) inb) (O ++ firstn (Z.to_nat n2) buf2) /\
    (is_aead a = true -> exists t, params = Some (Bytes t) /\
       tag2 = Bytes (tag_of L a key iv aad (O ++ firstn (Z.to_nat n2) buf2) (length t))).
Proof.
  intros HL HI Hn (A1 & A2 & A3 & A4 & _ & A6 & A7) Hroom Hin. set (d := firstn (Z.to_nat n) inb).
  assert (Hd : zlen d = n) by (unfold zlen, d; rewrite zlen_firstn; lia).
  pose proof HI as (Ha & He & _).
  destruct (encrypt_last_ok L a key iv aad c I O buf d HL HI) as (v & buf2 & n2 & E & Hn2 & Hl & Hu & Henc & Htag).
  { lia. } { destruct a; auto; contradiction. } { intros Hp. apply A3 in Hp. lia. } { now rewrite Hd. }
  rewrite Hd in *. unfold process_last. cbn [f_update f_final no_faults]. rewrite Ha, last_required by assumption.
  replace (zlen buf <? last_room a n) with false by lia. replace (zlen inb <? n) with false by lia. fold d. rewrite He.
  destruct (is_padded a) eqn:Ep.
  { assert (Eae : is_aead a = false) by (destruct a; cbn in *; congruence).
    destruct (A3 eq_refl) as [A3' _]. replace (16 <? n) with false by lia. rewrite E.
    exists v, buf2, n2. eexists. split; [reflexivity|]. repeat (split; [assumption|]). rewrite Eae. discriminate. }
  destruct (is_aead a) eqn:Eae.
  - assert (exists t, params = Some (Bytes t) /\ (length t <= 16)%nat /\ (a = POLY1305 -> length t = 16%nat)) as (t & -> & Ht & Ht').
    { destruct a; try discriminate; [destruct (A6 eq_refl) as (t & -> & Ht & _)|destruct (A7 eq_refl) as (t & -> & Ht)]; exists t; repeat split; auto; try lia; discriminate. }
    unfold last_aead. rewrite Ha.
    replace (match a with GCM => 16 <? n | _ => false end) with false
      by (destruct a; try reflexivity; specialize (A4 eq_refl); lia).
    replace (match a with GCM => 16 <? zlen t | _ => negb (zlen t =? 16) end) with false.
    2: { unfold zlen. destruct a; try discriminate; [lia|]. rewrite Ht' by reflexivity. reflexivity. }
    rewrite He. cbn [f_update f_final f_tag no_faults]. rewrite E. unfold get_tag. cbn [with_evp c_evp]. rewrite Htag by reflexivity.
    assert (Hkt : length (firstn (length t) (k_tag L a key iv aad (O ++ firstn (Z.to_nat n2) buf2))) = length t).
    { rewrite firstn_length. destruct HL as (_ & _ & _ & HT). rewrite HT. lia. }
    rewrite put_in by lia. rewrite Hkt, skipn_all2, app_nil_r by lia.
    exists v, buf2, n2. eexists. split; [reflexivity|]. repeat (split; [assumption|]).
    intros _. exists t. auto.
  - replace (is_block a) with false by (destruct a; try reflexivity; try discriminate; contradiction). rewrite E.
    exists v, buf2, n2. eexists. split; [reflexivity|]. repeat (split; [assumption|]). discriminate.
Qed.

Lemma process_last_decrypt L a key iv aad c I O buf inb n params : good_clib L -> inv L a false key iv aad c I O ->
  0 <= n < 2 ^ 31 -> last_args a false n params -> last_room a n <= zlen buf -> n <= zlen inb ->
  let d := firstn (Z.to_nat n) inb in
  exists v buf2 n2 k2 st, process_last L c (Some buf) inb n params no_faults = Result st (with_evp c v) buf2 n2 k2 (tag_in params) /\
    length buf2 = length buf /\ untouched (last_room a n) buf buf2 /\
    ((st = OK /\ k2 = n /\ 0 <= n2 <= last_room a n /\ decryption L a key iv (I ++ d) (O ++ firstn (Z.to_nat n2) buf2) /\
      tag_matches L a key iv aad (I ++ d) params) \/
     (st = INTERNAL_ERROR /\ k2 = 0 /\ n2 = n /\
      ~ ((exists msg, decryption L a key iv (I ++ d) msg) /\ tag_matches L a key iv aad (I ++ d) params))).
Proof.
  intros HL HI Hn (A1 & A2 & A3 & A4 & A5 & A6 & A7) Hroom Hin d.
  assert (Hld : length d = Z.to_nat n) by (unfold d; apply zlen_firstn; lia).
  assert (Hd : zlen d = n) by (unfold zlen; rewrite Hld; lia).
  pose proof HI as (Ha & He & _).
  assert (Hbm : is_block a = true -> (length d mod 16 = 0)%nat).
  { intros Hb. rewrite Hld. apply mod16; [lia|]. apply A3; [|reflexivity]. destruct a; try discriminate; auto; contradiction. }
  assert (Hmax : a <> POLY1305 -> zlen d <= 16).
  { intros Hne. rewrite Hd. destruct a; try contradiction; auto; now apply A3. }
  assert (Hkind : is_padded a = true \/ is_block a = false) by (destruct a; auto; contradiction).
  assert (C : forall c', inv L a false key iv aad c' I O -> with_evp c' = with_evp c ->
     (v_tag (c_evp c') = match tag_in params with Bytes t => Some t | Null _ => None end \/ is_aead a = false) ->
     exists v buf2 n2 k2 st, last_result (decrypt_last L c' buf d None None) n (tag_in params) =
       Result st (with_evp c v) buf2 n2 k2 (tag_in params) /\
    length buf2 = length buf /\ untouched (last_room a n) buf buf2 /\
    ((st = OK /\ k2 = n /\ 0 <= n2 <= last_room a n /\ decryption L a key iv (I ++ d) (O ++ firstn (Z.to_nat n2) buf2) /\
      tag_matches L a key iv aad (I ++ d) params) \/
     (st = INTERNAL_ERROR /\ k2 = 0 /\ n2 = n /\
      ~ ((exists msg, decryption L a key iv (I ++ d) msg) /\ tag_matches L a key iv aad (I ++ d) params)))).
  { intros c' HI' Hc' Htag.
    destruct (decrypt_last_res L a key iv aad c' I O buf d HL HI') as (v & buf2 & n2 & st & E & Hl & Hu & Hres);
      [lia|assumption|assumption|assumption|now rewrite Hd|]. rewrite Hd in *. cbn zeta in Hres. rewrite Hc' in E.
    assert (HT : (is_aead a = true -> exists g, v_tag (c_evp c') = Some g /\ g = tag_of L a key iv aad (I ++ d) (length g)) <->
                 tag_matches L a key iv aad (I ++ d) params).
    { unfold tag_matches. destruct Htag as [Ht|Hn']; [|rewrite Hn'; split; discriminate].
      rewrite Ht. unfold tag_in. split; intros H Hae; destruct (H Hae) as (g & Eg & Hg).
      - destruct params as [[m|t]|]; try discriminate. injection Eg as <-. exists t. auto.
      - rewrite Eg. exists g. auto. }
    rewrite E. destruct Hres as [(-> & Hn2 & Hdec & Ht)|(-> & Hno)].
    - exists v, buf2, n2, n, OK. split; [reflexivity|]. split; [assumption|]. split; [assumption|]. left.
      repeat (split; [auto|]). now apply HT.
    - exists v, buf2, n, 0, INTERNAL_ERROR. split; [reflexivity|]. split; [assumption|]. split; [assumption|]. right.
      repeat (split; [reflexivity|]). rewrite <- HT. exact Hno. }
  unfold process_last. cbn [f_update f_final no_faults]. rewrite Ha, last_required by assumption.
  replace (zlen buf <? last_room a n) with false by lia. replace (zlen inb <? n) with false by lia. fold d. rewrite He.
  fold (tag_in params). destruct (is_padded a) eqn:Ep.
  { assert (Eae : is_aead a = false) by (destruct a; cbn in *; congruence).
    destruct (A3 eq_refl) as [A31 A32]. replace (16 <? n) with false by lia. rewrite (A32 eq_refl). cbn [negb Z.eqb].
    apply (C c HI eq_refl). auto. }
  destruct (is_aead a) eqn:Eae.
  - assert (exists t, params = Some (Bytes t) /\ (length t <= 16)%nat /\ t <> [] /\ (a = POLY1305 -> length t = 16%nat)) as (t & -> & Ht & Htn & Ht').
    { destruct a; try discriminate; [destruct (A6 eq_refl) as (t & -> & Ht & Htn)|destruct (A7 eq_refl) as (t & -> & Ht)]; exists t; repeat split; auto; try lia; try discriminate. intros ->. discriminate. }
    unfold last_aead. rewrite Ha. cbn [tag_in] in *.
    replace (match a with GCM => 16 <? n | _ => false end) with false
      by (destruct a; try reflexivity; specialize (A4 eq_refl); lia).
    replace (match a with GCM => 16 <? zlen t | _ => negb (zlen t =? 16) end) with false.
    2: { unfold zlen. destruct a; try discriminate; [lia|]. rewrite Ht' by reflexivity. reflexivity. }
    rewrite He. unfold set_tag. cbn [f_update f_final f_tag no_faults orb].
    replace (length t =? 0)%nat with false by (destruct t; [contradiction|reflexivity]).
    apply C; [|reflexivity|left; reflexivity].
    destruct HI as (h1 & h2 & h3 & h4 & h5 & h6 & h7). unfold inv. cbn. repeat (split; [assumption|]).
    replace (is_block a) with false in * by (destruct a; try reflexivity; try discriminate; contradiction).
    destruct h7 as (g1 & g2 & g3 & g4). unfold invs. cbn. auto.
  - replace (is_block a) with false by (destruct a; try reflexivity; try discriminate; contradiction).
    apply (C c HI eq_refl). auto.
Qed.

Lemma process_last_refused L c buf inb n params f : 0 <= n < 2 ^ 31 ->
  ~ (last_args (c_alg c) (c_encrypt c) n params /\ last_room (c_alg c) n <= zlen buf /\ n <= zlen inb) ->
  exists st, process_last L c (Some buf) inb n params f = Result st c buf n 0 (tag_in params) /\ st <> OK.
Proof.
  intros Hn H. unfold process_last. fold (tag_in params).
  assert (R : forall st, st <> OK -> exists st', Result st c buf n 0 (tag_in params) = Result st' c buf n 0 (tag_in params) /\ st' <> OK)
    by (intros st Hs; exists st; auto).
  destruct (zlen buf <? _) eqn:E1; [apply R; discriminate|]. destruct (zlen inb <? n) eqn:E2; [apply R; discriminate|].
  destruct (is_padded (c_alg c)) eqn:Ep.
  - rewrite (padded_room (c_alg c)) in E1 by assumption.
    destruct (16 <? n) eqn:E3; [apply R; discriminate|]. destruct (c_encrypt c) eqn:Ee.
    + exfalso. apply H. unfold last_args. destruct (c_alg c); try discriminate; cbn in *; repeat split; intros; try discriminate; try lia;
        try (destruct H1 as [H1|H1]; discriminate H1); try congruence.
    + destruct (n mod 16 =? 0) eqn:E4; [|apply R; discriminate].
      exfalso. apply H. unfold last_args. destruct (c_alg c); try discriminate; cbn in *; repeat split; intros; try discriminate; try lia;
        try (destruct H1 as [H1|H1]; discriminate H1); try congruence.
  - destruct (is_aead (c_alg c)) eqn:Eae.
    + unfold last_aead. fold (tag_in params).
      destruct (match c_alg c with GCM => 16 <? n | _ => false end) eqn:E3; [apply R; discriminate|].
      destruct params as [[m|t]|]; cbn [tag_in] in *; try (apply R; discriminate).
      destruct (match c_alg c with GCM => 16 <? zlen t | _ => negb (zlen t =? 16) end) eqn:E4; [apply R; discriminate|].
      assert (G : (c_encrypt c = false -> t <> []) -> False).
      { intros Ht. apply H. unfold last_args, last_room. rewrite Ep. unfold zlen in E4.
        destruct (c_alg c); try discriminate; cbn in *; repeat split; intros; try discriminate; try lia;
          try (destruct H1 as [H1|H1]; discriminate H1); try (exists t; repeat split; auto; lia). }
      destruct (c_encrypt c) eqn:Ee; [exfalso; apply G; discriminate|].
      unfold set_tag. destruct t as [|x t]; [|exfalso; apply G; intros; discriminate].
      cbn [length Nat.eqb]. rewrite orb_true_r. apply R; discriminate.
    + destruct (is_block (c_alg c)) eqn:Eb; [apply R; discriminate|].
      assert (K : c_alg c = CTR \/ c_alg c = CHACHA20) by (destruct (c_alg c); try discriminate; auto).
      assert (G : (c_encrypt c = false -> n <= 16) -> False).
      { intros Ht. apply H. unfold last_args, last_room. rewrite Ep. destruct K as [K|K]; rewrite K; cbn; repeat split; intros; try discriminate; auto; try lia. }
      destruct (c_encrypt c) eqn:Ee; [exfalso; apply G; discriminate|].
      unfold decrypt_last. rewrite Ee, Ep, Eb. cbn [andb].
      destruct (16 <? n) eqn:E16; [|exfalso; apply G; lia].
      assert (Hd : zlen (firstn (Z.to_nat n) inb) = n) by (unfold zlen; rewrite zlen_firstn; lia).
      replace (match c_alg c with POLY1305 => false | _ => 16 <? zlen (firstn (Z.to_nat n) inb) end) with true
        by (destruct K as [K|K]; rewrite K, Hd; lia).
      apply R; discriminate.
Qed.

(** ** Decryption undoes encryption *)
Lemma lxor_byte a b : byte_ok a -> byte_ok b -> byte_ok (Z.lxor a b).
Proof.
  unfold byte_ok. intros Ha Hb. split; [apply Z.lxor_nonneg; lia|].
  destruct (Z.eq_dec (Z.lxor a b) 0) as [->|Hne]; [lia|].
  assert (0 <= Z.lxor a b) by (apply Z.lxor_nonneg; lia).
  assert (L : forall x, 0 <= x < 256 -> Z.log2 x < 8).
  { intros x Hx. destruct (Z.eq_dec x 0) as [->|]; [reflexivity|]. apply Z.log2_lt_pow2; [lia|]. exact (proj2 Hx). }
  change 256 with (2 ^ 8). apply Z.log2_lt_pow2; [lia|].
  pose proof (Z.log2_lxor a b (proj1 Ha) (proj1 Hb)). pose proof (L a Ha). pose proof (L b Hb). lia.
Qed.
Lemma xor_bytes a : forall b, bytes_ok a -> bytes_ok b -> bytes_ok (xor a b).
Proof.
  unfold bytes_ok. induction a as [|x a IH]; intros [|y b] Ha Hb; cbn; constructor; inversion Ha; inversion Hb; subst.
  - now apply lxor_byte.
  - now apply IH.
Qed.
Lemma xor_twice a : forall b, length b = length a -> xor (xor a b) b = a.
Proof.
  induction a as [|x a IH]; intros [|y b] H; cbn in *; try discriminate; [reflexivity|].
  f_equal; [now rewrite Z.lxor_assoc, Z.lxor_nilpotent, Z.lxor_0_r|]. apply IH. lia.
Qed.
Lemma blocks_bytes bs : bytes_ok (concat bs) -> Forall bytes_ok bs.
Proof.
  induction bs as [|b bs IH]; cbn; intros H; constructor; apply Forall_app in H as [H1 H2]; auto.
Qed.
Lemma cbc_inverse L key ps : good_clib L -> forall prev, length prev = 16%nat -> bytes_ok prev ->
  Forall (fun b : list Z => length b = 16%nat) ps -> Forall bytes_ok ps ->
  cbc_decryption (k_dec L key) prev (cbc_encryption (k_enc L key) prev ps) = ps /\
  Forall (fun b : list Z => length b = 16%nat) (cbc_encryption (k_enc L key) prev ps).
Proof.
  intros HL. pose proof HL as (He & Hd & Hb & _). induction ps as [|p ps IH]; intros prev Hl Hp H16 Hok; cbn; [auto|].
  inversion H16 as [|? ? Hp16 H16']; inversion Hok as [|? ? Hpok Hok']; subst.
  assert (Hx : length (xor p prev) = 16%nat) by (rewrite xor_length; lia).
  assert (Hxb : bytes_ok (xor p prev)) by now apply xor_bytes.
  destruct (Hb key (xor p prev) Hx Hxb) as [Hc Hinv].
  destruct (IH (k_enc L key (xor p prev)) (He _ _ Hx) Hc H16' Hok') as [E F].
  rewrite Hinv, xor_twice, E by lia. split; [reflexivity|]. constructor; auto.
Qed.
Lemma streamed_inverse st text res : streamed st text res -> streamed st res text.
Proof.
  intros [Hl Hn]. split; [now symmetry|]. intros i Hi. rewrite Hn by lia.
  now rewrite Z.lxor_assoc, Z.lxor_nilpotent, Z.lxor_0_r.
Qed.
Lemma decrypts_encrypts L a key iv msg res : good_clib L -> bytes_ok msg -> bytes_ok iv ->
  (is_chained a = true -> length iv = 16%nat) -> encrypts L a key iv msg res -> decrypts L a key iv res msg.
Proof.
  intros HL Hm Hi Hl. pose proof HL as (He & Hd & Hb & _).
  assert (A : forall ps, in_blocks msg ps -> exists cs, in_blocks (concat (map (k_enc L key) ps)) cs /\ msg = concat (map (k_dec L key) cs)).
  { intros ps [<- H16]. exists (map (k_enc L key) ps). apply blocks_bytes in Hm. split.
    - split; [reflexivity|]. induction H16; cbn; constructor; inversion Hm; auto.
    - rewrite map_map. f_equal. symmetry. rewrite <- (map_id ps) at 2. apply map_ext_in. intros b Hin.
      rewrite Forall_forall in H16, Hm. apply (Hb key b); auto. now apply Hm. }
  assert (B : length iv = 16%nat -> forall ps, in_blocks msg ps -> exists cs, in_blocks (concat (cbc_encryption (k_enc L key) iv ps)) cs /\
      msg = concat (cbc_decryption (k_dec L key) iv cs)).
  { intros H16i ps [<- H16]. exists (cbc_encryption (k_enc L key) iv ps). apply blocks_bytes in Hm.
    destruct (cbc_inverse L key ps HL iv H16i Hi H16 Hm) as [E F]. rewrite E. repeat split; auto. }
  destruct a; cbn in *; try apply streamed_inverse; intros (ps & Hps & ->); auto.
Qed.
Lemma pkcs7_inj m1 m2 : pkcs7_pad m1 = pkcs7_pad m2 -> m1 = m2.
Proof.
  unfold pkcs7_pad. set (p := 16 - zlen m1 mod 16). set (q := 16 - zlen m2 mod 16). intros E.
  assert (Hp : 1 <= p <= 16) by (unfold p; lia). assert (Hq : 1 <= q <= 16) by (unfold q; lia).
  assert (El : last (m1 ++ repeat p (Z.to_nat p)) 0 = last (m2 ++ repeat q (Z.to_nat q)) 0) by now rewrite E.
  replace (Z.to_nat p) with (Z.to_nat p - 1 + 1)%nat in El by lia. replace (Z.to_nat q) with (Z.to_nat q - 1 + 1)%nat in El by lia.
  rewrite !repeat_app, !app_assoc in El. cbn [repeat] in El. rewrite !last_last in El.
  assert (length m1 = length m2).
  { assert (length (m1 ++ repeat p (Z.to_nat p)) = length (m2 ++ repeat q (Z.to_nat q))) by now rewrite E.
    rewrite !app_length, !repeat_length in H. lia. }
  apply (f_equal (firstn (length m1))) in E. rewrite firstn_exact in E by reflexivity. now rewrite firstn_exact in E by assumption.
Qed.
Lemma pkcs7_bytes m : bytes_ok m -> bytes_ok (pkcs7_pad m).
Proof.
  intros H. unfold pkcs7_pad. apply Forall_app. split; [exact H|]. apply Forall_forall. intros x Hx. apply repeat_spec in Hx as ->.
  unfold byte_ok. lia.
Qed.
Lemma decryption_fun L a key iv text m1 m2 : decryption L a key iv text m1 -> decryption L a key iv text m2 -> m1 = m2.
Proof.
  unfold decryption. intros H1 H2. pose proof (decrypts_fun _ _ _ _ _ _ _ H1 H2) as E. destruct (is_padded a); [now apply pkcs7_inj|exact E].
Qed.
Lemma decryption_encryption L a key iv msg res : good_clib L -> bytes_ok msg -> bytes_ok iv ->
  (is_chained a = true -> length iv = 16%nat) -> encryption L a key iv msg res -> decryption L a key iv res msg.
Proof.
  intros HL Hm Hi Hl H. unfold encryption, decryption in *. apply decrypts_encrypts; auto. destruct (is_padded a); auto. now apply pkcs7_bytes.
Qed.
