(** Proofs about whole messages and the provider's ciphers. *)
From Verif Require Import Base S_Bytes M_Mac M_Unwrap P_Unwrap M_Cipher S_Cipher P_Cipher P_Cipher2 M_Provider S_Provider P_Provider.

Definition alike (p q : pctx) : Prop :=
  p_alg q = p_alg p /\ p_encrypt q = p_encrypt p /\ p_key q = p_key p /\ p_delete q = p_delete p /\ p_iv q = p_iv p /\ p_tag q = p_tag p.
Lemma alike_trans p q r : alike p q -> alike q r -> alike p r.
Proof. unfold alike. intuition congruence. Qed.
Lemma alike_refl p : alike p p.
Proof. unfold alike. intuition. Qed.

(** The API context with which the next call with output works. *)
Definition sees (ks : keys) (p : pctx) (c : ctx) : Prop :=
  p_cipher p = Some c \/ p_cipher p = None /\ start ks p (Null 0) false = Some c.

Lemma sees_call L ks p c h out inp pf lf : sees ks p c -> p_key p = Some h ->
  cipher_cipher L ks p (Some out) inp false pf lf = cipher_cipher L ks (set_cipher p (Some c)) (Some out) inp false pf lf.
Proof.
  intros [H|(H & Hs)] Hk; unfold cipher_cipher; cbn [p_key p_cipher set_cipher]; rewrite Hk, H; [reflexivity|].
  destruct inp; rewrite Hs; reflexivity.
Qed.

Definition aad_input (aad : option (list Z)) : input := match aad with Some d => Bytes d | None => Null 0 end.

Lemma ready_start ks p a encrypt key aad : ready ks p a encrypt key -> aad_short aad ->
  exists P1 P2 c0, start ks p (aad_input aad) false = Some c0 /\ create a encrypt key P1 P2 = Some c0 /\ short_aad a P2 /\
    vector_of a P1 P2 = vector p /\ associated_of a P2 = associated a aad.
Proof.
  intros (Ha & He & _ & Hi & _ & Hg & h & Hk & Hl) H31.
  unfold start. rewrite Hk, Hl, Ha, He.
  assert (H16 : in_length (Bytes (firstn 16 (p_iv p))) = 16) by (cbn [in_length]; rewrite firstn_length, Hi; reflexivity).
  assert (H12 : in_length (Bytes (firstn 12 (p_iv p))) = 12) by (cbn [in_length]; rewrite firstn_length, Hi; reflexivity).
  assert (Hint : int_of (in_length (aad_input aad)) = zlen (in_bytes (aad_input aad))).
  { destruct aad as [d|]; [|reflexivity]. cbn in H31 |- *. rewrite int_of_small; [reflexivity|unfold zlen in H31; lia]. }
  assert (Hbad : bad_input (aad_input aad) = false) by (destruct aad; reflexivity).
  assert (Hneg : (negb (null (aad_input aad)) && (int_of (in_length (aad_input aad)) <? 0)) = false).
  { rewrite Hint. destruct aad; cbn; [|reflexivity]. unfold zlen. apply Z.ltb_ge. lia. }
  assert (Hfirst : firstn (Z.to_nat (int_of (in_length (aad_input aad)))) (in_bytes (aad_input aad)) = in_bytes (aad_input aad)).
  { rewrite Hint. apply firstn_all2. unfold zlen. lia. }
  assert (Hsh : forall b, short_aad b (aad_input aad)).
  { intros b _. destruct aad; cbn; [exact H31|reflexivity]. }
  assert (Has : in_bytes (aad_input aad) = match aad with Some d => d | None => [] end) by (destruct aad; reflexivity).
  unfold vector. rewrite Ha.
  destruct a; cbn [vector_length]; cbn [good_key] in Hg.
  - exists (Bytes (firstn 16 (p_iv p))), (Null 0). eexists. unfold create.
    assert (K : ((zlen key =? 16) || (zlen key =? 32)) = true) by (destruct Hg as [-> | ->]; reflexivity).
    rewrite K. cbn [negb]. split; [reflexivity|]. split; [reflexivity|]. split; [discriminate|]. split; reflexivity.
  - exists (Bytes (firstn 16 (p_iv p))), (Null 0). eexists. unfold create.
    assert (K : ((zlen key =? 16) || (zlen key =? 32)) = true) by (destruct Hg as [-> | ->]; reflexivity).
    rewrite K. cbn [negb]. split; [reflexivity|]. split; [reflexivity|]. split; [discriminate|]. split; reflexivity.
  - exists (Bytes (firstn 16 (p_iv p))), (Null 0). eexists. unfold create.
    assert (K : ((zlen key =? 16) || (zlen key =? 32)) = true) by (destruct Hg as [-> | ->]; reflexivity).
    rewrite K, H16. cbn [negb null orb Z.eqb Pos.eqb]. split; [reflexivity|]. split; [reflexivity|]. split; [discriminate|]. split; [|reflexivity]. cbn [vector_of in_bytes]. apply firstn_all2. lia.
  - exists (Bytes (firstn 16 (p_iv p))), (Null 0). eexists. unfold create.
    assert (K : ((zlen key =? 16) || (zlen key =? 32)) = true) by (destruct Hg as [-> | ->]; reflexivity).
    rewrite K, H16. cbn [negb null orb Z.eqb Pos.eqb]. split; [reflexivity|]. split; [reflexivity|]. split; [discriminate|]. split; [|reflexivity]. cbn [vector_of in_bytes]. apply firstn_all2. lia.
  - exists (Bytes (firstn 16 (p_iv p))), (Null 0). eexists. unfold create.
    assert (K : ((zlen key =? 16) || (zlen key =? 32)) = true) by (destruct Hg as [-> | ->]; reflexivity).
    rewrite K, H16. cbn [negb null orb Z.eqb Pos.eqb]. split; [reflexivity|]. split; [reflexivity|]. split; [discriminate|]. split; [|reflexivity]. cbn [vector_of in_bytes]. apply firstn_all2. lia.
  - exists (Bytes (firstn 12 (p_iv p))), (aad_input aad). eexists. unfold create, create_aead.
    assert (K : ((zlen key =? 16) || (zlen key =? 32)) = true) by (destruct Hg as [-> | ->]; reflexivity).
    rewrite K, H12, Hbad, Hneg. cbn [negb null orb Z.eqb Pos.eqb]. split; [reflexivity|]. split; [reflexivity|].
    split; [apply Hsh|]. split; [reflexivity|]. unfold associated_of, associated. cbn [is_aead]. exact Has.
  - exists (Bytes (skipn 4 (firstn 16 (p_iv p)))), (Bytes (firstn 4 (firstn 16 (p_iv p)))). eexists. unfold create.
    rewrite Hg. cbn [negb null orb Z.eqb Pos.eqb in_length]. rewrite firstn_length, skipn_length, firstn_length, Hi.
    cbn [Nat.min Nat.sub negb orb]. split; [reflexivity|]. split; [reflexivity|]. split; [discriminate|].
    split; [|reflexivity]. cbn [vector_of in_bytes]. rewrite firstn_skipn. apply firstn_all2. lia.
  - exists (Bytes (firstn 12 (p_iv p))), (aad_input aad). eexists. unfold create, create_aead.
    rewrite Hg, H12, Hbad, Hneg. cbn [negb null orb Z.eqb Pos.eqb]. split; [reflexivity|]. split; [reflexivity|].
    split; [apply Hsh|]. split; [reflexivity|]. unfold associated_of, associated. cbn [is_aead]. exact Has.
Qed.

(** After the associated data, if any, there is a fresh API context with them. *)
Lemma begins_sees L ks p a encrypt key aad p1 : ready ks p a encrypt key -> aad_short aad -> begins L ks p aad p1 ->
  exists P1 P2 c0, sees ks p1 c0 /\ create a encrypt key P1 P2 = Some c0 /\ short_aad a P2 /\
    vector_of a P1 P2 = vector p /\ associated_of a P2 = associated a aad /\ alike p p1 /\ p_rem p1 = p_rem p.
Proof.
  intros R S B. destruct (ready_start ks p a encrypt key aad R S) as (P1 & P2 & c0 & E & C & Sh & V & A).
  exists P1, P2, c0. destruct R as (Ha & He & Hn & Hi & Ht & Hg & h & Hk & Hl).
  inversion B as [E1 E2|d q n E1 E2]; subst.
  - split; [right; split; [exact Hn|exact E]|]. repeat split; auto using alike_refl.
  - unfold update_aad, cipher_cipher in E1. rewrite Hk, Hn in E1. cbn [aad_input] in E. rewrite E in E1.
    injection E1 as <- _. split; [now left|]. repeat split; auto.
Qed.

Definition kept_of (a : calg) (r : list Z) (ds : list (list Z)) : list Z := if is_block a then kept r ds else r ++ concat ds.

Section Message.
Variables (L : clib) (a : calg) (encrypt : bool) (key : list Z) (P1 P2 : input) (c0 : ctx) (ks : keys) (h : Z).
Hypotheses (HL : good_clib L) (Hah : k_ahead L = false) (Hc : create a encrypt key P1 P2 = Some c0) (Hs : short_aad a P2).

Lemma one_update p c ins outs r out d : reached L c0 c ins outs -> bs_ok a p r -> p_key p = Some h -> sees ks p c ->
  zlen d < 2 ^ 31 -> zlen out = update_room a (zlen d) ->
  exists c2 r2 p2 out2 n, update L ks p out d = Done true p2 out2 (Some n) /\ alike p p2 /\ bs_ok a p2 r2 /\ sees ks p2 c2 /\
    length out2 = length out /\ 0 <= n <= zlen out /\
    let all := joined r d in
    let m := if is_block a then (16 * (length all / 16))%nat else length all in
    reached L c0 c2 (ins ++ firstn m all) (outs ++ firstn (Z.to_nat n) out2) /\ r2 = skipn m all.
Proof.
  intros R B K S Hd Ho.
  assert (B2 : bs_ok a (set_cipher p (Some c)) r) by exact B.
  destruct (update_step L a encrypt key P1 P2 c0 HL Hah Hc Hs ks (set_cipher p (Some c)) c ins outs r out d h R B2 K eq_refl Hd Ho)
    as (c2 & r2 & out2 & n & E & Hl & Hn & R2 & Hr2 & Hb2).
  exists c2, r2, (set_rem (set_cipher (set_cipher p (Some c)) (Some c2)) r2), out2, n.
  split; [unfold update; rewrite (sees_call L ks p c h) by assumption; exact E|].
  split; [unfold alike; cbn; repeat split|]. split; [split; [exact (proj1 B)|split; [reflexivity|exact Hb2]]|].
  split; [now left|]. split; [exact Hl|]. split; [exact Hn|]. split; [exact R2|exact Hr2].
Qed.

Lemma all_updates ds : forall p c ins outs r p2 outs2, reached L c0 c ins outs -> bs_ok a p r -> p_key p = Some h -> sees ks p c ->
  Forall (fun d => zlen d < 2 ^ 31) ds -> updates L ks p ds p2 outs2 ->
  exists c2 ins2 r2, alike p p2 /\ bs_ok a p2 r2 /\ sees ks p2 c2 /\ reached L c0 c2 (ins ++ ins2) (outs ++ outs2) /\
    ins2 ++ r2 = kept_of a r ds.
Proof.
  induction ds as [|d ds IH]; intros p c ins outs r p2 outs2 R B K S F U.
  - inversion U; subst. exists c, [], r. rewrite !app_nil_r. split; [apply alike_refl|]. split; [exact B|]. split; [exact S|].
    split; [exact R|]. unfold kept_of. cbn. rewrite app_nil_r. now destruct (is_block a).
  - inversion U as [|q d0 ds0 out p1 out1 n p3 outs3 Hroom E U2]; subst. inversion F as [|x l Hd F2]; subst.
    assert (Halg : p_alg p = a) by exact (proj1 B). rewrite Halg in Hroom.
    destruct (one_update p c ins outs r out d R B K S Hd Hroom) as (c2 & r2 & p2' & out2 & n' & E' & Al & B2 & S2 & _ & _ & R2 & Hr2).
    rewrite E in E'. injection E' as <- <- <-.
    assert (K2 : p_key p1 = Some h) by (rewrite <- K; apply Al).
    destruct (IH p1 c2 _ _ r2 p2 outs3 R2 B2 K2 S2 F2 U2) as (c3 & ins3 & r3 & Al3 & B3 & S3 & R3 & Hk3).
    cbv zeta in R2, Hr2. set (all := joined r d) in *.
    set (m := if is_block a then (16 * (length all / 16))%nat else length all) in *.
    exists c3, (firstn m all ++ ins3), r3. split; [eapply alike_trans; eassumption|]. split; [exact B3|]. split; [exact S3|].
    split; [rewrite !app_assoc; rewrite <- app_assoc in R3; rewrite !app_assoc in *; exact R3|].
    rewrite <- app_assoc, Hk3. unfold kept_of, m in *. destruct (is_block a) eqn:Eb.
    + cbn [kept]. fold all. now rewrite Hr2.
    + rewrite Hr2. cbn [concat]. rewrite skipn_all2 by lia. rewrite firstn_all2 by lia. cbn [List.app].
      destruct B as (_ & _ & Hrl). unfold block_size in Hrl. rewrite Eb in Hrl. cbn in Hrl. destruct r; [|cbn in Hrl; lia].
      unfold all, joined. destruct d; reflexivity.
Qed.
End Message.

Lemma reached_start L c0 : reached L c0 c0 [] [].
Proof. exists []. split; [constructor|constructor]. Qed.

Lemma splice_all (out buf : list Z) n : length buf = length out -> firstn n (splice out 0 (firstn n buf)) = firstn n buf.
Proof.
  intros H. unfold splice. cbn [firstn List.app Nat.add]. rewrite firstn_app, (firstn_all2 (firstn n buf)) by (rewrite firstn_length; lia).
  destruct (Nat.le_gt_cases n (length buf)).
  - rewrite firstn_length. replace (n - Nat.min n (length buf))%nat with 0%nat by lia. cbn. apply app_nil_r.
  - rewrite (skipn_all2 (n := length (firstn n buf)) out) by (rewrite firstn_length; lia). rewrite firstn_nil. apply app_nil_r.
Qed.

(** What of the first pieces has gone through is whole blocks. *)
Lemma ins_blocks L a encrypt key P1 P2 c0 c ins outs : good_clib L -> create a encrypt key P1 P2 = Some c0 -> short_aad a P2 ->
  reached L c0 c ins outs -> is_block a = true -> (length ins mod 16 = 0)%nat.
Proof.
  intros HL Hc Hs (calls & R & F) Hb.
  pose proof (running_history L a encrypt key P1 P2 c0 calls c ins outs HL Hc Hs R F) as H.
  assert (Hex : exists bs, in_blocks ins bs).
  { destruct encrypt; [unfold encrypts in H|destruct H as (held & H & _); unfold decrypts in H];
      destruct a; try discriminate; destruct H as (bs & H & _); exists bs; exact H. }
  destruct Hex as (bs & <- & F16). rewrite len16_concat by exact F16. rewrite Nat.mul_comm. apply Nat.mod_mul. lia.
Qed.

Lemma block_nat a : (Z.to_nat (block_size a) = if is_block a then 16 else 1)%nat.
Proof. unfold block_size. now destruct (is_block a). Qed.

(** The last call of an encryption. *)
Lemma final_encrypts L ks p a key P1 P2 c0 c ins outs r h out : good_clib L -> create a true key P1 P2 = Some c0 -> short_aad a P2 ->
  reached L c0 c ins outs -> bs_ok a p r -> p_key p = Some h -> sees ks p c -> length (p_tag p) = 16%nat -> zlen out = final_room a ->
  let msg := ins ++ r in
  let iv := vector_of a P1 P2 in
  if complete a msg
  then exists p2 out2 n, final L ks p (Some out) = Done true p2 out2 (Some n) /\ length out2 = length out /\
         encryption L a key iv msg (outs ++ firstn (Z.to_nat n) out2) /\
         (is_aead a = true -> p_tag p2 = tag_of L a key iv (associated_of a P2) (outs ++ firstn (Z.to_nat n) out2) 16)
  else exists p2, final L ks p (Some out) = Done false p2 out (Some 0).
Proof.
  intros HL Hc Hs R (Halg & Hr & Hrl) K S Ht Ho msg iv.
  unfold final. rewrite (sees_call L ks p c h) by assumption.
  unfold cipher_cipher. cbn [p_key p_cipher set_cipher p_alg p_rem p_tag]. rewrite K, Halg, Hr.
  destruct R as (calls & R & F). pose proof R as R0.
  destruct (match a with CBC | ECB => true | _ => false end) eqn:Eu.
  - assert (Hb : is_block a = true) by (destruct a; try discriminate; reflexivity).
    assert (Hp : is_padded a = false) by (destruct a; try discriminate; reflexivity).
    assert (Hae : is_aead a = false) by (destruct a; try discriminate; reflexivity).
    pose proof (ins_blocks L a true key P1 P2 c0 c ins outs HL Hc Hs (ex_intro _ calls (conj R F)) Hb) as Hm.
    rewrite block_nat, Hb in Hrl.
    assert (Hcomp : complete a msg = match r with [] => true | _ => false end).
    { assert (E : complete a msg = (zlen msg mod 16 =? 0)) by (unfold complete; destruct a; try discriminate; reflexivity).
      rewrite E. unfold msg, zlen. rewrite app_length.
      assert (E2 : Z.of_nat (length ins + length r) mod 16 = Z.of_nat (length r)).
      { pose proof (Nat.div_mod (length ins) 16 ltac:(lia)) as Hdm. rewrite Hm in Hdm.
        replace (Z.of_nat (length ins + length r)) with (Z.of_nat (length r) + Z.of_nat (length ins / 16) * 16) by lia.
        rewrite Z.mod_add by lia. apply Z.mod_small. lia. }
      rewrite E2. destruct r; reflexivity. }
    rewrite Hcomp. destruct r as [|x r']; [|eexists; reflexivity].
    eexists _, out, 0. split; [reflexivity|]. split; [reflexivity|].
    cbn [Z.to_nat firstn]. rewrite app_nil_r. unfold msg. rewrite app_nil_r. split; [|rewrite Hae; discriminate].
    unfold encryption. rewrite Hp.
    exact (running_history L a true key P1 P2 c0 calls c ins outs HL Hc Hs R F).
  - assert (Hcomp : complete a msg = true) by (unfold complete; destruct a; try discriminate; reflexivity).
    rewrite Hcomp.
    assert (Hrz : zlen r < 16 /\ (is_block a = false -> zlen r = 0)).
    { rewrite block_nat in Hrl. unfold zlen. destruct (is_block a); [split; [lia|discriminate]|split; lia]. }
    destruct Hrz as (Hr16 & Hr0).
    set (params := if is_aead a then Some (Bytes (p_tag p)) else None).
    assert (Hargs : last_args a true (zlen r) params).
    { unfold last_args, params. split; [intros ->; discriminate|]. split; [intros ->; discriminate|].
      split; [intros _; split; [lia|discriminate]|]. split; [intros ->; cbn in Hr0; lia|]. split; [discriminate|].
      split; intros ->; cbn [is_aead]; exists (p_tag p); (split; [reflexivity|]); [split; [lia|discriminate]|exact Ht]. }
    assert (Hroom : last_room a (zlen r) <= zlen out).
    { rewrite Ho. unfold last_room, final_room, block_size. destruct (is_padded a) eqn:Ep.
      - replace (is_block a) with true by (destruct a; try discriminate; reflexivity). cbn.
        rewrite Z.div_small by (unfold zlen in *; lia). lia.
      - assert (Hb : is_block a = false) by (destruct a; try discriminate; reflexivity). rewrite Hb. cbn. rewrite (Hr0 Hb). lia. }
    assert (Hn : 0 <= zlen r < 2 ^ 31) by (unfold zlen in *; lia).
    destruct (encrypts_history L a key P1 P2 c0 calls c ins outs out r (zlen r) params HL Hc Hs R F Hn Hargs Hroom (Z.le_refl _))
      as (c2 & buf2 & n2 & tag2 & E & Henc & Htag).
    destruct (process_last_history L a true key P1 P2 c0 calls c ins outs out r (zlen r) params HL Hc Hs R F Hn)
      as (st' & c2' & buf2' & n2' & k2' & tag2' & E' & Hlen & _).
    rewrite E in E'. injection E' as <- <- <- <- <- <-.
    rewrite E. eexists _, _, n2. split; [reflexivity|].
    assert (Hfr : firstn (Z.to_nat (zlen r)) r = r) by (apply firstn_all2; unfold zlen; lia).
    rewrite Hfr in Henc. cbv zeta in Henc, Htag. fold msg iv in Henc. fold iv in Htag.
    rewrite splice_all by exact Hlen. split; [rewrite splice_length; [reflexivity|rewrite firstn_length; lia]|].
    split; [exact Henc|]. intros Hae. destruct (Htag Hae) as (t & Et & Et2). unfold params in Et. rewrite Hae in Et. injection Et as <-.
    rewrite Et2, Ht. reflexivity.
Qed.

(** The last call of a decryption. *)
Lemma final_decrypts L ks p a key P1 P2 c0 c ins outs r h out : good_clib L -> create a false key P1 P2 = Some c0 -> short_aad a P2 ->
  reached L c0 c ins outs -> bs_ok a p r -> p_key p = Some h -> sees ks p c -> length (p_tag p) = 16%nat -> zlen out = final_room a ->
  let text := ins ++ r in
  let iv := vector_of a P1 P2 in
  exists b p2 out2 n, final L ks p (Some out) = Done b p2 out2 (Some n) /\ length out2 = length out /\
    (b = true <-> (exists msg, decryption L a key iv text msg) /\
       (is_aead a = true -> p_tag p = tag_of L a key iv (associated_of a P2) text 16)) /\
    (b = true -> decryption L a key iv text (outs ++ firstn (Z.to_nat n) out2)).
Proof.
  intros HL Hc Hs R (Halg & Hr & Hrl) K S Ht Ho text iv.
  unfold final. rewrite (sees_call L ks p c h) by assumption.
  unfold cipher_cipher. cbn [p_key p_cipher set_cipher p_alg p_rem p_tag]. rewrite K, Halg, Hr.
  pose proof R as R1. destruct R as (calls & R & F).
  assert (Hbad : is_block a = true -> r <> [] -> ~ exists msg, decryption L a key iv text msg).
  { intros Hb Hne (msg & D).
    pose proof (ins_blocks L a false key P1 P2 c0 c ins outs HL Hc Hs R1 Hb) as Hm.
    rewrite block_nat, Hb in Hrl.
    assert (Hex : exists bs, in_blocks text bs).
    { unfold decryption, decrypts in D. destruct a; try discriminate; destruct D as (bs & D & _); exists bs; exact D. }
    destruct Hex as (bs & Eb & F16). assert (E : length text = (16 * length bs)%nat) by (rewrite <- Eb; now apply len16_concat).
    unfold text in E. rewrite app_length in E. destruct r; [congruence|].
    pose proof (Nat.div_mod (length ins) 16 ltac:(lia)). cbn [length] in *. lia. }
  destruct (match a with CBC | ECB => true | _ => false end) eqn:Eu.
  - assert (Hb : is_block a = true) by (destruct a; try discriminate; reflexivity).
    assert (Hp : is_padded a = false) by (destruct a; try discriminate; reflexivity).
    assert (Hae : is_aead a = false) by (destruct a; try discriminate; reflexivity).
    destruct r as [|x r'].
    + eexists true, _, out, 0. split; [reflexivity|]. split; [reflexivity|].
      pose proof (running_history L a false key P1 P2 c0 calls c ins outs HL Hc Hs R F) as (held & D & Hh).
      rewrite Hp in Hh. cbn [andb] in Hh. destruct held; [|discriminate]. rewrite app_nil_r in D.
      assert (D2 : decryption L a key iv text outs) by (unfold decryption, text; rewrite Hp, app_nil_r; exact D).
      cbn [Z.to_nat firstn]. rewrite app_nil_r. split; [|intros _; exact D2].
      split; [|reflexivity]. intros _. split; [exists outs; exact D2|rewrite Hae; discriminate].
    + eexists false, _, out, 0. split; [reflexivity|]. split; [reflexivity|]. split; [|discriminate].
      split; [discriminate|]. intros (Hm & _). exfalso. refine (Hbad Hb _ Hm). discriminate.
  - assert (Hrz : zlen r < 16 /\ (is_block a = false -> zlen r = 0)).
    { rewrite block_nat in Hrl. unfold zlen. destruct (is_block a); [split; [lia|discriminate]|split; lia]. }
    destruct Hrz as (Hr16 & Hr0).
    set (params := if is_aead a then Some (Bytes (p_tag p)) else None).
    assert (Hn : 0 <= zlen r < 2 ^ 31) by (unfold zlen in *; lia).
    assert (Hfr : firstn (Z.to_nat (zlen r)) r = r) by (apply firstn_all2; unfold zlen; lia).
    destruct (process_last_history L a false key P1 P2 c0 calls c ins outs out r (zlen r) params HL Hc Hs R F Hn)
      as (st' & c2' & buf2' & n2' & k2' & tag2' & E' & Hlen & _ & Hcase).
    destruct (Z.eq_dec (zlen r) 0) as [Z0|Z0].
    + assert (Hargs : last_args a false (zlen r) params).
      { unfold last_args, params. rewrite Z0. split; [intros ->; discriminate|]. split; [intros ->; discriminate|].
        split; [intros _; split; [lia|reflexivity]|]. split; [lia|]. split; [lia|].
        split; intros ->; cbn [is_aead]; exists (p_tag p); (split; [reflexivity|]); [|exact Ht].
        split; [lia|]. intros _ E. rewrite E in Ht. discriminate. }
      assert (Hroom : last_room a (zlen r) <= zlen out).
      { rewrite Ho, Z0. unfold last_room, final_room, block_size. destruct (is_padded a) eqn:Ep.
        - replace (is_block a) with true by (destruct a; try discriminate; reflexivity). cbn. lia.
        - destruct (is_block a); cbn; lia. }
      destruct (decrypts_history L a key P1 P2 c0 calls c ins outs out r (zlen r) params HL Hc Hs R F Hn Hargs Hroom (Z.le_refl _))
        as (st & c2 & buf2 & n2 & k2 & tag2 & E & Hiff & Hdec).
      rewrite E in E'. injection E' as <- <- <- <- <- <-.
      rewrite Hfr in Hiff, Hdec. fold text iv in Hiff, Hdec. rewrite E.
      assert (Htm : tag_matches L a key iv (associated_of a P2) text params <->
                    (is_aead a = true -> p_tag p = tag_of L a key iv (associated_of a P2) text 16)).
      { unfold tag_matches, params. split; intros H Hae; specialize (H Hae); rewrite Hae in *.
        - destruct H as (t & E1 & E2). injection E1 as <-. rewrite Ht in E2. exact E2.
        - exists (p_tag p). split; [reflexivity|]. rewrite Ht. exact H. }
      rewrite Htm in Hiff. clear Htm.
      destruct st;
        try (eexists false, _, out, 0; split; [reflexivity|]; split; [reflexivity|]; split; [|discriminate];
             split; [discriminate|]; intros H; apply Hiff in H; discriminate).
      eexists true, _, _, n2. split; [reflexivity|].
      rewrite splice_all by exact Hlen. split; [rewrite splice_length; [reflexivity|rewrite firstn_length; lia]|].
      split; [|intros _; now apply Hdec]. split; [intros _; now apply Hiff|reflexivity].
    + assert (Hb : is_block a = true) by (destruct (is_block a); [reflexivity|exfalso; apply Z0; now apply Hr0]).
      assert (Hpad : is_padded a = true) by (destruct a; try discriminate; reflexivity).
      assert (Hst : st' <> OK).
      { destruct Hcase as [((_ & _ & Ha & _) & _)|(H & _)]; [|exact H].
        destruct (Ha Hpad) as (_ & Hm). specialize (Hm eq_refl). rewrite Z.mod_small in Hm by (unfold zlen in *; lia). congruence. }
      rewrite E'. destruct st'; try congruence;
        (eexists false, _, out, 0; split; [reflexivity|]; split; [reflexivity|]; split; [|discriminate];
         split; [discriminate|]; intros (Hm & _); exfalso; refine (Hbad Hb _ Hm); intros ->; apply Z0; reflexivity).
Qed.
