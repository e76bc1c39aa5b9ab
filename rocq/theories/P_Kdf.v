(** Proofs about key derivation. *)
From Verif Require Import Base M_Rights M_Mac M_Kdf S_Rights S_Mac S_Kdf P_Rights P_Mac.

(** ** The expansion loop *)
Lemma copy_to_ok buf pos src n : 0 <= pos -> 0 <= n -> n <= zlen src -> pos + n <= zlen buf ->
  copy_to buf pos src n = Some (firstn (Z.to_nat pos) buf ++ firstn (Z.to_nat n) src ++ skipn (Z.to_nat (pos + n)) buf).
Proof.
  intros. unfold copy_to. replace ((n <=? zlen src) && (pos + n <=? zlen buf)) with true by lia. reflexivity.
Qed.
Lemma copy_to_len (buf src : list Z) pos n : 0 <= pos -> 0 <= n -> n <= zlen src -> pos + n <= zlen buf ->
  zlen (firstn (Z.to_nat pos) buf ++ firstn (Z.to_nat n) src ++ skipn (Z.to_nat (pos + n)) buf) = zlen buf.
Proof. intros. unfold zlen in *. rewrite !app_length, !firstn_length, skipn_length. lia. Qed.

Section Expand.
Variables (block : Z -> list Z -> Z -> bool -> out) (T : nat -> list Z) (P : Z -> list Z -> Z -> Prop).
Variables (len n r : Z) (answers : nat -> bool).
Hypothesis Hlen : 0 < len.
Hypothesis HT : forall i, (1 <= i)%nat -> zlen (T i) = len.
Hypothesis Hn : 0 <= n.
Hypothesis Hr : r = rounds n len.
Hypothesis Hblock : forall i tag tl a, 1 <= i <= r -> P i tag tl ->
  match block i tag tl a with
  | Oob => False
  | Ret OK tag' m => m = len /\ firstn (Z.to_nat len) tag' = T (Z.to_nat i) /\ len <= zlen tag' /\ P (i + 1) tag' len
  | Ret _ _ _ => a = false
  end.

Lemma rounds_bounds : n = len * (n / len) + n mod len /\ 0 <= n mod len < len /\ 0 <= n / len /\
  r = n / len + (if n mod len =? 0 then 0 else 1).
Proof.
  repeat split.
  - apply Z.div_mod. lia.
  - apply Z.mod_pos_bound; lia.
  - apply Z.mod_pos_bound; lia.
  - apply Z.div_pos; lia.
  - exact Hr.
Qed.

Definition so_far (k : nat) : list Z := concat (map T (seq 1 k)).
Lemma so_far_S k : so_far (S k) = so_far k ++ T (S k).
Proof. unfold so_far. rewrite seq_S, map_app, concat_app. cbn. now rewrite app_nil_r. Qed.
Lemma so_far_len k : zlen (so_far k) = len * Z.of_nat k.
Proof.
  induction k as [|k IH]; [unfold zlen; cbn; lia|]. rewrite so_far_S. unfold zlen in *.
  rewrite app_length, Nat2Z.inj_add, IH, HT by lia. lia.
Qed.

Lemma expand_spec : forall fuel i tag tl derived,
  1 <= i -> Z.of_nat fuel = r - (i - 1) -> zlen derived = n -> P i tag tl ->
  (fuel = O \/ (len * (i - 1) <= n /\ firstn (Z.to_nat (len * (i - 1))) derived = so_far (Z.to_nat (i - 1)))) ->
  (fuel = O -> derived = firstn (Z.to_nat n) (so_far (Z.to_nat r))) ->
  match expand block fuel i r (n mod len) answers tag tl derived (len * (i - 1)) with
  | Expanded d => zlen d = n /\ d = firstn (Z.to_nat n) (so_far (Z.to_nat r))
  | ExpandFails s => s <> OK /\ exists k, answers k = false
  | ExpandCrash => False
  end.
Proof.
  destruct rounds_bounds as (E1&E2&E3&E4).
  induction fuel as [|fuel IH]; intros i tag tl derived Hi Hf Hd HP Hinv Hend; cbn [expand].
  { split; [exact Hd|]. now apply Hend. }
  destruct Hinv as [Hinv|[Hle Hinv]]; [discriminate|]. clear Hend.
  assert (Hir : i <= r) by lia.
  specialize (Hblock i tag tl (answers (Z.to_nat i)) (conj Hi Hir) HP) as HB.
  destruct (block i tag tl (answers (Z.to_nat i))) as [s tag' m|] eqn:EB; [|contradiction].
  assert (HS : s = OK \/ s <> OK) by (destruct s; auto; right; discriminate).
  destruct HS as [->|HS].
  2:{ destruct s; try (exfalso; now apply HS); (split; [discriminate|]); eauto. }
  destruct HB as (->&HT1&HT2&HP1).
  assert (Hlast : i < r -> n mod len = n mod len) by reflexivity.
  set (copy := if (i =? r) && (0 <? n mod len) then n mod len else len).
  assert (HC : 0 <= copy <= len /\ len * (i - 1) + copy <= n /\
     (i < r -> copy = len) /\ (i = r -> len * (i - 1) + copy = n)).
  { unfold copy. destruct (n mod len =? 0) eqn:M.
    - replace ((i =? r) && (0 <? n mod len)) with false by lia. rewrite E4 in *.
      repeat split; try lia; nia.
    - destruct (i =? r) eqn:C; cbn [andb].
      + replace (0 <? n mod len) with true by lia. assert (i - 1 = n / len) by lia.
        repeat split; try lia; nia.
      + assert (i <= n / len) by lia. repeat split; try lia; nia. }
  clearbody copy. destruct HC as (C1&C2&C3&C4).
  rewrite copy_to_ok; [|nia|lia|lia|lia].
  set (derived' := _ ++ _ ++ _).
  assert (Ld : zlen derived' = n) by (unfold derived'; rewrite copy_to_len; lia || nia).
  assert (Hp : Z.to_nat (i - 1) = (Z.to_nat i - 1)%nat) by lia.
  assert (HTi : firstn (Z.to_nat copy) tag' = firstn (Z.to_nat copy) (T (Z.to_nat i))).
  { rewrite <- HT1. rewrite firstn_firstn. f_equal. lia. }
  assert (Hd' : derived' = so_far (Z.to_nat i - 1) ++ firstn (Z.to_nat copy) (T (Z.to_nat i)) ++
                           skipn (Z.to_nat (len * (i - 1) + copy)) derived).
  { unfold derived'. rewrite Hinv, HTi, Hp. reflexivity. }
  assert (HL := so_far_len (Z.to_nat i - 1)).
  assert (HLn : length (so_far (Z.to_nat i - 1)) = Z.to_nat (len * (i - 1))).
  { unfold zlen in HL. rewrite <- Nat2Z.id at 1. rewrite HL. f_equal. f_equal. lia. }
  assert (HTl : length (T (Z.to_nat i)) = Z.to_nat len) by (specialize (HT (Z.to_nat i)); unfold zlen in HT; lia).
  assert (Hsf : so_far (Z.to_nat i) = so_far (Z.to_nat i - 1) ++ T (Z.to_nat i)).
  { replace (Z.to_nat i) with (S (Z.to_nat i - 1)) at 1 by lia. rewrite so_far_S. do 2 f_equal. lia. }
  destruct (Z.eq_dec i r) as [->|Ne].
  - specialize (C4 eq_refl). assert (fuel = O) as -> by lia. cbn [expand]. split; [exact Ld|].
    rewrite Hd', C4, Hsf, firstn_app, HLn.
    rewrite (firstn_all2 (so_far _)) by (rewrite HLn; nia).
    rewrite skipn_all2 by (unfold zlen in Hd; lia). rewrite app_nil_r. do 2 f_equal. nia.
  - specialize (C3 ltac:(lia)). subst copy.
    replace (len * (i - 1) + len) with (len * (i + 1 - 1)) by lia.
    apply IH; auto; try lia.
    right. split; [lia|]. rewrite Hd'. replace (Z.to_nat (i + 1 - 1)) with (Z.to_nat i) by lia.
      rewrite Hsf, (firstn_all2 (T _)) by lia. rewrite app_assoc, firstn_app.
      rewrite app_length, HLn, HTl.
      rewrite (firstn_all2 (so_far _ ++ _)) by (rewrite app_length, HLn, HTl; nia).
      replace (Z.to_nat (len * (i + 1 - 1)) - (Z.to_nat (len * (i - 1)) + Z.to_nat len))%nat with 0%nat by nia.
      cbn. now rewrite app_nil_r.
Qed.
Lemma expand_start tag tl derived : zlen derived = n -> P 1 tag tl ->
  match expand block (Z.to_nat r) 1 r (n mod len) answers tag tl derived 0 with
  | Expanded d => zlen d = n /\ d = firstn (Z.to_nat n) (so_far (Z.to_nat r))
  | ExpandFails s => s <> OK /\ exists k, answers k = false
  | ExpandCrash => False
  end.
Proof.
  intros Hd HP. destruct rounds_bounds as (E1&E2&E3&E4).
  assert (R0 : 0 <= r) by (destruct (n mod len =? 0); lia).
  assert (E := expand_spec (Z.to_nat r) 1 tag tl derived). replace (len * (1 - 1)) with 0 in E by lia.
  apply E; [lia|lia|exact Hd|exact HP|right; split; [lia|reflexivity]|].
  - intros Z0. assert (n = 0) by (destruct (n mod len =? 0) eqn:C; nia).
    replace (Z.to_nat n) with 0%nat by lia. destruct derived; [reflexivity|]. unfold zlen in Hd. cbn in Hd. lia.
Qed.
End Expand.

(** ** Single blocks *)
Lemma digest_len_pos d : 0 <= d <= 3 -> 20 <= digest_length d <= 64.
Proof.
  intros H. assert (C : d = 0 \/ d = 1 \/ d = 2 \/ d = 3) by lia.
  destruct C as [-> |[-> |[-> | ->]]]; cbn; lia.
Qed.
Lemma digest_len_hash d : 0 <= d <= 3 -> Z.to_nat (digest_length d) = hash_len d.
Proof.
  intros H. assert (C : d = 0 \/ d = 1 \/ d = 2 \/ d = 3) by lia.
  destruct C as [-> |[-> |[-> | ->]]]; reflexivity.
Qed.
Lemma hmac_internal_ok L mac n d i1 i2 i3 k a : good_lib L -> 0 <= d <= 3 -> digest_length d <= n -> n <= zlen mac ->
  hmac_internal L mac n d i1 i2 i3 k a =
  if a then
    let m := l_hmac L d (match k with Null _ => [0] | Bytes k => k end) (i1 ++ i2 ++ i3) in
    Ret OK (m ++ skipn (Z.to_nat (digest_length d)) mac) (digest_length d)
  else Ret INTERNAL_ERROR mac n.
Proof.
  intros G D H1 H2. unfold hmac_internal. replace (n <? digest_length d) with false by lia.
  destruct a; cbn [negb]; [|reflexivity]. set (kk := match k with Null _ => [0] | Bytes k => k end).
  assert (HL := hmac_length L d kk (i1 ++ i2 ++ i3) G D).
  rewrite put_exact by (unfold zlen in *; lia). cbv zeta. do 3 f_equal. lia.
Qed.
Lemma digest_sha_ok L buf n d i1 i2 i3 a : good_lib L -> 0 <= d <= 3 -> digest_length d <= n -> n <= zlen buf ->
  bad_input i1 = false -> bad_input i2 = false -> bad_input i3 = false ->
  digest_sha L buf n d i1 i2 i3 a =
  if a then
    let m := l_hash L d (in_bytes i1 ++ in_bytes i2 ++ in_bytes i3) in
    Ret OK (m ++ skipn (Z.to_nat (digest_length d)) buf) (digest_length d)
  else Ret INTERNAL_ERROR buf (digest_length d).
Proof.
  intros G D H1 H2 B1 B2 B3. unfold digest_sha. replace (n <? digest_length d) with false by lia.
  rewrite B1, B2, B3. destruct a; cbn [negb]; [|reflexivity].
  assert (HL := hash_length L d (in_bytes i1 ++ in_bytes i2 ++ in_bytes i3) G D).
  rewrite put_exact by (unfold zlen in *; lia). cbv zeta. do 3 f_equal. lia.
Qed.
Lemma firstn_exact {A} (a b : list A) n : length a = n -> firstn n (a ++ b) = a.
Proof. intros <-. rewrite firstn_app, Nat.sub_diag, firstn_all. cbn. apply app_nil_r. Qed.
Lemma blocks_rounds n len : 0 <= n -> 0 < len -> Z.to_nat (rounds n len) = blocks (Z.to_nat n) (Z.to_nat len).
Proof.
  intros Hn Hl. unfold rounds, blocks.
  assert (E : Z.of_nat ((Z.to_nat n + Z.to_nat len - 1) / Z.to_nat len) = (n + len - 1) / len).
  { rewrite Nat2Z.inj_div. f_equal; lia. }
  apply Nat2Z.inj. rewrite E, Z2Nat.id.
  - assert (H1 := Z.div_mod n len ltac:(lia)). assert (H2 := Z.mod_pos_bound n len ltac:(lia)).
    destruct (n mod len =? 0) eqn:C.
    + apply (Z.div_unique _ _ _ (len - 1)); nia.
    + apply (Z.div_unique _ _ _ (n mod len - 1)); nia.
  - assert (0 <= n / len) by (apply Z.div_pos; lia). destruct (n mod len =? 0); lia.
Qed.
Lemma rounds_bound n len : 0 <= n -> 0 < len -> n <= 255 * len -> rounds n len <= 255.
Proof.
  intros. unfold rounds. assert (H2 := Z.div_mod n len ltac:(lia)). assert (H3 := Z.mod_pos_bound n len ltac:(lia)).
  destruct (n mod len =? 0) eqn:C; nia.
Qed.

Lemma make_key_ok rights (parent : stored_key) n b alloc :
  match make_key rights (k_rights parent) n b alloc with
  | KdfKey k => k = MkKey (restrict_child_rights rights (Some (k_rights parent))) 0 no_params n b /\
                size_allowed 0 0 n /\ alloc = true /\ rights_validate_format rights = true
  | KdfFails s => s <> OK /\ ~ (size_allowed 0 0 n /\ rights_validate_format rights = true /\ alloc = true)
  | _ => False
  end.
Proof.
  unfold make_key, stored_key_create. assert (HS := supports_any_iff KT_SYMMETRIC (p_curve no_params) n).
  change (p_curve no_params) with 0 in *. change KT_SYMMETRIC with 0 in *.
  destruct (key_type_supports_any 0 0 n); cbn [negb].
  - destruct (rights_validate_format rights); cbn [negb]; [|split; [discriminate|intuition discriminate]].
    destruct alloc; cbn [negb]; [|split; [discriminate|intuition discriminate]].
    split; [reflexivity|]. split; [now apply HS|split; reflexivity].
  - split; [discriminate|]. intros [H _]. apply HS in H. discriminate.
Qed.
Lemma allowed_size n : size_allowed 0 0 n <-> 16 <= n <= 512.
Proof. split; intros H; [inversion H; subst; assumption|now constructor]. Qed.

Lemma finish_key rights (parent : stored_key) n b b' alloc (answers : nat -> bool) : b = b' -> zlen b = n ->
  match make_key rights (k_rights parent) n b alloc with
  | KdfKey k => derived_key k rights parent n b' /\ 16 <= n <= 512 /\ rights_validate_format rights = true
  | KdfFails s => s <> OK /\ ((exists j, answers j = false) \/ ~ 16 <= n <= 512 \/ rights_validate_format rights = false \/ alloc = false)
  | _ => False
  end.
Proof.
  intros <- Hn. assert (M := make_key_ok rights parent n b alloc).
  destruct (make_key rights (k_rights parent) n b alloc) as [k|s| |]; auto.
  - destruct M as (->&M2&_&M3). apply allowed_size in M2. split; [|auto]. split; [reflexivity|exact Hn].
  - destruct M as [M1 M2]. split; [exact M1|]. right. rewrite allowed_size in M2.
    destruct (rights_validate_format rights); [|auto]. destruct alloc; [|auto]. left. intuition.
Qed.

(** ** HKDF *)
Lemma pad_zero L d n : 0 <= d <= 3 -> (n <= 64)%nat -> hmac_pad L d (repeat 0 n) = repeat 0 (block_length d).
Proof.
  intros D H. unfold hmac_pad. rewrite !repeat_length.
  assert (64 <= block_length d)%nat by (unfold block_length; destruct ((d =? D_SHA1) || (d =? D_SHA256)); lia).
  replace (block_length d <? n)%nat with false by (symmetry; apply Nat.ltb_ge; lia).
  rewrite repeat_length, <- repeat_app. f_equal. lia.
Qed.
Lemma salt_same L d salt m : 0 <= d <= 3 ->
  l_hmac L d (match salt with Null _ => [0] | Bytes k => k end) m = l_hmac L d (salt_value d salt) m.
Proof.
  intros D. destruct salt; [|reflexivity]. cbn [salt_value]. unfold l_hmac.
  change [0] with (repeat 0 1). rewrite !pad_zero; auto; try lia.
  rewrite <- digest_len_hash by auto. assert (H := digest_len_pos d D). lia.
Qed.
Section Hkdf.
Variables (L : lib) (rights : rights) (d n : Z) (salt info : input) (parent : stored_key)
  (derived prk tag : list Z) (answers : nat -> bool) (alloc : bool).
Hypotheses (G : good_lib L) (D : 0 <= d <= 3) (Hn : 0 <= n <= 255 * digest_length d)
  (Bs : bad_input salt = false) (Bi : bad_input info = false)
  (Hd : zlen derived = n) (Hprk : zlen prk = 64) (Htag : zlen tag = 64).

Lemma hkdf_spec :
  match kdf_hkdf_hmac L rights d n salt info parent (Some derived) prk tag answers alloc with
  | KdfKey k => derived_key k rights parent n (rfc5869 L d salt (k_bytes parent) (in_bytes info) (Z.to_nat n)) /\ 16 <= n <= 512 /\ rights_validate_format rights = true
  | KdfFails s => s <> OK /\ ((exists j, answers j = false) \/ ~ 16 <= n <= 512 \/ rights_validate_format rights = false \/ alloc = false)
  | _ => False
  end.
Proof.
  assert (Hl := digest_len_pos d D).
  unfold kdf_hkdf_hmac. rewrite Bs, Bi. replace (64 <? digest_length d) with false by lia.
  rewrite hmac_internal_ok by (auto; lia).
  destruct (answers 0%nat) eqn:A0; [|split; [discriminate|eauto]]. cbv zeta.
  rewrite salt_same, !app_nil_r by auto. set (pk := l_hmac L d (salt_value d salt) (k_bytes parent)).
  assert (Lp : Z.of_nat (length pk) = digest_length d) by (apply hmac_length; auto).
  rewrite firstn_exact by lia.
  assert (Hr : rounds n (digest_length d) <= 255) by (apply rounds_bound; lia).
  replace (255 <? rounds n (digest_length d)) with false by lia.
  match goal with |- context [expand ?b] => set (blk := b) end.
  pose (T := hkdf_t L d pk (in_bytes info)).
  pose (P := fun (i : Z) (tag : list Z) (tl : Z) => zlen tag = 64 /\ digest_length d <= tl <= 64 /\
     (i = 1 \/ (tl = digest_length d /\ firstn (Z.to_nat tl) tag = T (Z.to_nat (i - 1))))).
  assert (HT : forall i, (1 <= i)%nat -> zlen (T i) = digest_length d).
  { intros [|i] Hi; [lia|]. unfold T, zlen. cbn [hkdf_t]. now apply hmac_length. }
  assert (HB : forall i tag tl a, 1 <= i <= rounds n (digest_length d) -> P i tag tl ->
    match blk i tag tl a with
    | Oob => False
    | Ret OK tag' m => m = digest_length d /\ firstn (Z.to_nat (digest_length d)) tag' = T (Z.to_nat i) /\
        digest_length d <= zlen tag' /\ P (i + 1) tag' (digest_length d)
    | Ret _ _ _ => a = false
    end).
  { intros i tg tl a Hi (P1&P2&P3). unfold blk. rewrite hmac_internal_ok by (auto; lia).
    destruct a; [|reflexivity]. cbv zeta.
    assert (ET : l_hmac L d pk ((if i =? 1 then [] else firstn (Z.to_nat tl) tg) ++ in_bytes info ++ [i mod 256]) = T (Z.to_nat i)).
    { unfold T. replace (Z.to_nat i) with (S (Z.to_nat (i - 1))) by lia. cbn [hkdf_t]. f_equal. f_equal.
      - destruct P3 as [->|[_ P3]]; [reflexivity|]. destruct (i =? 1) eqn:C; [|exact P3].
        assert (i = 1) as -> by lia. reflexivity.
      - do 2 f_equal. rewrite Z.mod_small by lia. lia. }
    rewrite ET. assert (LT := HT (Z.to_nat i) ltac:(lia)).
    assert (LL : zlen (T (Z.to_nat i) ++ skipn (Z.to_nat (digest_length d)) tg) = 64).
    { unfold zlen in *. rewrite app_length, skipn_length. lia. }
    assert (FF : firstn (Z.to_nat (digest_length d)) (T (Z.to_nat i) ++ skipn (Z.to_nat (digest_length d)) tg) = T (Z.to_nat i)).
    { apply firstn_exact. unfold zlen in LT. lia. }
    split; [reflexivity|]. split; [exact FF|]. split; [lia|]. split; [exact LL|]. split; [lia|]. right.
    split; [reflexivity|]. rewrite FF. f_equal. lia. }
  assert (HP1 : P 1 tag 64) by (split; [exact Htag|split; [lia|now left]]).
  assert (E := expand_start blk T P (digest_length d) n _ answers ltac:(lia) HT ltac:(lia) eq_refl HB tag 64 derived Hd HP1).
  cbv beta in E.
  match goal with |- context [expand ?a ?b ?c ?d' ?e ?f ?g ?h ?i ?j] => destruct (expand a b c d' e f g h i j) as [dd|s|] end.
  - destruct E as [E1 E2]. apply finish_key; [|exact E1].
    rewrite E2. unfold rfc5869, so_far. fold pk. rewrite blocks_rounds, digest_len_hash by (auto; lia). reflexivity.
  - destruct E as [E1 E2]. auto.
  - exact E.
Qed.
End Hkdf.

(** ** CONCAT and X9.63 *)
Section Hash.
Variables (L : lib) (first : bool) (rights : rights) (d n : Z) (info : input) (parent : stored_key)
  (derived hash : list Z) (answers : nat -> bool) (alloc : bool).
Hypotheses (G : good_lib L) (D : 0 <= d <= 3) (Hn : 0 <= n <= 255 * digest_length d)
  (Bi : bad_input info = false) (Hd : zlen derived = n) (Hh : zlen hash = 64).
Lemma hash_spec :
  match kdf_hash L first rights d n info parent (Some derived) hash answers alloc with
  | KdfKey k => derived_key k rights parent n
      ((if first then sp800_56a else x963) L d (k_bytes parent) (in_bytes info) (Z.to_nat n)) /\ 16 <= n <= 512 /\ rights_validate_format rights = true
  | KdfFails s => s <> OK /\ ((exists j, answers j = false) \/ ~ 16 <= n <= 512 \/ rights_validate_format rights = false \/ alloc = false)
  | _ => False
  end.
Proof.
  assert (Hl := digest_len_pos d D).
  unfold kdf_hash. rewrite Bi. replace (64 <? digest_length d) with false by lia. cbv zeta.
  assert (Hr : rounds n (digest_length d) <= 255) by (apply rounds_bound; lia).
  replace (255 <? rounds n (digest_length d)) with false by lia.
  match goal with |- context [expand ?b] => set (blk := b) end.
  pose (T := fun i => if first then l_hash L d (be32 i ++ k_bytes parent ++ in_bytes info)
                      else l_hash L d (k_bytes parent ++ be32 i ++ in_bytes info)).
  pose (P := fun (i : Z) (tag : list Z) (tl : Z) => zlen tag = 64 /\ tl = digest_length d).
  assert (HT : forall i, (1 <= i)%nat -> zlen (T i) = digest_length d).
  { intros i Hi. unfold T, zlen. destruct first; now apply hash_length. }
  assert (HB : forall i tag tl a, 1 <= i <= rounds n (digest_length d) -> P i tag tl ->
    match blk i tag tl a with
    | Oob => False
    | Ret OK tag' m => m = digest_length d /\ firstn (Z.to_nat (digest_length d)) tag' = T (Z.to_nat i) /\
        digest_length d <= zlen tag' /\ P (i + 1) tag' (digest_length d)
    | Ret _ _ _ => a = false
    end).
  { intros i tg tl a Hi (P1&P2). unfold blk.
    assert (EC : [0; 0; 0; i mod 256] = be32 (Z.to_nat i)).
    { unfold be32. rewrite Z2Nat.id by lia. clear - Hi Hr.
      rewrite !(Z.div_small i) by lia. reflexivity. }
    rewrite EC.
    assert (EB : (if first then digest_sha L tg tl d (Bytes (be32 (Z.to_nat i))) (Bytes (k_bytes parent)) info a
                  else digest_sha L tg tl d (Bytes (k_bytes parent)) (Bytes (be32 (Z.to_nat i))) info a) =
            if a then Ret OK (T (Z.to_nat i) ++ skipn (Z.to_nat (digest_length d)) tg) (digest_length d)
            else Ret INTERNAL_ERROR tg (digest_length d)).
    { unfold T. destruct first; rewrite digest_sha_ok by (auto; lia); destruct a; reflexivity. }
    rewrite EB. destruct a; [|reflexivity]. assert (LT := HT (Z.to_nat i) ltac:(lia)).
    assert (LL : zlen (T (Z.to_nat i) ++ skipn (Z.to_nat (digest_length d)) tg) = 64).
    { unfold zlen in *. rewrite app_length, skipn_length. lia. }
    assert (FF : firstn (Z.to_nat (digest_length d)) (T (Z.to_nat i) ++ skipn (Z.to_nat (digest_length d)) tg) = T (Z.to_nat i)).
    { apply firstn_exact. unfold zlen in LT. lia. }
    split; [reflexivity|]. split; [exact FF|]. split; [lia|]. split; [exact LL|reflexivity]. }
  assert (HP1 : P 1 hash (digest_length d)) by (split; [exact Hh|reflexivity]).
  assert (E := expand_start blk T P (digest_length d) n _ answers ltac:(lia) HT ltac:(lia) eq_refl HB hash _ derived Hd HP1).
  cbv beta in E.
  match goal with |- context [expand ?a ?b ?c ?d' ?e ?f ?g ?h ?i ?j] => destruct (expand a b c d' e f g h i j) as [dd|s|] end.
  - destruct E as [E1 E2]. apply finish_key; [|exact E1].
    rewrite E2. unfold so_far, T. destruct first; [unfold sp800_56a|unfold x963];
    rewrite blocks_rounds, digest_len_hash by (auto; lia); reflexivity.
  - destruct E as [E1 E2]. auto.
  - exact E.
Qed.
End Hash.

(** ** Counter mode CMAC *)
Section Cmac.
Variables (L : lib) (rights : rights) (n c : Z) (other : input) (parent : stored_key)
  (derived full : list Z) (answers : nat -> bool) (alloc : bool).
Hypotheses (G : good_lib L) (Hn : 0 <= n) (Bo : bad_input other = false) (Hd : zlen derived = n) (Hf : zlen full = 64)
  (Hk : zlen (k_bytes parent) = 16 \/ zlen (k_bytes parent) = 32) (Hm : n mod 16 = 0) (Hc : 1 <= c <= 4)
  (Hs : n / 16 <= 5 - c).
Let B (i : nat) := l_cmac L (k_bytes parent) ([Z.of_nat i] ++ in_bytes other).
Lemma cmac_block buf i a : (16 <= length buf)%nat ->
  cmac L buf (Bytes [Z.of_nat i]) other (Null 0) (k_bytes parent) a =
  if a then Ret OK (B i ++ skipn 16 buf) 16 else Ret INTERNAL_ERROR buf 0.
Proof.
  intros H. unfold cmac. cbn [bad_input]. rewrite Bo. cbn [Z.ltb].
  replace (negb ((zlen (k_bytes parent) =? 16) || (zlen (k_bytes parent) =? 32))) with false by lia.
  destruct a; [|reflexivity]. cbn [negb in_bytes]. rewrite app_nil_r. fold (B i).
  assert (HB : length (B i) = 16%nat) by (apply G). rewrite put_exact by lia. now rewrite HB.
Qed.
Lemma cmac_blocks_spec : forall fuel i acc rest, (i + fuel = 5)%nat -> (1 <= i)%nat ->
  length acc = (16 * (i - 1))%nat -> length rest = (16 * fuel)%nat ->
  match cmac_blocks L fuel (Z.of_nat i) other (k_bytes parent) answers (acc ++ rest) with
  | Expanded f => f = acc ++ concat (map B (seq i fuel))
  | ExpandFails s => s <> OK /\ exists k, answers k = false
  | ExpandCrash => False
  end.
Proof.
  induction fuel as [|fuel IH]; intros i acc rest Hi H1 Ha Hr; cbn [cmac_blocks].
  { destruct rest; [reflexivity|cbn in Hr; lia]. }
  replace (Z.to_nat ((Z.of_nat i - 1) * 16)) with (length acc) by lia.
  rewrite skipn_app, skipn_all, Nat.sub_diag. cbn [skipn app].
  rewrite cmac_block by lia. destruct (answers (Z.to_nat (Z.of_nat i))) eqn:A; [|split; [discriminate|eauto]].
  rewrite firstn_app, firstn_all, Nat.sub_diag. cbn [firstn]. rewrite app_nil_r, app_assoc.
  replace (Z.of_nat i + 1) with (Z.of_nat (S i)) by lia.
  assert (HB : length (B i) = 16%nat) by (apply G).
  assert (IH' := IH (S i) (acc ++ B i) (skipn 16 rest)).
  match goal with |- match ?e with _ => _ end => destruct e end.
  - rewrite IH'; try lia.
    + cbn [seq map concat]. now rewrite <- app_assoc.
    + rewrite app_length. lia.
    + rewrite skipn_length. lia.
  - apply IH'; try lia; rewrite ?app_length, ?skipn_length; lia.
  - apply IH'; try lia; rewrite ?app_length, ?skipn_length; lia.
Qed.
Lemma cmac_spec :
  match kdf_ctr_cmac L rights n c other parent (Some derived) full answers alloc with
  | KdfKey k => derived_key k rights parent n (ctr_cmac L (k_bytes parent) (in_bytes other) (Z.to_nat c) (Z.to_nat n)) /\ 16 <= n <= 512 /\ rights_validate_format rights = true
  | KdfFails s => s <> OK /\ ((exists j, answers j = false) \/ ~ 16 <= n <= 512 \/ rights_validate_format rights = false \/ alloc = false)
  | _ => False
  end.
Proof.
  unfold kdf_ctr_cmac. rewrite Bo. replace (n mod 16 =? 0) with true by lia. cbn [negb].
  replace ((c <? 1) || (4 <? c)) with false by lia. replace (5 - c <? n / 16) with false by lia.
  assert (E := cmac_blocks_spec 4 1 [] full eq_refl (le_n 1) eq_refl ltac:(unfold zlen in Hf; lia)).
  cbn [app Z.of_nat Pos.of_succ_nat] in E.
  destruct (cmac_blocks L 4 1 other (k_bytes parent) answers full) as [f|s|]; [|destruct E; auto|exact E].
  assert (Lf : length f = 64%nat).
  { rewrite E. cbn [seq map concat]. rewrite !app_length. unfold B. rewrite !(proj2 (proj2 (proj2 (proj2 G)))). reflexivity. }
  assert (Hn16 : n = 16 * (n / 16)) by (assert (X := Z.div_mod n 16 ltac:(lia)); lia).
  assert (Ls : zlen (skipn (Z.to_nat ((c - 1) * 16)) f) = 64 - (c - 1) * 16).
  { unfold zlen. rewrite skipn_length, Lf. lia. }
  rewrite copy_to_ok by lia. cbn [firstn Z.to_nat app].
  rewrite (skipn_all2 derived) by (unfold zlen in Hd; lia). rewrite app_nil_r.
  apply finish_key.
  - unfold ctr_cmac. f_equal. rewrite E. cbn [seq]. f_equal. lia.
  - unfold zlen in *. rewrite firstn_length. lia.
Qed.
End Cmac.

(** ** The calls *)
Lemma digest_known_iff d : digest_known d = true <-> 0 <= d <= 3.
Proof. unfold digest_known, D_SHA1, D_SHA256, D_SHA384, D_SHA512. lia. Qed.
Lemma parent_ok_iff parent now : parent_ok parent now = None <-> may_derive parent now.
Proof.
  unfold parent_ok, may_derive. assert (H := proj1 (proj2 (operations_iff (k_rights parent) now))).
  change KT_SYMMETRIC with 0. destruct (rights_allowed_derive (k_rights parent) now); cbn [negb].
  - destruct (k_type parent =? 0) eqn:E; cbn [negb].
    + split; [|reflexivity]. intros _. destruct H as [H _]. destruct (H eq_refl) as [X1 X2]. split; [exact X1|split; [exact X2|lia]].
    + split; [discriminate|]. intros (_&_&X). lia.
  - split; [discriminate|]. intros (X1&X2&_). discriminate (proj2 H (conj X1 X2)).
Qed.
Lemma parent_ok_bad parent now s : parent_ok parent now = Some s -> s <> OK.
Proof. unfold parent_ok. destruct (negb _); [intros E; injection E as <-; discriminate|]. destruct (negb _); [intros E; injection E as <-; discriminate|discriminate]. Qed.

(** What a call does, in one statement: [pre] is what it demands, [v] the bytes. *)
Definition call_does (r : kdf) (pre : Prop) (rights : rights) (parent : stored_key) (n : Z) (v : list Z) (fine : Prop) : Prop :=
  match r with
  | KdfKey k => pre /\ 16 <= n <= 512 /\ rights_validate_format rights = true /\ derived_key k rights parent n v
  | KdfFails s => s <> OK /\ (fine -> rights_validate_format rights = true -> pre -> ~ 16 <= n <= 512)
  | _ => False
  end.
Lemma fails_does s (pre : Prop) rights parent n v (fine : Prop) : s <> OK -> (fine -> ~ pre) -> call_does (KdfFails s) pre rights parent n v fine.
Proof. intros S N. split; [exact S|]. intros F _ P. exfalso. exact (N F P). Qed.
Lemma spec_does r (pre : Prop) rights parent n v (answers : nat -> bool) alloc (fine : Prop) :
  pre -> (fine -> (forall i, answers i = true) /\ alloc = true) ->
  match r with
  | KdfKey k => derived_key k rights parent n v /\ 16 <= n <= 512 /\ rights_validate_format rights = true
  | KdfFails s => s <> OK /\ ((exists j, answers j = false) \/ ~ 16 <= n <= 512 \/ rights_validate_format rights = false \/ alloc = false)
  | _ => False
  end -> call_does r pre rights parent n v fine.
Proof.
  intros P F. destruct r; cbn; try tauto. intros [H1 H2]. split; [exact H1|]. intros FF V _.
  destruct (F FF) as [F1 F2]. destruct H2 as [[j H2]|[H2|[H2|H2]]]; [rewrite F1 in H2; discriminate|exact H2|congruence|congruence].
Qed.

Lemma x963_does L rights d n info parent now mem hash answers alloc :
  good_lib L -> 0 <= n -> memory_for n mem -> zlen hash = 64 ->
  call_does (derive_x963 L rights d n info parent now mem hash answers alloc)
    (0 <= d <= 3 /\ n <= 512 /\ bad_input info = false /\ may_derive parent now) rights parent n
    (x963 L d (k_bytes parent) (in_bytes info) (Z.to_nat n))
    ((forall i, answers i = true) /\ alloc = true /\ mem <> None).
Proof.
  intros G Hn Hm Hh. unfold derive_x963.
  destruct (bad_input info) eqn:Bi; [apply fails_does; [discriminate|intuition discriminate]|].
  destruct (512 <? n) eqn:N; [apply fails_does; [discriminate|lia]|].
  destruct (digest_known d) eqn:K; cbn [negb].
  2:{ apply fails_does; [discriminate|]. intros _ (D&_). apply digest_known_iff in D. congruence. }
  apply digest_known_iff in K. destruct (parent_ok parent now) as [s|] eqn:PO.
  { apply fails_does; [exact (parent_ok_bad _ _ _ PO)|]. intros _ (_&_&_&M). apply parent_ok_iff in M. congruence. }
  apply parent_ok_iff in PO. destruct mem as [derived|].
  - apply (spec_does _ _ _ _ _ _ answers alloc); [repeat split; auto; try lia; apply PO|intuition|].
    assert (DL := digest_len_pos d K). apply (hash_spec L false); auto. lia.
  - unfold kdf_ansi_x963, kdf_hash. rewrite Bi. destruct (64 <? digest_length d); apply fails_does; try discriminate; intuition.
Qed.
Lemma concat_does L rights d n info parent now mem hash answers alloc :
  good_lib L -> 0 <= n -> memory_for n mem -> zlen hash = 64 ->
  call_does (derive_concat L rights d n info parent now mem hash answers alloc)
    (0 <= d <= 3 /\ n <= 512 /\ bad_input info = false /\ may_derive parent now) rights parent n
    (sp800_56a L d (k_bytes parent) (in_bytes info) (Z.to_nat n))
    ((forall i, answers i = true) /\ alloc = true /\ mem <> None).
Proof.
  intros G Hn Hm Hh. unfold derive_concat.
  destruct (bad_input info) eqn:Bi; [apply fails_does; [discriminate|intuition discriminate]|].
  destruct (512 <? n) eqn:N; [apply fails_does; [discriminate|lia]|].
  destruct (digest_known d) eqn:K; cbn [negb].
  2:{ apply fails_does; [discriminate|]. intros _ (D&_). apply digest_known_iff in D. congruence. }
  apply digest_known_iff in K. destruct (parent_ok parent now) as [s|] eqn:PO.
  { apply fails_does; [exact (parent_ok_bad _ _ _ PO)|]. intros _ (_&_&_&M). apply parent_ok_iff in M. congruence. }
  apply parent_ok_iff in PO. destruct mem as [derived|].
  - apply (spec_does _ _ _ _ _ _ answers alloc); [repeat split; auto; try lia; apply PO|intuition|].
    assert (DL := digest_len_pos d K). apply (hash_spec L true); auto. lia.
  - unfold kdf_concat_kdf, kdf_hash. rewrite Bi. destruct (64 <? digest_length d); apply fails_does; try discriminate; intuition.
Qed.
Lemma hkdf_does L rights d n salt info parent now mem prk tag answers alloc :
  good_lib L -> 0 <= n -> memory_for n mem -> zlen prk = 64 -> zlen tag = 64 ->
  call_does (derive_hkdf L rights d n salt info parent now mem prk tag answers alloc)
    (0 <= d <= 3 /\ n <= 512 /\ bad_input salt = false /\ bad_input info = false /\ may_derive parent now /\ 16 <= k_size parent <= 512)
    rights parent n
    (rfc5869 L d salt (k_bytes parent) (in_bytes info) (Z.to_nat n))
    ((forall i, answers i = true) /\ alloc = true /\ mem <> None).
Proof.
  intros G Hn Hm Hh Ht. unfold derive_hkdf.
  destruct (bad_input info) eqn:Bi; [apply fails_does; [discriminate|intuition discriminate]|].
  destruct (bad_input salt) eqn:Bs; [apply fails_does; [discriminate|intuition discriminate]|].
  destruct (512 <? n) eqn:N; [apply fails_does; [discriminate|lia]|].
  destruct (digest_known d) eqn:K; cbn [negb].
  2:{ apply fails_does; [discriminate|]. intros _ (D&_). apply digest_known_iff in D. congruence. }
  apply digest_known_iff in K. destruct (parent_ok parent now) as [s|] eqn:PO.
  { apply fails_does; [exact (parent_ok_bad _ _ _ PO)|]. intros _ (_&_&_&_&M&_). apply parent_ok_iff in M. congruence. }
  apply parent_ok_iff in PO.
  destruct (key_type_supports_hmac (k_type parent) (k_size parent)) eqn:S; cbn [negb].
  2:{ apply fails_does; [discriminate|]. intros _ (_&_&_&_&M&Q). unfold key_type_supports_hmac, valid_hmac_size, KT_SYMMETRIC in S.
      destruct M as (_&_&M). lia. }
  unfold key_type_supports_hmac, valid_hmac_size in S.
  destruct mem as [derived|].
  - apply (spec_does _ _ _ _ _ _ answers alloc); [repeat split; auto; try lia; apply PO|intuition|].
    assert (DL := digest_len_pos d K). apply hkdf_spec; auto. lia.
  - unfold kdf_hkdf_hmac. rewrite Bi, Bs. destruct (64 <? digest_length d); apply fails_does; try discriminate; intuition.
Qed.
Lemma cmac_does L rights n c other parent now mem full answers alloc :
  good_lib L -> 0 <= n -> memory_for n mem -> zlen full = 64 -> zlen (k_bytes parent) = k_size parent ->
  call_does (derive_cmac L rights n c other parent now mem full answers alloc)
    (1 <= c <= 4 /\ (exists m, n = 16 * m /\ c + m <= 5) /\ bad_input other = false /\ may_derive parent now /\
     (k_size parent = 16 \/ k_size parent = 32)) rights parent n
    (ctr_cmac L (k_bytes parent) (in_bytes other) (Z.to_nat c) (Z.to_nat n))
    ((forall i, answers i = true) /\ alloc = true /\ mem <> None).
Proof.
  intros G Hn Hm Hf Hk. unfold derive_cmac.
  destruct (bad_input other) eqn:Bo; [apply fails_does; [discriminate|intuition discriminate]|].
  destruct ((c <? 1) || (4 <? c)) eqn:C; [apply fails_does; [discriminate|lia]|].
  destruct (n mod 16 =? 0) eqn:M; cbn [negb].
  2:{ apply fails_does; [discriminate|]. intros _ (_&(m&->&_)&_). rewrite Z.mul_comm, Z.mod_mul in M by lia. lia. }
  destruct (5 - c <? n / 16) eqn:S.
  { apply fails_does; [discriminate|]. intros _ (_&(m&->&X)&_). rewrite Z.mul_comm, Z.div_mul in S by lia. lia. }
  destruct (parent_ok parent now) as [s|] eqn:PO.
  { apply fails_does; [exact (parent_ok_bad _ _ _ PO)|]. intros _ (_&_&_&Q&_). apply parent_ok_iff in Q. congruence. }
  apply parent_ok_iff in PO.
  destruct (key_type_supports_aes (k_type parent) (k_size parent)) eqn:T; cbn [negb]; unfold key_type_supports_aes, valid_aes_size, KT_SYMMETRIC in T.
  2:{ apply fails_does; [discriminate|]. intros _ (_&_&_&(_&_&Q)&R). lia. }
  assert (KS : k_size parent = 16 \/ k_size parent = 32) by lia.
  destruct mem as [derived|].
  - apply (spec_does _ _ _ _ _ _ answers alloc); [|intuition|].
    + split; [lia|]. split; [|auto]. exists (n / 16). assert (X := Z.div_mod n 16 ltac:(lia)). lia.
    + apply cmac_spec; auto; lia.
  - unfold kdf_ctr_cmac. rewrite Bo, M, C, S. apply fails_does; [discriminate|]. intuition.
Qed.

(** ** Netflix *)
Lemma wrapping_does L rights enc hmac now mem answers alloc :
  good_lib L -> match mem with Some (a, b) => zlen a = 32 /\ zlen b = 32 | None => True end ->
  call_does (derive_netflix L rights enc hmac now mem answers alloc)
    (may_derive enc now /\ may_derive hmac now /\ zlen (k_bytes enc) = 16 /\ zlen (k_bytes hmac) = 32) rights enc 16
    (msl_wrapping L (k_bytes enc) (k_bytes hmac))
    ((forall i, answers i = true) /\ alloc = true /\ mem <> None).
Proof.
  intros G Hm. unfold derive_netflix.
  destruct (parent_ok enc now) as [s|] eqn:P1.
  { apply fails_does; [exact (parent_ok_bad _ _ _ P1)|]. intros _ (M&_). apply parent_ok_iff in M. congruence. }
  destruct (parent_ok hmac now) as [s|] eqn:P2.
  { apply fails_does; [exact (parent_ok_bad _ _ _ P2)|]. intros _ (_&M&_). apply parent_ok_iff in M. congruence. }
  apply parent_ok_iff in P1, P2. unfold kdf_netflix_wrapping.
  destruct (zlen (k_bytes enc) =? 16) eqn:E1; cbn [negb]; [|apply fails_does; [discriminate|intros _ (_&_&X&_); lia]].
  destruct (zlen (k_bytes hmac) =? 32) eqn:E2; cbn [negb]; [|apply fails_does; [discriminate|intros _ (_&_&_&X); lia]].
  destruct mem as [[temp wrap]|]; [|apply fails_does; [discriminate|intuition]].
  destruct Hm as [H1 H2].
  rewrite hmac_internal_ok by (auto; lia || apply Z.le_refl || (split; discriminate)).
  destruct (answers 0%nat) eqn:A0; [|apply fails_does; [discriminate|intros (X&_); rewrite X in A0; discriminate]].
  cbv zeta. change (digest_length D_SHA256) with 32. change (Z.to_nat 32) with 32%nat. change D_SHA256 with 1. rewrite app_nil_r.
  assert (HL : forall k m, length (l_hmac L 1 k m) = 32%nat) by (intros; apply G).
  rewrite firstn_exact by apply HL.
  rewrite hmac_internal_ok by (auto; lia || apply Z.le_refl || (split; discriminate)).
  destruct (answers 1%nat) eqn:A1; [|apply fails_does; [discriminate|intros (X&_); rewrite X in A1; discriminate]].
  cbv zeta. apply (spec_does _ _ _ _ _ _ answers alloc); [repeat split; auto; try lia; apply P1 || apply P2|intuition|].
  apply finish_key.
  - unfold msl_wrapping. change (digest_length 1) with 32. rewrite !app_nil_r.
    rewrite firstn_app, HL. change (16 - 32)%nat with 0%nat. cbn [firstn]. now rewrite app_nil_r.
  - unfold zlen. rewrite firstn_length, app_length, HL. lia.
Qed.

Definition secret_number (s : list Z) : list Z := match s with 0 :: _ => s | _ => 0 :: s end.
Lemma secret_value s : be_value (secret_number s) = be_value s.
Proof. destruct s as [|[| |] s]; reflexivity. Qed.
(** What the code feeds to the HMAC. *)
Lemma shared_does L re rh inkey secret mem answers a1 a2 :
  good_lib L -> match mem with Some (a, b) => zlen a = 48 /\ zlen b = 48 | None => True end ->
  k_bytes secret <> [] ->
  let keys := msl_keys L (k_bytes inkey) (secret_number (k_bytes secret)) in
  let r := kdf_netflix_shared_secret L re rh inkey secret mem answers a1 a2 in
  call_does (fst r) (zlen (k_bytes inkey) = 16) re inkey 16 (fst keys)
    ((forall i, answers i = true) /\ a1 = true /\ mem <> None) /\
  call_does (snd r) (zlen (k_bytes inkey) = 16) rh inkey 32 (snd keys)
    ((forall i, answers i = true) /\ a2 = true /\ mem <> None).
Proof.
  intros G Hm Hs. cbv zeta. unfold kdf_netflix_shared_secret.
  destruct (zlen (k_bytes inkey) =? 16) eqn:E1; cbn [negb]; [|split; (apply fails_does; [discriminate|intros _; lia])].
  destruct mem as [[digest key]|]; [|split; (apply fails_does; [discriminate|intuition])].
  destruct Hm as [H1 H2].
  rewrite digest_sha_ok by (auto; lia || apply Z.le_refl || (split; discriminate)).
  destruct (answers 0%nat) eqn:A0; [|split; (apply fails_does; [discriminate|intros (X&_); rewrite X in A0; discriminate])].
  cbv zeta. cbn [in_bytes]. change (digest_length D_SHA384) with 48. change (Z.to_nat 48) with 48%nat. change D_SHA384 with 2. rewrite !app_nil_r.
  assert (HL : forall k m, length (l_hmac L 2 k m) = 48%nat) by (intros; apply G).
  rewrite firstn_exact by apply G.
  destruct (k_bytes secret) as [|b rest] eqn:KS; [congruence|].
  rewrite hmac_internal_ok by (auto; lia || apply Z.le_refl || (split; discriminate)).
  destruct (answers 1%nat) eqn:A1; [|split; (apply fails_does; [discriminate|intros (X&_); rewrite X in A1; discriminate])].
  cbv zeta. change (digest_length 2) with 48. change (Z.to_nat 48) with 48%nat. rewrite !app_nil_r.
  assert (EN : (if b =? 0 then [] else [0]) ++ b :: rest = secret_number (b :: rest)) by (destruct b; reflexivity).
  rewrite EN. set (m := l_hmac L 2 _ _). assert (Lm : length m = 48%nat) by apply HL.
  cbn [fst snd]. split;
  [apply (spec_does _ _ _ _ _ _ answers a1)|apply (spec_does _ _ _ _ _ _ answers a2)];
  try lia; try (intros (X&Y&_); split; [exact X|exact Y]); apply finish_key.
  - unfold msl_keys. cbn [fst]. fold m. rewrite firstn_app, Lm. change (16 - 48)%nat with 0%nat. cbn [firstn]. now rewrite app_nil_r.
  - unfold zlen. rewrite firstn_length, app_length, Lm. lia.
  - unfold msl_keys. cbn [snd]. fold m. rewrite skipn_app, Lm. change (16 - 48)%nat with 0%nat. rewrite skipn_O.
    rewrite firstn_app, skipn_length, Lm. change (32 - (48 - 16))%nat with 0%nat. rewrite firstn_O. now rewrite app_nil_r.
  - unfold zlen. rewrite firstn_length, skipn_length, app_length, Lm. lia.
Qed.

(** ** Results *)
Section Results.
Variables (r : kdf) (pre : Prop) (rights : rights) (parent : stored_key) (n : Z) (v : list Z) (fine : Prop).
Hypothesis H : call_does r pre rights parent n v fine.
Lemma does_value : match r with KdfKey k => derived_key k rights parent n v | KdfFails s => s <> OK | _ => False end.
Proof. destruct r; cbn in H; tauto. Qed.
Lemma does_accept : fine -> length (r_id rights) = 64%nat ->
  (exists k, r = KdfKey k) <-> pre /\ 16 <= n <= 512 /\ id_terminated rights.
Proof.
  intros F I. assert (V := validate_format_iff rights I). destruct r as [k|s| |]; cbn in H; try tauto.
  - split; [|eauto]. intros _. tauto.
  - split; [intros [k E]; discriminate|]. intros (P&N&T). exfalso. destruct H as [_ H']. apply H' in P; tauto.
Qed.
End Results.

Section X963. Variables (L : lib) (rights : rights) (d n : Z) (info : input) (parent : stored_key) (now : Z)
  (mem : option (list Z)) (buf : list Z) (answers : nat -> bool) (alloc : bool).
Hypotheses (G : good_lib L) (Hn : 0 <= n) (Hm : memory_for n mem) (Hb : zlen buf = 64).
Lemma x963_value : match derive_x963 L rights d n info parent now mem buf answers alloc with
  | KdfKey k => derived_key k rights parent n (x963 L d (k_bytes parent) (in_bytes info) (Z.to_nat n))
  | KdfFails s => s <> OK | _ => False end.
Proof. exact (does_value _ _ _ _ _ _ _ (x963_does L rights d n info parent now mem buf answers alloc G Hn Hm Hb)). Qed.
Lemma concat_value : match derive_concat L rights d n info parent now mem buf answers alloc with
  | KdfKey k => derived_key k rights parent n (sp800_56a L d (k_bytes parent) (in_bytes info) (Z.to_nat n))
  | KdfFails s => s <> OK | _ => False end.
Proof. exact (does_value _ _ _ _ _ _ _ (concat_does L rights d n info parent now mem buf answers alloc G Hn Hm Hb)). Qed.
Hypotheses (A : forall i, answers i = true) (AL : alloc = true) (M : mem <> None) (I : length (r_id rights) = 64%nat).
Lemma x963_accept : (exists k, derive_x963 L rights d n info parent now mem buf answers alloc = KdfKey k) <->
  (0 <= d <= 3 /\ n <= 512 /\ bad_input info = false /\ may_derive parent now) /\ 16 <= n <= 512 /\ id_terminated rights.
Proof. exact (does_accept _ _ _ _ _ _ _ (x963_does L rights d n info parent now mem buf answers alloc G Hn Hm Hb) (conj A (conj AL M)) I). Qed.
Lemma concat_accept : (exists k, derive_concat L rights d n info parent now mem buf answers alloc = KdfKey k) <->
  (0 <= d <= 3 /\ n <= 512 /\ bad_input info = false /\ may_derive parent now) /\ 16 <= n <= 512 /\ id_terminated rights.
Proof. exact (does_accept _ _ _ _ _ _ _ (concat_does L rights d n info parent now mem buf answers alloc G Hn Hm Hb) (conj A (conj AL M)) I). Qed.
End X963.
Section HkdfR. Variables (L : lib) (rights : rights) (d n : Z) (salt info : input) (parent : stored_key) (now : Z)
  (mem : option (list Z)) (prk tag : list Z) (answers : nat -> bool) (alloc : bool).
Hypotheses (G : good_lib L) (Hn : 0 <= n) (Hm : memory_for n mem) (Hp : zlen prk = 64) (Ht : zlen tag = 64).
Lemma hkdf_value : match derive_hkdf L rights d n salt info parent now mem prk tag answers alloc with
  | KdfKey k => derived_key k rights parent n (rfc5869 L d salt (k_bytes parent) (in_bytes info) (Z.to_nat n))
  | KdfFails s => s <> OK | _ => False end.
Proof. exact (does_value _ _ _ _ _ _ _ (hkdf_does L rights d n salt info parent now mem prk tag answers alloc G Hn Hm Hp Ht)). Qed.
Hypotheses (A : forall i, answers i = true) (AL : alloc = true) (M : mem <> None) (I : length (r_id rights) = 64%nat).
Lemma hkdf_accept : (exists k, derive_hkdf L rights d n salt info parent now mem prk tag answers alloc = KdfKey k) <->
  (0 <= d <= 3 /\ n <= 512 /\ bad_input salt = false /\ bad_input info = false /\ may_derive parent now /\ 16 <= k_size parent <= 512) /\
  16 <= n <= 512 /\ id_terminated rights.
Proof. exact (does_accept _ _ _ _ _ _ _ (hkdf_does L rights d n salt info parent now mem prk tag answers alloc G Hn Hm Hp Ht) (conj A (conj AL M)) I). Qed.
End HkdfR.
Section CmacR. Variables (L : lib) (rights : rights) (n c : Z) (other : input) (parent : stored_key) (now : Z)
  (mem : option (list Z)) (full : list Z) (answers : nat -> bool) (alloc : bool).
Hypotheses (G : good_lib L) (Hn : 0 <= n) (Hm : memory_for n mem) (Hf : zlen full = 64) (Hk : zlen (k_bytes parent) = k_size parent).
Lemma cmac_value : match derive_cmac L rights n c other parent now mem full answers alloc with
  | KdfKey k => derived_key k rights parent n (ctr_cmac L (k_bytes parent) (in_bytes other) (Z.to_nat c) (Z.to_nat n))
  | KdfFails s => s <> OK | _ => False end.
Proof. exact (does_value _ _ _ _ _ _ _ (cmac_does L rights n c other parent now mem full answers alloc G Hn Hm Hf Hk)). Qed.
Hypotheses (A : forall i, answers i = true) (AL : alloc = true) (M : mem <> None) (I : length (r_id rights) = 64%nat).
Lemma cmac_accept : (exists k, derive_cmac L rights n c other parent now mem full answers alloc = KdfKey k) <->
  (1 <= c <= 4 /\ (exists m, n = 16 * m /\ c + m <= 5) /\ bad_input other = false /\ may_derive parent now /\
   (k_size parent = 16 \/ k_size parent = 32)) /\ 16 <= n <= 512 /\ id_terminated rights.
Proof. exact (does_accept _ _ _ _ _ _ _ (cmac_does L rights n c other parent now mem full answers alloc G Hn Hm Hf Hk) (conj A (conj AL M)) I). Qed.
End CmacR.
Section WrapR. Variables (L : lib) (rights : rights) (enc hmac : stored_key) (now : Z)
  (mem : option (list Z * list Z)) (answers : nat -> bool) (alloc : bool).
Hypotheses (G : good_lib L) (Hm : match mem with Some (a, b) => zlen a = 32 /\ zlen b = 32 | None => True end).
Lemma wrapping_value : match derive_netflix L rights enc hmac now mem answers alloc with
  | KdfKey k => derived_key k rights enc 16 (msl_wrapping L (k_bytes enc) (k_bytes hmac))
  | KdfFails s => s <> OK | _ => False end.
Proof. exact (does_value _ _ _ _ _ _ _ (wrapping_does L rights enc hmac now mem answers alloc G Hm)). Qed.
Hypotheses (A : forall i, answers i = true) (AL : alloc = true) (M : mem <> None) (I : length (r_id rights) = 64%nat).
Lemma wrapping_accept : (exists k, derive_netflix L rights enc hmac now mem answers alloc = KdfKey k) <->
  may_derive enc now /\ may_derive hmac now /\ zlen (k_bytes enc) = 16 /\ zlen (k_bytes hmac) = 32 /\ id_terminated rights.
Proof.
  rewrite (does_accept _ _ _ _ _ _ _ (wrapping_does L rights enc hmac now mem answers alloc G Hm) (conj A (conj AL M)) I).
  split; intros; repeat split; try tauto; try lia; apply H.
Qed.
End WrapR.

(** The representation of a number is unique, and the code finds it for secrets with at most
    one leading zero. *)
Lemma be_bounds m : Forall byte_ok m -> 0 <= be_value m < 256 ^ zlen m.
Proof.
  induction m as [|b m IH]; intros F; [cbn; lia|]. inversion F as [|? ? Hb F']; subst. specialize (IH F').
  cbn [be_value]. replace (zlen (b :: m)) with (zlen m + 1) by (unfold zlen; cbn [length]; lia).
  rewrite Z.pow_add_r by (unfold zlen; lia). unfold byte_ok in Hb. nia.
Qed.
Lemma be_inj a : forall b, Forall byte_ok a -> Forall byte_ok b -> length a = length b -> be_value a = be_value b -> a = b.
Proof.
  induction a as [|x a IH]; intros [|y b] Fa Fb HL HV; try discriminate; [reflexivity|].
  inversion Fa as [|? ? Hx Fa']; inversion Fb as [|? ? Hy Fb']; subst. injection HL as HL. cbn [be_value] in HV.
  assert (Ba := be_bounds a Fa'). assert (Bb := be_bounds b Fb').
  assert (EZ : zlen a = zlen b) by (unfold zlen; lia). rewrite <- EZ in *. set (p := 256 ^ zlen a) in *. clearbody p.
  assert (x = y) by nia. subst y. f_equal. apply IH; auto. lia.
Qed.
Lemma be_length a b : Forall byte_ok a -> Forall byte_ok b ->
  match a with [] => True | x :: _ => x <> 0 end -> be_value a = be_value b -> (length a <= length b)%nat.
Proof.
  intros Fa Fb Ha HV. destruct (Nat.le_gt_cases (length a) (length b)) as [|C]; [assumption|exfalso].
  destruct a as [|x a]; [cbn in C; lia|]. inversion Fa as [|? ? Hx Fa']; subst. cbn [be_value] in HV.
  assert (Ba := be_bounds a Fa'). assert (Bb := be_bounds b Fb).
  assert (256 ^ zlen b <= 256 ^ zlen a) by (apply Z.pow_le_mono_r; [lia|unfold zlen; cbn [length] in C; lia]).
  unfold byte_ok in Hx. nia.
Qed.
Lemma number_unique l l' v : msl_number l v -> msl_number l' v -> l = l'.
Proof.
  intros (m&->&V&F&Hm) (m'&->&V'&F'&Hm'). f_equal. apply be_inj; auto; [|congruence].
  apply Nat.le_antisymm; apply be_length; auto; congruence.
Qed.
Lemma secret_number_ok s : Forall byte_ok s -> ~ (exists rest, s = 0 :: 0 :: rest) -> s <> [] ->
  msl_number (secret_number s) (be_value s).
Proof.
  intros F Z0 N. destruct s as [|b s]; [congruence|]. inversion F as [|? ? Hb F']; subst. destruct (Z.eq_dec b 0) as [->|Nb].
  - exists s. split; [reflexivity|]. split; [reflexivity|]. split; [exact F'|]. destruct s as [|c s]; [exact I|].
    intros ->. apply Z0. eauto.
  - exists (b :: s). split; [destruct b; reflexivity || lia|]. auto.
Qed.
Lemma shared_value L re rh inkey secret mem answers a1 a2 number :
  good_lib L -> match mem with Some (a, b) => zlen a = 48 /\ zlen b = 48 | None => True end ->
  Forall byte_ok (k_bytes secret) -> k_bytes secret <> [] -> ~ (exists rest, k_bytes secret = 0 :: 0 :: rest) ->
  msl_number number (be_value (k_bytes secret)) ->
  match kdf_netflix_shared_secret L re rh inkey secret mem answers a1 a2 with (r1, r2) =>
    match r1 with KdfKey k => derived_key k re inkey 16 (fst (msl_keys L (k_bytes inkey) number)) | KdfFails s => s <> OK | _ => False end /\
    match r2 with KdfKey k => derived_key k rh inkey 32 (snd (msl_keys L (k_bytes inkey) number)) | KdfFails s => s <> OK | _ => False end
  end.
Proof.
  intros G Hm F N Z0 HN.
  assert (number = secret_number (k_bytes secret)) as -> by (eapply number_unique; [exact HN|now apply secret_number_ok]).
  assert (S := shared_does L re rh inkey secret mem answers a1 a2 G Hm N). cbv zeta in S.
  destruct (kdf_netflix_shared_secret L re rh inkey secret mem answers a1 a2) as [r1 r2]. destruct S as [S1 S2].
  split; [exact (does_value _ _ _ _ _ _ _ S1)|exact (does_value _ _ _ _ _ _ _ S2)].
Qed.

(** Two leading zeros: the HMAC is taken of another representation. *)
Definition plain_rights : rights := MkRights (repeat 0 64) 63 0 0 (2 ^ 60) [].
Definition toy_parent (n : nat) : stored_key := MkKey plain_rights 0 no_params (Z.of_nat n) (repeat 7 n).
Lemma two_zeros : exists L inkey secret number k1 k2, good_lib L /\ Forall byte_ok (k_bytes secret) /\
  msl_number number (be_value (k_bytes secret)) /\
  kdf_netflix_shared_secret L plain_rights plain_rights inkey secret (Some (repeat 0 48, repeat 0 48)) (fun _ => true) true true =
    (KdfKey k1, KdfKey k2) /\
  k_bytes k1 <> fst (msl_keys L (k_bytes inkey) number) /\ k_bytes k2 <> snd (msl_keys L (k_bytes inkey) number).
Proof.
  exists toy_lib, (toy_parent 16), (MkKey plain_rights 0 no_params 3 [0; 0; 5]), [0; 5].
  eexists _, _. split; [exact toy_good|]. split; [repeat (constructor; [unfold byte_ok; lia|]); constructor|].
  split; [exists [5]; split; [reflexivity|split; [reflexivity|split; [constructor; [unfold byte_ok; lia|constructor]|discriminate]]]|].
  split; [vm_compute; reflexivity|]. split; vm_compute; discriminate.
Qed.
