(** The theorems about cipher contexts. *)
From Verif Require Import Base M_Memory S_Bytes M_Mac M_Unwrap P_Unwrap M_Cipher S_Cipher P_Cipher.

(** ** Histories *)

Lemma reach_inv L a encrypt key p1 p2 c calls c1 ins outs : good_clib L -> create a encrypt key p1 p2 = Some c -> short_aad a p2 ->
  runs L c calls c1 ins outs -> Forall short calls ->
  inv L a encrypt key (vector_of a p1 p2) (associated_of a p2) c1 ins outs.
Proof.
  intros HL Hc Hs Hr Hsh. exact (runs_inv L c calls c1 ins outs HL Hr _ _ _ _ _ [] [] (create_inv L _ _ _ _ _ _ Hc Hs) Hsh).
Qed.

Lemma encrypts_history L a key p1 p2 c calls c1 ins outs buf inb n params : good_clib L ->
  create a true key p1 p2 = Some c -> short_aad a p2 -> runs L c calls c1 ins outs -> Forall short calls ->
  0 <= n < 2 ^ 31 -> last_args a true n params -> last_room a n <= zlen buf -> n <= zlen inb ->
  exists c2 buf2 n2 tag2, process_last L c1 (Some buf) inb n params no_faults = Result OK c2 buf2 n2 n tag2 /\
    let msg := ins ++ firstn (Z.to_nat n) inb in
    let text := outs ++ firstn (Z.to_nat n2) buf2 in
    encryption L a key (vector_of a p1 p2) msg text /\
    (is_aead a = true -> exists t, params = Some (Bytes t) /\
       tag2 = Bytes (tag_of L a key (vector_of a p1 p2) (associated_of a p2) text (length t))).
Proof.
  intros HL Hc Hs Hr Hsh Hn Ha Hroom Hin.
  destruct (process_last_encrypt L a key _ _ c1 ins outs buf inb n params HL (reach_inv _ _ _ _ _ _ _ _ _ _ _ HL Hc Hs Hr Hsh) Hn Ha Hroom Hin)
    as (v & buf2 & n2 & tag2 & E & _ & _ & _ & H1 & H2).
  exists (with_evp c1 v), buf2, n2, tag2. cbn zeta. auto.
Qed.

Lemma decrypts_history L a key p1 p2 c calls c1 ins outs buf inb n params : good_clib L ->
  create a false key p1 p2 = Some c -> short_aad a p2 -> runs L c calls c1 ins outs -> Forall short calls ->
  0 <= n < 2 ^ 31 -> last_args a false n params -> last_room a n <= zlen buf -> n <= zlen inb ->
  let text := ins ++ firstn (Z.to_nat n) inb in
  let iv := vector_of a p1 p2 in
  exists st c2 buf2 n2 k2 tag2, process_last L c1 (Some buf) inb n params no_faults = Result st c2 buf2 n2 k2 tag2 /\
    (st = OK <-> (exists msg, decryption L a key iv text msg) /\ tag_matches L a key iv (associated_of a p2) text params) /\
    (st = OK -> k2 = n /\ decryption L a key iv text (outs ++ firstn (Z.to_nat n2) buf2)).
Proof.
  intros HL Hc Hs Hr Hsh Hn Ha Hroom Hin text iv.
  destruct (process_last_decrypt L a key _ _ c1 ins outs buf inb n params HL (reach_inv _ _ _ _ _ _ _ _ _ _ _ HL Hc Hs Hr Hsh) Hn Ha Hroom Hin)
    as (v & buf2 & n2 & k2 & st & E & _ & _ & H).
  exists st, (with_evp c1 v), buf2, n2, k2, (tag_in params). split; [exact E|].
  destruct H as [(-> & -> & _ & Hd & Ht)|(-> & -> & -> & Hno)].
  - split; [split; [eauto|auto]|auto].
  - split; [split; [discriminate|intros H; elim (Hno H)]|discriminate].
Qed.

(** Before the last call. *)
Lemma running_history L a encrypt key p1 p2 c calls c1 ins outs : good_clib L ->
  create a encrypt key p1 p2 = Some c -> short_aad a p2 -> runs L c calls c1 ins outs -> Forall short calls ->
  if encrypt then encrypts L a key (vector_of a p1 p2) ins outs
  else exists held, decrypts L a key (vector_of a p1 p2) ins (outs ++ held) /\
         length held = (if is_padded a && negb (length ins =? 0)%nat then 16%nat else 0%nat).
Proof.
  intros HL Hc Hs Hr Hsh. destruct (reach_inv _ _ _ _ _ _ _ _ _ _ _ HL Hc Hs Hr Hsh) as (Ha & He & Hk & _ & _ & _ & HB).
  destruct (is_block a) eqn:Eb.
  - destruct HB as (_ & bs & HbI & _ & HO & Hheld). unfold held_bytes in HO. rewrite Ha, He in Hheld. destruct encrypt.
    + unfold holds_back in Hheld. rewrite andb_false_r in Hheld. rewrite Hheld, app_nil_r in HO. rewrite HO, <- Ha, <- Hk.
      rewrite <- Ha in Eb. now apply encrypts_blocks.
    + exists (match v_held (c_evp c1) with Some h => h | None => [] end). rewrite HO. split.
      * rewrite <- Ha, <- Hk. rewrite <- Ha in Eb. now apply decrypts_blocks.
      * unfold holds_back in Hheld. rewrite andb_true_r in Hheld. destruct (is_padded a).
        -- destruct (v_held (c_evp c1)) as [h|].
           ++ destruct ins as [|x ins]; [|exact Hheld].
              pose proof (in_blocks_unique _ _ HbI [] (conj eq_refl (Forall_nil _))) as ->.
              cbn in HO. apply app_eq_nil in HO as [_ ->]. discriminate.
           ++ now rewrite Hheld.
        -- now rewrite Hheld.
  - destruct HB as (_ & _ & Hst & _). rewrite Ha, Hk in Hst. destruct encrypt.
    + destruct a; try discriminate; exact Hst.
    + exists []. rewrite app_nil_r. split; [destruct a; try discriminate; exact Hst|]. replace (is_padded a) with false by (destruct a; try reflexivity; discriminate). reflexivity.
Qed.

Definition decidable (P : Prop) := P \/ ~ P.
Lemma dec_imp (P Q : Prop) : decidable P -> decidable Q -> decidable (P -> Q).
Proof. unfold decidable. tauto. Qed.
Lemma dec_and (P Q : Prop) : decidable P -> decidable Q -> decidable (P /\ Q).
Proof. unfold decidable. tauto. Qed.
Lemma last_args_dec a encrypt n params : decidable (last_args a encrypt n params).
Proof.
  assert (A : forall x y : calg, decidable (x = y)) by (intros x y; assert ({x = y} + {x <> y}) as [|] by decide equality; [left|right]; assumption).
  assert (B : forall x y : bool, decidable (x = y)) by (intros x y; destruct (Bool.bool_dec x y); [left|right]; assumption).
  assert (N : decidable (n <= 16)) by (unfold decidable; lia). assert (M : decidable (n mod 16 = 0)) by (unfold decidable; lia).
  assert (NA : forall x y : calg, decidable (x <> y)) by (intros x y; destruct (A x y); [right|left]; auto).
  assert (T : forall P : list Z -> Prop, (forall t, decidable (P t)) -> decidable (exists t, params = Some (Bytes t) /\ P t)).
  { intros P HP. destruct params as [[m|t]|]; try (right; intros (t' & ? & _); discriminate).
    destruct (HP t) as [H|H]; [left; eauto|right]. intros (t' & [= <-] & H'). contradiction. }
  assert (E : forall t : list Z, decidable (t <> [])) by (intros [|x t]; [right; auto|left; discriminate]).
  assert (O : decidable (a = CTR \/ a = CHACHA20)) by (destruct (A a CTR), (A a CHACHA20); unfold decidable; tauto).
  unfold last_args. repeat first [exact N | exact M | apply NA | apply E | apply dec_and | apply dec_imp | apply T; intros t | apply A | apply B | assumption];
    unfold decidable; lia.
Qed.

(** What a call of process does to its buffers. *)
Lemma process_history L a encrypt key p1 p2 c calls c1 ins outs buf inb n : good_clib L ->
  create a encrypt key p1 p2 = Some c -> short_aad a p2 -> runs L c calls c1 ins outs -> Forall short calls ->
  0 <= n < 2 ^ 31 -> fits a n buf inb ->
  k_ahead L = false \/ holds_back a encrypt = false \/ n + 16 <= zlen buf ->
  exists c2 buf2 n2, process L c1 (Some buf) inb n None = Result OK c2 buf2 n2 n (Null 0) /\
    0 <= n2 <= n /\ length buf2 = length buf /\
    untouched (if k_ahead L && holds_back a encrypt then n + 16 else n) buf buf2.
Proof.
  intros HL Hc Hs Hr Hsh Hn Hf Hw.
  destruct (process_fits L a encrypt key _ _ c1 ins outs buf inb n HL (reach_inv _ _ _ _ _ _ _ _ _ _ _ HL Hc Hs Hr Hsh) Hn Hf)
    as (v & w & o & rest & _ & -> & Hrest & Hnh & Ho & Hlw & _ & E).
  destruct Hf as (F1 & F2 & _). rewrite zlen_firstn in * by lia.
  assert (Hle : (length (o ++ rest) <= length buf /\ length (o ++ rest) <=
      Z.to_nat (if k_ahead L && holds_back a encrypt then n + 16 else n))%nat).
  { rewrite app_length in *. destruct (holds_back a encrypt).
    - rewrite andb_true_r. destruct (k_ahead L); unfold zlen in *; [|lia].
      destruct Hw as [?|[?|?]]; try discriminate; destruct (v_held (c_evp c1)); lia.
    - rewrite andb_false_r. destruct Hnh as [-> ?]; [reflexivity|]. unfold zlen in *. cbn. lia. }
  destruct Hle as [Hle Hle2]. replace (length (o ++ rest) <=? length buf)%nat with true in E by lia.
  exists (with_evp c1 v). eexists. exists (zlen o). split; [exact E|]. split; [unfold zlen; lia|].
  split; [rewrite app_length, skipn_length; lia|].
  unfold untouched. rewrite skipn_app, skipn_all2 by assumption. cbn [Datatypes.app]. rewrite skipn_twice. f_equal. lia.
Qed.
Lemma process_last_history L a encrypt key p1 p2 c calls c1 ins outs buf inb n params : good_clib L ->
  create a encrypt key p1 p2 = Some c -> short_aad a p2 -> runs L c calls c1 ins outs -> Forall short calls ->
  0 <= n < 2 ^ 31 ->
  exists st c2 buf2 n2 k2 tag2, process_last L c1 (Some buf) inb n params no_faults = Result st c2 buf2 n2 k2 tag2 /\
    length buf2 = length buf /\ untouched (last_room a n) buf buf2 /\
    (last_args a encrypt n params /\ last_room a n <= zlen buf /\ n <= zlen inb \/ st <> OK /\ c2 = c1 /\ buf2 = buf /\ n2 = n /\ k2 = 0).
Proof.
  intros HL Hc Hs Hr Hsh Hn. pose proof (reach_inv _ _ _ _ _ _ _ _ _ _ _ HL Hc Hs Hr Hsh) as HI.
  assert (D : last_args a encrypt n params /\ last_room a n <= zlen buf /\ n <= zlen inb \/
            ~ (last_args a encrypt n params /\ last_room a n <= zlen buf /\ n <= zlen inb)).
  { assert (D1 : last_room a n <= zlen buf \/ ~ last_room a n <= zlen buf) by lia.
    assert (D2 : n <= zlen inb \/ ~ n <= zlen inb) by lia.
    assert (D3 : last_args a encrypt n params \/ ~ last_args a encrypt n params).
    { apply last_args_dec. }
    tauto. }
  destruct D as [(D1 & D2 & D3)|D].
  - destruct encrypt.
    + destruct (process_last_encrypt L a key _ _ c1 ins outs buf inb n params HL HI Hn D1 D2 D3) as (v & buf2 & n2 & tag2 & E & Hn2 & Hl & Hu & _).
      exists OK, (with_evp c1 v), buf2, n2, n, tag2. split; [exact E|]. split; [exact Hl|]. split; [|auto].
      unfold untouched in *. replace (Z.to_nat (last_room a n)) with (Z.to_nat n2 + (Z.to_nat (last_room a n) - Z.to_nat n2))%nat by lia.
      rewrite <- !skipn_twice, Hu. reflexivity.
    + destruct (process_last_decrypt L a key _ _ c1 ins outs buf inb n params HL HI Hn D1 D2 D3) as (v & buf2 & n2 & k2 & st & E & Hl & Hu & _).
      exists st, (with_evp c1 v), buf2, n2, k2, (tag_in params). repeat (split; [assumption|]). left. auto.
  - destruct HI as (Ha & He & _).
    destruct (process_last_refused L c1 buf inb n params no_faults Hn) as (st & E & Hst); [now rewrite Ha, He|].
    exists st, c1, buf, n, 0, (tag_in params). split; [exact E|]. split; [reflexivity|]. split; [reflexivity|]. right. auto.
Qed.

Lemma refused_history L a encrypt key p1 p2 c calls c1 ins outs buf inb n : good_clib L ->
  create a encrypt key p1 p2 = Some c -> short_aad a p2 -> runs L c calls c1 ins outs -> Forall short calls ->
  0 <= n < 2 ^ 31 -> ~ fits a n buf inb ->
  process L c1 (Some buf) inb n None = Result INVALID_PARAMETER c1 buf n 0 (Null 0).
Proof.
  intros HL Hc Hs Hr Hsh Hn Hf. destruct (reach_inv _ _ _ _ _ _ _ _ _ _ _ HL Hc Hs Hr Hsh) as (Ha & _).
  apply process_refused; [assumption|]. now rewrite Ha.
Qed.

Lemma iv_length a encrypt key p1 p2 c : create a encrypt key p1 p2 = Some c -> is_chained a = true ->
  length (vector_of a p1 p2) = 16%nat.
Proof.
  intros E Hc. destruct a; try discriminate; cbn [create vector_of] in *; destruct p1 as [m|l]; cbn [null in_length in_bytes] in *;
    rewrite ?orb_true_r in E; try discriminate; rewrite orb_false_r in E;
    unfold zlen in E; destruct (Z.of_nat (length l) =? 16) eqn:El; cbn [negb] in E; rewrite ?orb_true_r in E; try discriminate; lia.
Qed.

Lemma round_trip_history L a key p1 p2 ce calls1 ce1 ins1 outs1 buf1 inb1 n1 params1 ce2 buf1' m1 k1 tag1
    cd calls2 cd1 ins2 outs2 buf2 inb2 n2 params2 : good_clib L -> short_aad a p2 -> bytes_ok (vector_of a p1 p2) ->
  create a true key p1 p2 = Some ce -> runs L ce calls1 ce1 ins1 outs1 -> Forall short calls1 -> 0 <= n1 < 2 ^ 31 ->
  process_last L ce1 (Some buf1) inb1 n1 params1 no_faults = Result OK ce2 buf1' m1 k1 tag1 ->
  bytes_ok (ins1 ++ firstn (Z.to_nat n1) inb1) ->
  create a false key p1 p2 = Some cd -> runs L cd calls2 cd1 ins2 outs2 -> Forall short calls2 -> 0 <= n2 < 2 ^ 31 ->
  ins2 ++ firstn (Z.to_nat n2) inb2 = outs1 ++ firstn (Z.to_nat m1) buf1' ->
  (is_aead a = true -> params2 = Some tag1) ->
  last_args a false n2 params2 -> last_room a n2 <= zlen buf2 -> n2 <= zlen inb2 ->
  exists cd2 buf2' m2 k2 tag2, process_last L cd1 (Some buf2) inb2 n2 params2 no_faults = Result OK cd2 buf2' m2 k2 tag2 /\
    outs2 ++ firstn (Z.to_nat m2) buf2' = ins1 ++ firstn (Z.to_nat n1) inb1.
Proof.
  intros HL Hs Hiv Hce Hr1 Hsh1 Hn1 E1 Hbytes Hcd Hr2 Hsh2 Hn2 Esame Htag HA2 Hroom2 Hin2.
  destruct (process_last_history L a true key p1 p2 ce calls1 ce1 ins1 outs1 buf1 inb1 n1 params1 HL Hce Hs Hr1 Hsh1 Hn1)
    as (st & x1 & x2 & x3 & x4 & x5 & E & _ & _ & [(HA1 & Hroom1 & Hin1)|(Hno & _)]).
  2: { rewrite E in E1. injection E1 as -> _ _ _ _ _. contradiction. }
  clear E. destruct (encrypts_history L a key p1 p2 ce calls1 ce1 ins1 outs1 buf1 inb1 n1 params1 HL Hce Hs Hr1 Hsh1 Hn1 HA1 Hroom1 Hin1)
    as (y1 & y2 & y3 & y4 & E & Henc & Htg). rewrite E in E1. injection E1 as -> -> -> <- ->. cbn zeta in *.
  assert (Hdec : decryption L a key (vector_of a p1 p2) (ins2 ++ firstn (Z.to_nat n2) inb2) (ins1 ++ firstn (Z.to_nat n1) inb1)).
  { rewrite Esame. apply decryption_encryption; auto. intros Hch. exact (iv_length _ _ _ _ _ _ Hce Hch). }
  destruct (decrypts_history L a key p1 p2 cd calls2 cd1 ins2 outs2 buf2 inb2 n2 params2 HL Hcd Hs Hr2 Hsh2 Hn2 HA2 Hroom2 Hin2)
    as (st2 & c2 & buf2' & m2 & k2 & tag2 & E2 & Hok & Hres). cbn zeta in *.
  assert (st2 = OK) as ->.
  { apply Hok. split; [eauto|]. intros Hae. destruct (Htg Hae) as (t & _ & Ht). rewrite (Htag Hae), Ht.
    eexists. split; [reflexivity|]. rewrite Esame. unfold tag_of. rewrite firstn_length.
    destruct HL as (_ & _ & _ & HT). rewrite HT.
    replace (firstn (length t) (k_tag L a key (vector_of a p1 p2) (associated_of a p2) (outs1 ++ firstn (Z.to_nat m1) buf1')))
      with (firstn (Nat.min (length t) 16) (k_tag L a key (vector_of a p1 p2) (associated_of a p2) (outs1 ++ firstn (Z.to_nat m1) buf1'))); [reflexivity|].
    destruct (Nat.le_ge_cases (length t) 16) as [Hle|Hge]; [now rewrite Nat.min_l|].
    rewrite Nat.min_r by assumption. transitivity (k_tag L a key (vector_of a p1 p2) (associated_of a p2) (outs1 ++ firstn (Z.to_nat m1) buf1')); [|symmetry]; apply firstn_all2; rewrite HT; lia. }
  exists c2, buf2', m2, k2, tag2. split; [exact E2|]. destruct (Hres eq_refl) as [_ Hd2].
  exact (decryption_fun _ _ _ _ _ _ _ Hd2 Hdec).
Qed.

(** Without padding and tags there is nothing to finish. *)
Lemma round_trip_running L a key p1 p2 ce calls1 ce1 ins1 outs1 cd calls2 cd1 ins2 outs2 : good_clib L -> short_aad a p2 ->
  bytes_ok (vector_of a p1 p2) -> is_padded a = false ->
  create a true key p1 p2 = Some ce -> runs L ce calls1 ce1 ins1 outs1 -> Forall short calls1 -> bytes_ok ins1 ->
  create a false key p1 p2 = Some cd -> runs L cd calls2 cd1 ins2 outs2 -> Forall short calls2 -> ins2 = outs1 -> outs2 = ins1.
Proof.
  intros HL Hs Hiv Hp Hce Hr1 Hsh1 Hb Hcd Hr2 Hsh2 ->.
  pose proof (running_history L a true key p1 p2 _ _ _ _ _ HL Hce Hs Hr1 Hsh1) as H1. cbn in H1.
  destruct (running_history L a false key p1 p2 _ _ _ _ _ HL Hcd Hs Hr2 Hsh2) as (h & H2 & Hh). rewrite Hp in Hh. cbn in Hh.
  apply length_zero_iff_nil in Hh as ->. rewrite app_nil_r in H2.
  eapply decrypts_fun; [exact H2|]. apply decrypts_encrypts; auto. intros Hch. exact (iv_length _ _ _ _ _ _ Hce Hch).
Qed.

(** ** A new vector *)
Lemma with_evp_self c : c = with_evp c (c_evp c).
Proof. now destruct c. Qed.
Lemma encrypt_last_same L c buf d fu ff st c2 b n : encrypt_last L c buf d fu ff = Wrote st c2 b n -> exists v, c2 = with_evp c v.
Proof.
  unfold encrypt_last, update_final. intros H.
  repeat match type of H with
  | (if ?x then _ else _) = _ => destruct x
  | (match ?x with (_, _) => _ end) = _ => destruct x as [? [[? ?]|]]
  | (match put ?x ?y with Some _ => _ | None => _ end) = _ => destruct (put x y)
  | (match evp_final ?x ?y ?z with (_, _) => _ end) = _ => destruct (evp_final x y z) as [? [?|]]
  end; try discriminate; injection H as _ <- _ _; eauto using with_evp_self.
Qed.
Lemma decrypt_last_same L c buf d fu ff st c2 b n : decrypt_last L c buf d fu ff = Wrote st c2 b n -> exists v, c2 = with_evp c v.
Proof.
  unfold decrypt_last, update_final. intros H.
  destruct (c_encrypt c); [injection H as _ <- _ _; eauto using with_evp_self|].
  destruct (is_block (c_alg c) && negb (is_padded (c_alg c))); [injection H as _ <- _ _; eauto using with_evp_self|].
  destruct (match c_alg c with POLY1305 => false | _ => 16 <? zlen d end); [injection H as _ <- _ _; eauto using with_evp_self|].
  destruct (evp_update L c d fu) as [? [[? ?]|]]; [|injection H as _ <- _ _; eauto].
  destruct (put buf l); [|discriminate]. destruct (evp_final _ _ _) as [? [?|]]; [|injection H as _ <- _ _; eauto].
  destruct (put _ _); [|discriminate]. injection H as _ <- _ _; eauto.
Qed.
Lemma last_result_same c w n t st c2 b n2 k2 t2 : (forall s c' b' m, w = Wrote s c' b' m -> exists v, c' = with_evp c v) ->
  last_result w n t = Result st c2 b n2 k2 t2 -> exists v, c2 = with_evp c v.
Proof.
  intros Hw H. destruct w as [s c' b' m|]; [|discriminate]. cbn in H. destruct s; injection H as _ <- _ _ _ _; eapply Hw; reflexivity.
Qed.
Lemma process_last_same L c out inb n p f st c2 b n2 k2 t : process_last L c out inb n p f = Result st c2 b n2 k2 t ->
  exists v, c2 = with_evp c v.
Proof.
  unfold process_last. intros H.
  assert (R : forall s b' m k t', Result s c b' m k t' = Result st c2 b n2 k2 t -> exists v, c2 = with_evp c v)
    by (intros s b' m k t' [= _ <- _ _ _ _]; eauto using with_evp_self).
  assert (RE : forall buf d, last_result (encrypt_last L c buf d (f_update f) (f_final f)) n (match p with Some t => t | None => Null 0 end) =
     Result st c2 b n2 k2 t -> exists v, c2 = with_evp c v)
    by (intros buf d; apply last_result_same; intros; eapply encrypt_last_same; eassumption).
  assert (RD : forall buf d, last_result (decrypt_last L c buf d (f_update f) (f_final f)) n (match p with Some t => t | None => Null 0 end) =
     Result st c2 b n2 k2 t -> exists v, c2 = with_evp c v)
    by (intros buf d; apply last_result_same; intros; eapply decrypt_last_same; eassumption).
  destruct out as [buf|]; [|eauto].
  destruct (zlen buf <? _); [eauto|]. destruct (zlen inb <? n); [eauto|].
  destruct (is_padded (c_alg c)).
  { destruct (16 <? n); [eauto|]. destruct (c_encrypt c); [eauto|]. destruct (negb _); eauto. }
  destruct (is_aead (c_alg c)).
  - unfold last_aead in H. destruct (match c_alg c with GCM => 16 <? n | _ => false end); [eauto|].
    destruct p as [[m|tg]|]; try (eauto; fail).
    destruct (match c_alg c with GCM => 16 <? zlen tg | _ => negb (zlen tg =? 16) end); [eauto|].
    destruct (c_encrypt c).
    + destruct (encrypt_last L c buf _ _ _) as [s c' b' m|] eqn:E; [|discriminate].
      destruct (encrypt_last_same _ _ _ _ _ _ _ _ _ _ E) as [v ->].
      destruct s; cbn in H; try (injection H as _ <- _ _ _ _; eauto; fail).
      destruct (get_tag _ _ _); injection H as _ <- _ _ _ _; eauto.
    + unfold set_tag in H. destruct (f_tag f || (length tg =? 0)%nat); [eauto|].
      set (c' := with_evp c _) in H.
      destruct (last_result_same c' _ _ _ _ _ _ _ _ _ (fun s c'' b' m e => decrypt_last_same _ _ _ _ _ _ _ _ _ _ e) H) as [v ->].
      exists v. reflexivity.
  - destruct (is_block (c_alg c)); [eauto|]. destruct (c_encrypt c); eauto.
Qed.
Lemma update_iv_history L a encrypt key p1 p2 c calls c1 ins outs c2 iv c3 : good_clib L ->
  create a encrypt key p1 p2 = Some c -> short_aad a p2 -> runs L c calls c1 ins outs -> Forall short calls ->
  c2 = c1 \/ (exists out inb n p f st b m k t, process_last L c1 out inb n p f = Result st c2 b m k t) ->
  update_iv c2 iv None = (OK, c3) -> create a encrypt key iv p2 = Some c3.
Proof.
  intros HL Hc Hs Hr Hsh H2 Hu. destruct (reach_inv _ _ _ _ _ _ _ _ _ _ _ HL Hc Hs Hr Hsh) as (Ha & He & Hk & _).
  assert (exists v, c2 = with_evp c1 v) as [v ->].
  { destruct H2 as [->|(out & inb & n & p & f & st & b & m & k & t & E)]; [eauto using with_evp_self|]. eapply process_last_same; eassumption. }
  unfold update_iv in Hu. destruct iv as [m|l]; [discriminate|]. cbn [with_evp c_alg] in Hu. rewrite Ha in Hu.
  destruct (zlen l =? 16) eqn:El.
  - assert (c3 = MkCtx a encrypt key (fresh l []) /\ (a = CBC \/ a = CBC7 \/ a = CTR)) as [-> Ha3].
    { destruct a; try discriminate; cbn [negb] in Hu; injection Hu as <-; unfold with_evp; cbn [c_alg c_encrypt c_key];
        rewrite Ha, He, Hk; auto. }
    destruct Ha3 as [-> | [-> | ->] ]; cbn [create null in_length in_bytes] in *; 
      destruct ((zlen key =? 16) || (zlen key =? 32)); cbn [negb orb] in *; try discriminate; unfold zlen in *; now rewrite El.
  - destruct a; discriminate.
Qed.

(** ** What goes wrong *)
Lemma update_ahead L a encrypt key iv aad c I O data : good_clib L ->
  inv L a encrypt key iv aad c I O -> zlen data < 2 ^ 31 -> (length data mod 16 = 0)%nat -> data <> [] ->
  holds_back a encrypt = true -> k_ahead L = true ->
  exists v w n, evp_update L c data None = (v, Some (w, n)) /\ length w = (length (held_bytes (c_evp c)) + length data)%nat.
Proof.
  intros HL HI Hlen Hmod Hne Eh Eahead. destruct HI as (Ha & He & Hk & Hd & Haad & Hiv & HB).
  assert (Eb : is_block a = true) by (destruct a; try discriminate; reflexivity). rewrite Eb in HB.
  unfold evp_update, reuse. rewrite Hd. cbn [andb]. rewrite firstn_all_int by assumption.
  rewrite int_of_small by (unfold zlen in *; lia).
  replace (zlen data <? 0) with false by (unfold zlen; lia). rewrite Ha, Eb.
  destruct HB as (Hbuf & bs & HbI & Hviv & _).
  replace (zlen data =? 0) with false by (destruct data; [contradiction|unfold zlen; cbn [length]; lia]).
  destruct (split_full data Hmod) as (ds & HbD & Hnd).
  rewrite (update_blocks_spec L c (c_evp c) data ds []); auto;
    [|now rewrite app_nil_r; symmetry; apply HbD|apply HbD].
  rewrite Hviv. set (p := snd (go L c iv bs)).
  assert (Hp : is_chained (c_alg c) = true -> length p = 16%nat).
  { intros Hc. apply (go_len16 L c bs HL iv); [apply HbI| |assumption]. rewrite Ha. exact Hiv. }
  destruct (go_len16 L c ds HL p (proj2 HbD) Hp) as [Hds Hq].
  pose proof (len16_concat _ Hds) as Hlo. rewrite go_length in Hlo.
  assert (Hlo' : length (concat (fst (go L c p ds))) = length data).
  { rewrite Hlo, <- (proj1 HbD), (len16_concat _ (proj2 HbD)). reflexivity. }
  rewrite He. fold (holds_back a encrypt). rewrite Eh, Eahead. cbn [v_buf length]. rewrite Nat.eqb_refl. fold (held_bytes (c_evp c)).
  do 3 eexists. split; [reflexivity|]. now rewrite app_length, Hlo'.
Qed.

Lemma corrupts_history L a key p1 p2 c calls c1 ins outs buf inb n : good_clib L -> k_ahead L = true ->
  create a false key p1 p2 = Some c -> runs L c calls c1 ins outs -> Forall short calls ->
  is_padded a = true -> ins <> [] ->
  0 < n < 2 ^ 31 -> fits a n buf inb -> zlen buf < n + 16 ->
  process L c1 (Some buf) inb n None = Corrupts.
Proof.
  intros HL Hah Hc Hr Hsh Hp Hins Hn (F1 & F2 & F3) Hroom.
  assert (Hs : short_aad a p2) by (intros Hx; destruct a; discriminate).
  assert (Eb : is_block a = true) by (destruct a; try discriminate; reflexivity). specialize (F3 Eb).
  pose proof (reach_inv _ _ _ _ _ _ _ _ _ _ _ HL Hc Hs Hr Hsh) as HI.
  assert (Hld : length (firstn (Z.to_nat n) inb) = Z.to_nat n) by (apply zlen_firstn; lia).
  assert (Eh : holds_back a false = true) by (unfold holds_back; now rewrite Hp).
  assert (Hheld : length (held_bytes (c_evp c1)) = 16%nat).
  { destruct HI as (Ha & He & _ & _ & _ & _ & HB). rewrite Eb in HB. destruct HB as (_ & bs & _ & _ & _ & Hh).
    rewrite Ha, He, Eh in Hh. unfold held_bytes. destruct (v_held (c_evp c1)); [assumption|contradiction]. }
  destruct (update_ahead L a false key _ _ c1 ins outs (firstn (Z.to_nat n) inb) HL HI) as (v & w & m & E & Hw); auto.
  { unfold zlen. lia. }
  { rewrite Hld. apply mod16; lia. }
  { intros Hx. rewrite Hx in Hld. cbn in Hld. lia. }
  destruct HI as (Ha & He & _). unfold process.
  replace (wrap64 (n + 0)) with n by (unfold wrap64, W64; rewrite Z.add_0_r, Z.mod_small; lia).
  replace (if is_padded (c_alg c1) then n else n) with n by now destruct (is_padded (c_alg c1)).
  replace (zlen buf <? n) with false by lia. replace (zlen inb <? n) with false by lia. rewrite Ha, Eb, F3. cbn [andb negb Z.eqb].
  unfold context_update. rewrite Bool.eqb_reflx. cbn [negb]. rewrite Ha, Eb.
  replace (zlen (firstn (Z.to_nat n) inb) mod 16 =? 0) with true.
  2: { unfold zlen. rewrite Hld, Z2Nat.id by lia. now rewrite F3. }
  cbn [andb negb]. rewrite E, put_spec. replace (length w <=? length buf)%nat with false; [reflexivity|].
  symmetry. apply Nat.leb_gt. rewrite Hw, Hheld, Hld. unfold zlen in Hroom. lia.
Qed.

Lemma int_of_long : int_of (2 ^ 32 + 16) = 16.
Proof. reflexivity. Qed.
Lemma long_input L c buf inb : c_alg c = CTR \/ c_alg c = CHACHA20 -> zlen inb = 2 ^ 32 + 16 -> zlen buf = 2 ^ 32 + 16 ->
  exists c2 buf2, process L c (Some buf) inb (2 ^ 32 + 16) None = Result OK c2 buf2 16 (2 ^ 32 + 16) (Null 0).
Proof.
  intros Ha Hi Hb. assert (Hblk : is_block (c_alg c) = false /\ is_aead (c_alg c) = false /\ is_padded (c_alg c) = false) by (destruct Ha as [-> | ->]; auto).
  destruct Hblk as (B1 & B2 & B3). unfold process. rewrite B3, B1, Hi, Hb, Z.ltb_irrefl. cbn [andb].
  unfold context_update. rewrite Bool.eqb_reflx, B1. cbn [andb negb].
  assert (Hd : firstn (Z.to_nat (2 ^ 32 + 16)) inb = inb).
  { apply firstn_all2. rewrite <- Hi. unfold zlen. rewrite Nat2Z.id. apply le_n. }
  rewrite Hd. unfold evp_update. rewrite Hi, int_of_long. unfold reuse. rewrite B1, B2. cbn [orb]. rewrite andb_false_r.
  change (16 <? 0) with false. cbn iota. set (d := firstn (Z.to_nat 16) inb).
  assert (Hl : length d = 16%nat).
  { unfold d. rewrite firstn_length. unfold zlen in Hi. change (Z.to_nat 16) with 16%nat. clear - Hi. lia. }
  rewrite put_spec, stream_out. replace (length d <=? length buf)%nat with true; [eauto|].
  symmetry. apply Nat.leb_le. rewrite Hl. unfold zlen in Hb. clear - Hb. lia.
Qed.

Lemma int_of_large n : 2 ^ 31 <= n < 2 ^ 32 -> int_of n < 0.
Proof. intros H. unfold int_of. rewrite Z.mod_small by lia. cbn zeta. destruct (n <? 2 ^ 31) eqn:E; lia. Qed.
Lemma large_update L c data fails : 2 ^ 31 <= zlen data < 2 ^ 32 -> exists v, evp_update L c data fails = (v, None).
Proof.
  intros H. unfold evp_update. pose proof (int_of_large _ H) as N. apply Z.ltb_lt in N. destruct fails as [v|]; [eauto|].
  destruct (reuse L (c_alg c) (c_evp c)) as [v|]; [|eauto]. rewrite N. eauto.
Qed.
Lemma large_data (inb : list Z) n : 2 ^ 31 <= n < 2 ^ 32 -> (zlen inb <? n) = false -> zlen (firstn (Z.to_nat n) inb) = n.
Proof.
  intros H E. apply Z.ltb_ge in E. unfold zlen in *. rewrite firstn_length, Nat.min_l; [apply Z2Nat.id; lia|].
  rewrite <- (Nat2Z.id (length inb)). apply Z2Nat.inj_le; lia.
Qed.
Lemma large_process L c buf inb n fails : 2 ^ 31 <= n < 2 ^ 32 ->
  exists st c2, process L c (Some buf) inb n fails = Result st c2 buf n 0 (Null 0) /\ st <> OK.
Proof.
  intros H. unfold process. destruct (zlen buf <? _); [do 2 eexists; split; [reflexivity|discriminate]|].
  destruct (zlen inb <? n) eqn:E; [do 2 eexists; split; [reflexivity|discriminate]|].
  destruct (is_block (c_alg c) && negb (n mod 16 =? 0)); [do 2 eexists; split; [reflexivity|discriminate]|].
  pose proof (large_data inb n H E) as Hd. unfold context_update. rewrite Bool.eqb_reflx. cbn [negb].
  destruct (is_block (c_alg c) && _); [do 2 eexists; split; [reflexivity|discriminate]|].
  destruct (large_update L c (firstn (Z.to_nat n) inb) fails) as [v ->]; [lia|].
  do 2 eexists; split; [reflexivity|discriminate].
Qed.
Lemma large_final L c buf data fu ff : 2 ^ 31 <= zlen data < 2 ^ 32 -> exists c2, update_final L c buf data fu ff = Wrote INTERNAL_ERROR c2 buf 0.
Proof. intros H. unfold update_final. destruct (large_update L c data fu H) as [v ->]. eauto. Qed.
Lemma large_last L c buf inb n params f : 2 ^ 31 <= n < 2 ^ 32 ->
  exists st c2 tag, process_last L c (Some buf) inb n params f = Result st c2 buf n 0 tag /\ st <> OK.
Proof.
  assert (T : forall s c (t : input), s <> OK -> exists st c2 tag, Result s c buf n 0 t = Result st c2 buf n 0 tag /\ st <> OK) by eauto 7.
  intros H. unfold process_last. destruct (zlen buf <? _); [apply T; discriminate|].
  destruct (zlen inb <? n) eqn:E; [apply T; discriminate|]. pose proof (large_data inb n H E) as Hd.
  set (data := firstn (Z.to_nat n) inb) in *.
  assert (He : forall c, exists s c2, encrypt_last L c buf data (f_update f) (f_final f) = Wrote s c2 buf 0 /\ s <> OK).
  { intros c0. unfold encrypt_last. destruct (negb _); [do 2 eexists; split; [reflexivity|discriminate]|].
    destruct (is_block _ && _); [do 2 eexists; split; [reflexivity|discriminate]|].
    destruct (is_padded _ && _); [do 2 eexists; split; [reflexivity|discriminate]|].
    destruct (large_final L c0 buf data (f_update f) (f_final f)) as [c2 ->]; [lia|]. do 2 eexists; split; [reflexivity|discriminate]. }
  assert (Hx : forall c, exists s c2, decrypt_last L c buf data (f_update f) (f_final f) = Wrote s c2 buf 0 /\ s <> OK).
  { intros c0. unfold decrypt_last. destruct (c_encrypt c0); [do 2 eexists; split; [reflexivity|discriminate]|].
    destruct (is_block _ && _); [do 2 eexists; split; [reflexivity|discriminate]|].
    destruct (match c_alg c0 with POLY1305 => false | _ => _ end); [do 2 eexists; split; [reflexivity|discriminate]|].
    destruct (large_final L c0 buf data (f_update f) (f_final f)) as [c2 ->]; [lia|]. do 2 eexists; split; [reflexivity|discriminate]. }
  assert (R : forall s c2 t, s <> OK -> exists st c3 tag, last_result (Wrote s c2 buf 0) n t = Result st c3 buf n 0 tag /\ st <> OK).
  { intros s c2 t Hs. destruct s; try congruence; apply T; discriminate. }
  destruct (He c) as (s1 & c1 & E1 & N1), (Hx c) as (s2 & c2 & E2 & N2).
  destruct (is_padded (c_alg c)).
  { destruct (16 <? n) eqn:E16; [apply T; discriminate|]. lia. }
  destruct (is_aead (c_alg c)).
  { unfold last_aead. destruct (match c_alg c with GCM => _ | _ => _ end); [apply T; discriminate|].
    destruct (match params with Some t => t | None => Null 0 end) as [k|t]; [apply T; discriminate|].
    destruct (match c_alg c with GCM => _ | _ => _ end); [apply T; discriminate|]. destruct (c_encrypt c).
    - rewrite E1. destruct s1; try congruence; apply T; discriminate.
    - destruct (set_tag c t (f_tag f)) as [c'|]; [|apply T; discriminate].
      destruct (Hx c') as (s3 & c3 & -> & N3). now apply R. }
  destruct (is_block (c_alg c)); [apply T; discriminate|]. destruct (c_encrypt c); [rewrite E1|rewrite E2]; now apply R.
Qed.

Lemma bad_last_history L a key p1 p2 c calls c1 ins outs buf inb n params : good_clib L ->
  create a false key p1 p2 = Some c -> short_aad a p2 -> runs L c calls c1 ins outs -> Forall short calls ->
  0 <= n < 2 ^ 31 -> last_args a false n params -> last_room a n <= zlen buf -> n <= zlen inb ->
  let text := ins ++ firstn (Z.to_nat n) inb in
  let iv := vector_of a p1 p2 in
  ~ ((exists msg, decryption L a key iv text msg) /\ tag_matches L a key iv (associated_of a p2) text params) ->
  exists c2 buf2 tag2, process_last L c1 (Some buf) inb n params no_faults = Result INTERNAL_ERROR c2 buf2 n 0 tag2.
Proof.
  intros HL Hc Hs Hr Hsh Hn Ha Hroom Hin text iv Hbad.
  destruct (process_last_decrypt L a key _ _ c1 ins outs buf inb n params HL (reach_inv _ _ _ _ _ _ _ _ _ _ _ HL Hc Hs Hr Hsh) Hn Ha Hroom Hin)
    as (v & buf2 & n2 & k2 & st & E & _ & _ & H).
  destruct H as [(_ & _ & _ & Hd & Ht)|(-> & -> & -> & _)]; [elim Hbad; eauto|eauto].
Qed.

Lemma update_final_status L c buf d fu ff st c2 b n : update_final L c buf d fu ff = Wrote st c2 b n -> st <> VERIFICATION_FAILED.
Proof.
  unfold update_final. destruct (evp_update L c d fu) as [? [[? ?]|]]; [|congruence].
  destruct (put _ _); [|discriminate]. destruct (evp_final _ _ _) as [? [?|]]; [|congruence].
  destruct (put _ _); congruence.
Qed.
Lemma encrypt_last_status L c buf d fu ff st c2 b n : encrypt_last L c buf d fu ff = Wrote st c2 b n -> st <> VERIFICATION_FAILED.
Proof. unfold encrypt_last. repeat (match goal with |- context [if ?x then _ else _] => destruct x end; [congruence|]). apply update_final_status. Qed.
Lemma decrypt_last_status L c buf d fu ff st c2 b n : decrypt_last L c buf d fu ff = Wrote st c2 b n -> st <> VERIFICATION_FAILED.
Proof.
  unfold decrypt_last. destruct (c_encrypt c); [congruence|]. destruct (_ && _); [congruence|].
  destruct (match c_alg c with POLY1305 => false | _ => 16 <? zlen d end); [congruence|]. apply update_final_status.
Qed.
Lemma last_result_status w n t st c2 b n2 k2 t2 : (forall s c' b' m, w = Wrote s c' b' m -> s <> VERIFICATION_FAILED) ->
  last_result w n t = Result st c2 b n2 k2 t2 -> st <> VERIFICATION_FAILED.
Proof.
  intros Hw H. destruct w as [s c' b' m|]; [|discriminate]. specialize (Hw _ _ _ _ eq_refl). cbn in H. destruct s; congruence.
Qed.
Lemma process_last_status L c out inb n p f st c2 b n2 k2 t : process_last L c out inb n p f = Result st c2 b n2 k2 t ->
  st <> VERIFICATION_FAILED.
Proof.
  unfold process_last. intros H.
  assert (R : forall s c' b' m k t', s <> VERIFICATION_FAILED -> Result s c' b' m k t' = Result st c2 b n2 k2 t -> st <> VERIFICATION_FAILED) by congruence.
  assert (RE : forall c buf d t', last_result (encrypt_last L c buf d (f_update f) (f_final f)) n t' =
     Result st c2 b n2 k2 t -> st <> VERIFICATION_FAILED)
    by (intros c' buf d t'; apply last_result_status; intros; eapply encrypt_last_status; eassumption).
  assert (RD : forall c buf d t', last_result (decrypt_last L c buf d (f_update f) (f_final f)) n t' =
     Result st c2 b n2 k2 t -> st <> VERIFICATION_FAILED)
    by (intros c' buf d t'; apply last_result_status; intros; eapply decrypt_last_status; eassumption).
  destruct out as [buf|]; [|congruence].
  destruct (zlen buf <? _); [congruence|]. destruct (zlen inb <? n); [congruence|].
  destruct (is_padded (c_alg c)).
  { destruct (16 <? n); [congruence|]. destruct (c_encrypt c); [eauto|]. destruct (negb _); [congruence|eauto]. }
  destruct (is_aead (c_alg c)).
  - unfold last_aead in H. destruct (match c_alg c with GCM => 16 <? n | _ => false end); [congruence|].
    destruct p as [[m|tg]|]; try congruence.
    destruct (match c_alg c with GCM => 16 <? zlen tg | _ => negb (zlen tg =? 16) end); [congruence|].
    destruct (c_encrypt c).
    + destruct (encrypt_last L c buf _ _ _) as [s c' b' m|] eqn:E; [|discriminate].
      pose proof (encrypt_last_status _ _ _ _ _ _ _ _ _ _ E) as Hs.
      destruct s; cbn in H; try congruence. destruct (get_tag _ _ _); congruence.
    + destruct (set_tag _ _ _); [eauto|congruence].
  - destruct (is_block (c_alg c)); [congruence|]. destruct (c_encrypt c); eauto.
Qed.

(** A stream cipher takes a second last call, and the lengths it takes differ. *)
Lemma stream_last_twice L a key p1 p2 c calls c1 ins outs out inb n params c2 buf2 n2 k2 t2 : a = CTR \/ a = CHACHA20 ->
  good_clib L -> create a true key p1 p2 = Some c -> runs L c calls c1 ins outs -> Forall short calls -> 0 <= n < 2 ^ 31 ->
  process_last L c1 (Some out) inb n params no_faults = Result OK c2 buf2 n2 k2 t2 ->
  forall buf inb3 n3 p3, 0 <= n3 < 2 ^ 31 -> n3 <= zlen buf -> n3 <= zlen inb3 ->
  exists c4 buf4 n4 t4, process_last L c2 (Some buf) inb3 n3 p3 no_faults = Result OK c4 buf4 n4 n3 t4.
Proof.
  intros Ha HL Hc Hr Hsh Hn E buf inb3 n3 p3 Hn3 Hb Hi.
  assert (Hs : short_aad a p2) by (destruct Ha as [-> | ->]; discriminate).
  destruct (reach_inv _ _ _ _ _ _ _ _ _ _ _ HL Hc Hs Hr Hsh) as (A & B & _).
  destruct (process_last_same _ _ _ _ _ _ _ _ _ _ _ _ _ E) as [v ->].
  assert (A' : c_alg (with_evp c1 v) = a) by exact A. assert (B' : c_encrypt (with_evp c1 v) = true) by exact B.
  assert (K : is_padded a = false /\ is_block a = false /\ is_aead a = false) by (destruct Ha as [-> | ->]; auto). destruct K as (K1 & K2 & K3).
  unfold process_last. rewrite A', K1, K2, K3, B'.
  replace (zlen buf <? n3) with false by lia. replace (zlen inb3 <? n3) with false by lia.
  unfold encrypt_last, update_final. rewrite A', B', K1, K2. cbn [andb negb].
  set (d := firstn (Z.to_nat n3) inb3). assert (Hd : length d = Z.to_nat n3) by (apply zlen_firstn; lia).
  unfold evp_update, reuse. rewrite A', K2, K3. cbn [orb]. rewrite andb_false_r.
  rewrite firstn_all_int by (unfold zlen; lia). rewrite int_of_small by (unfold zlen; lia).
  replace (zlen d <? 0) with false by (unfold zlen; lia). cbn [no_faults f_update f_final].
  rewrite put_spec, stream_out. replace (length d <=? length buf)%nat with true by (symmetry; apply Nat.leb_le; unfold zlen in Hb; lia).
  unfold evp_final. cbn [with_evp c_alg] in *. rewrite A, K3, K2. cbn [negb].
  rewrite put_spec. cbn [length Nat.leb]. cbn [last_result]. eauto.
Qed.
Lemma stream_last_lengths L a encrypt key p1 p2 c calls c1 ins outs buf inb n params : a = CTR \/ a = CHACHA20 ->
  good_clib L -> create a encrypt key p1 p2 = Some c -> runs L c calls c1 ins outs -> Forall short calls ->
  16 < n < 2 ^ 31 -> n <= zlen buf -> n <= zlen inb ->
  exists st c2 buf2 n2 k2 t2, process_last L c1 (Some buf) inb n params no_faults = Result st c2 buf2 n2 k2 t2 /\
    st = (if encrypt then OK else INVALID_PARAMETER).
Proof.
  intros Ha HL Hc Hr Hsh Hn Hb Hi.
  assert (Hs : short_aad a p2) by (destruct Ha as [-> | ->]; discriminate).
  assert (K : is_padded a = false /\ is_block a = false /\ is_aead a = false) by (destruct Ha as [-> | ->]; auto). destruct K as (K1 & K2 & K3).
  destruct encrypt.
  - destruct (encrypts_history L a key p1 p2 c calls c1 ins outs buf inb n params HL Hc Hs Hr Hsh) as (c2 & buf2 & n2 & t2 & E & _); try assumption; try lia.
    { unfold last_args. destruct Ha as [-> | ->]; repeat split; discriminate. }
    { unfold last_room. now rewrite K1. }
    eauto 10.
  - destruct (reach_inv _ _ _ _ _ _ _ _ _ _ _ HL Hc Hs Hr Hsh) as (A & B & _).
    unfold process_last. rewrite A, K1, K2, K3, B. replace (zlen buf <? n) with false by lia. replace (zlen inb <? n) with false by lia.
    unfold decrypt_last. rewrite A, B, K1, K2. cbn [andb].
    replace (match a with POLY1305 => false | _ => 16 <? zlen (firstn (Z.to_nat n) inb) end) with true.
    2: { unfold zlen in *. rewrite zlen_firstn by (unfold zlen; lia). destruct Ha as [-> | ->]; lia. }
    cbn [last_result]. eauto 10.
Qed.

(** ** Instances *)
Definition toy_lib (ahead : bool) : clib := MkClib (fun _ b => rev b) (fun _ b => rev b) (fun _ _ _ i => (i * 7 + 3) mod 256)
  (fun _ _ _ aad text => firstn 16 (text ++ aad ++ repeat 1 16)) ahead
  (fun v => Some (MkEvp (v_iv v) (v_buf v) (v_held v) (v_pos v) (v_aad v) (v_text v) (v_tag v) false)).
Lemma toy_good ahead : good_clib (toy_lib ahead).
Proof.
  unfold good_clib. cbn [k_enc k_dec k_tag toy_lib]. split; [intros; now rewrite rev_length|]. split; [intros; now rewrite rev_length|].
  split; [intros k b _ H; split; [now apply Forall_rev|apply rev_involutive]|].
  intros _ _ _ d t. rewrite firstn_length, !app_length, repeat_length. lia.
Qed.
Definition toy_key : list Z := repeat 7 16.
Definition toy_ctx (a : calg) (encrypt : bool) (iv : list Z) : ctx := MkCtx a encrypt toy_key (fresh iv []).
Lemma zlen_repeat (x n : Z) : 0 <= n -> zlen (repeat x (Z.to_nat n)) = n.
Proof. intros H. unfold zlen. rewrite repeat_length. lia. Qed.
Lemma long_exists : exists L c buf inb c2 buf2, good_clib L /\
  create CTR true (repeat 7 16) (Bytes (repeat 1 16)) (Null 0) = Some c /\
  zlen inb = 2 ^ 32 + 16 /\ zlen buf = 2 ^ 32 + 16 /\
  process L c (Some buf) inb (2 ^ 32 + 16) None = Result OK c2 buf2 16 (2 ^ 32 + 16) (Null 0).
Proof.
  set (big := repeat 0 (Z.to_nat (2 ^ 32 + 16))).
  assert (Hb : zlen big = 2 ^ 32 + 16) by (apply zlen_repeat; discriminate).
  destruct (long_input (toy_lib false) (toy_ctx CTR true (repeat 1 16)) big big (or_introl eq_refl) Hb Hb) as (c2 & buf2 & E).
  exists (toy_lib false), (toy_ctx CTR true (repeat 1 16)), big, big, c2, buf2.
  split; [apply toy_good|]. split; [reflexivity|]. split; [exact Hb|]. split; [exact Hb|exact E].
Qed.
Lemma corrupts_exists : exists L c c1 ins outs buf, good_clib L /\
  create CBC7 false (repeat 7 16) (Bytes (repeat 1 16)) (Null 0) = Some c /\
  runs L c [Process (repeat 0 16) (repeat 9 16) 16] c1 ins outs /\
  fits CBC7 16 buf (repeat 9 16) /\ process L c1 (Some buf) (repeat 9 16) 16 None = Corrupts.
Proof.
  exists (toy_lib true), (toy_ctx CBC7 false (repeat 1 16)).
  do 3 eexists. exists (repeat 0 16). split; [apply toy_good|]. split; [reflexivity|].
  split; [eapply runs_ok; [vm_compute; reflexivity|apply runs_nil]|].
  split; [repeat split; vm_compute; intros; congruence|]. vm_compute. reflexivity.
Qed.
Lemma after_last_exists : exists L c c2 buf2 n2 k2 t2, good_clib L /\
  create ECB7 true (repeat 7 16) (Null 0) (Null 0) = Some c /\
  process_last L c (Some (repeat 0 16)) (repeat 9 15) 15 None no_faults = Result OK c2 buf2 n2 k2 t2 /\
  last_args ECB7 true 1 None /\ last_room ECB7 1 = 16 /\
  process_last L c2 (Some (repeat 0 16)) [5] 1 None no_faults = Corrupts.
Proof.
  exists (toy_lib true), (toy_ctx ECB7 true []). do 5 eexists. split; [apply toy_good|]. split; [reflexivity|].
  split; [vm_compute; reflexivity|]. split; [unfold last_args; cbn; repeat split; (discriminate || lia || auto)|].
  split; [reflexivity|]. vm_compute. reflexivity.
Qed.
Lemma bad_tag_exists : exists L c buf, good_clib L /\
  create GCM false (repeat 7 16) (Bytes (repeat 1 12)) (Null 0) = Some c /\
  last_args GCM false 0 (Some (Bytes (repeat 0 16))) /\
  ~ tag_matches L GCM (repeat 7 16) (repeat 1 12) [] [] (Some (Bytes (repeat 0 16))) /\
  exists c2 buf2 n2 k2 t2, process_last L c (Some buf) [] 0 (Some (Bytes (repeat 0 16))) no_faults = Result INTERNAL_ERROR c2 buf2 n2 k2 t2.
Proof.
  exists (toy_lib false), (toy_ctx GCM false (repeat 1 12)), [].
  split; [apply toy_good|]. split; [reflexivity|]. split.
  { unfold last_args. repeat split; try discriminate; intros _.
    exists (repeat 0 16). split; [reflexivity|]. split; [cbn; lia|discriminate]. }
  split. { intros H. destruct (H eq_refl) as (t & [= <-] & Ht). discriminate. }
  do 5 eexists. vm_compute. reflexivity.
Qed.
Lemma second_last_exists : exists L c c2 buf2 n2 k2 t2 c3 buf3 n3 k3 t3, good_clib L /\
  create CTR true (repeat 7 16) (Bytes (repeat 1 16)) (Null 0) = Some c /\
  process_last L c (Some (repeat 0 16)) (repeat 9 16) 16 None no_faults = Result OK c2 buf2 n2 k2 t2 /\
  process_last L c2 (Some (repeat 0 16)) (repeat 9 16) 16 None no_faults = Result OK c3 buf3 n3 k3 t3.
Proof.
  exists (toy_lib false), (toy_ctx CTR true (repeat 1 16)). do 10 eexists. split; [apply toy_good|]. split; [reflexivity|].
  split; vm_compute; reflexivity.
Qed.
Lemma ctr_last_exists : exists L ce cd, good_clib L /\
  create CTR true (repeat 7 16) (Bytes (repeat 1 16)) (Null 0) = Some ce /\
  create CTR false (repeat 7 16) (Bytes (repeat 1 16)) (Null 0) = Some cd /\
  forall msg, zlen msg = 17 ->
  (exists c2 buf2 n2 k2 t2, process_last L ce (Some (repeat 0 17)) msg 17 None no_faults = Result OK c2 buf2 n2 k2 t2) /\
  (exists c2 buf2 n2 k2 t2, process_last L cd (Some (repeat 0 17)) msg 17 None no_faults = Result INVALID_PARAMETER c2 buf2 n2 k2 t2).
Proof.
  exists (toy_lib false), (toy_ctx CTR true (repeat 1 16)), (toy_ctx CTR false (repeat 1 16)). split; [apply toy_good|].
  split; [reflexivity|]. split; [reflexivity|]. intros msg Hm.
  assert (H : forall encrypt, exists st c2 buf2 n2 k2 t2,
    process_last (toy_lib false) (toy_ctx CTR encrypt (repeat 1 16)) (Some (repeat 0 17)) msg 17 None no_faults = Result st c2 buf2 n2 k2 t2 /\
    st = (if encrypt then OK else INVALID_PARAMETER)).
  { intros encrypt. apply (stream_last_lengths (toy_lib false) CTR encrypt (repeat 7 16) (Bytes (repeat 1 16)) (Null 0)
      (toy_ctx CTR encrypt (repeat 1 16)) [] _ [] []); auto; try apply toy_good; try apply runs_nil; try lia. reflexivity. }
  split; [destruct (H true) as (st & c2 & b2 & n2 & k2 & t2 & E & ->)|destruct (H false) as (st & c2 & b2 & n2 & k2 & t2 & E & ->)]; eauto 10.
Qed.

(** A message in pieces: CBC with padding, 16 bytes, a refused piece, a question, 5 bytes. *)
Definition toy_pieces : list call := [Process (repeat 0 16) (repeat 9 20) 16; Process (repeat 0 2) (repeat 9 16) 16; AskLast 5].
Lemma toy_runs : exists c1 ins outs, runs (toy_lib true) (toy_ctx CBC7 true (repeat 1 16)) toy_pieces c1 ins outs /\
  ins = repeat 9 16 /\ length outs = 16%nat.
Proof.
  do 3 eexists. split.
  - unfold toy_pieces. eapply runs_ok; [vm_compute; reflexivity|]. eapply runs_refused; [vm_compute; reflexivity|discriminate|].
    eapply (runs_asklast _ _ [] _ None); [vm_compute; reflexivity|]. apply runs_nil.
  - vm_compute. auto.
Qed.

(** ** Failures of OpenSSL *)
Lemma process_fault L c buf inb n v : exists st c2 n2, process L c (Some buf) inb n (Some v) = Result st c2 buf n2 0 (Null 0) /\ st <> OK.
Proof.
  unfold process. destruct (zlen buf <? _); [do 3 eexists; split; [reflexivity|discriminate]|].
  destruct (zlen inb <? n); [do 3 eexists; split; [reflexivity|discriminate]|].
  destruct (_ && _); [do 3 eexists; split; [reflexivity|discriminate]|].
  unfold context_update. destruct (negb _); [do 3 eexists; split; [reflexivity|discriminate]|].
  destruct (_ && _); [do 3 eexists; split; [reflexivity|discriminate]|].
  unfold evp_update. do 3 eexists; split; [reflexivity|discriminate].
Qed.
Lemma update_final_fault L c buf d fu ff st c2 b n : fu <> None \/ ff <> None -> update_final L c buf d fu ff = Wrote st c2 b n -> st <> OK.
Proof.
  intros Hf. unfold update_final. destruct (evp_update L c d fu) as [v [[w k]|]] eqn:E; [|congruence].
  destruct (put buf w); [|discriminate].
  assert (ff <> None) as Hff. { destruct Hf as [Hf|Hf]; [|exact Hf]. destruct fu; [|contradiction]. unfold evp_update in E. discriminate. }
  destruct ff; [|contradiction]. cbn [evp_final]. congruence.
Qed.
Lemma encrypt_last_fault L c buf d fu ff st c2 b n : fu <> None \/ ff <> None -> encrypt_last L c buf d fu ff = Wrote st c2 b n -> st <> OK.
Proof. intros Hf. unfold encrypt_last. repeat (match goal with |- context [if ?x then _ else _] => destruct x end; [congruence|]). now apply update_final_fault. Qed.
Lemma decrypt_last_fault L c buf d fu ff st c2 b n : fu <> None \/ ff <> None -> decrypt_last L c buf d fu ff = Wrote st c2 b n -> st <> OK.
Proof.
  intros Hf. unfold decrypt_last. destruct (c_encrypt c); [congruence|]. destruct (_ && _); [congruence|].
  destruct (match c_alg c with POLY1305 => false | _ => 16 <? zlen d end); [congruence|]. now apply update_final_fault.
Qed.
Lemma last_result_fault w n t st c2 b n2 k2 t2 : (forall s c' b' m, w = Wrote s c' b' m -> s <> OK) ->
  last_result w n t = Result st c2 b n2 k2 t2 -> st <> OK.
Proof.
  intros Hw H. destruct w as [s c' b' m|]; [|discriminate]. specialize (Hw _ _ _ _ eq_refl). cbn in H. destruct s; congruence.
Qed.
Lemma process_last_fault L c buf inb n p f st c2 b n2 k2 t :
  f_update f <> None \/ f_final f <> None \/ f_tag f = true /\ is_aead (c_alg c) = true ->
  process_last L c (Some buf) inb n p f = Result st c2 b n2 k2 t -> st <> OK.
Proof.
  intros Hf H. unfold process_last in H.
  assert (RE : forall c' buf d t', is_aead (c_alg c) = false -> last_result (encrypt_last L c' buf d (f_update f) (f_final f)) n t' =
     Result st c2 b n2 k2 t -> st <> OK).
  { intros c' b' d t' Ha. apply last_result_fault. intros s x y m. apply encrypt_last_fault. destruct Hf as [?|[?|[_ ?]]]; auto. congruence. }
  assert (RD : forall c' buf d t', is_aead (c_alg c) = false -> last_result (decrypt_last L c' buf d (f_update f) (f_final f)) n t' =
     Result st c2 b n2 k2 t -> st <> OK).
  { intros c' b' d t' Ha. apply last_result_fault. intros s x y m. apply decrypt_last_fault. destruct Hf as [?|[?|[_ ?]]]; auto. congruence. }
  destruct (zlen buf <? _); [congruence|]. destruct (zlen inb <? n); [congruence|].
  destruct (is_padded (c_alg c)) eqn:Ep.
  { assert (is_aead (c_alg c) = false) by (destruct (c_alg c); discriminate || reflexivity).
    destruct (16 <? n); [congruence|]. destruct (c_encrypt c); [eauto|]. destruct (negb _); [congruence|eauto]. }
  destruct (is_aead (c_alg c)) eqn:Ea.
  - unfold last_aead in H. destruct (match c_alg c with GCM => 16 <? n | _ => false end); [congruence|].
    destruct p as [[m|tg]|]; try congruence.
    destruct (match c_alg c with GCM => 16 <? zlen tg | _ => negb (zlen tg =? 16) end); [congruence|].
    destruct (c_encrypt c).
    + destruct (encrypt_last L c buf _ _ _) as [s c' b' m|] eqn:E; [|discriminate].
      destruct s; cbn in H; try congruence. unfold get_tag in H.
      destruct (f_tag f) eqn:Et; [congruence|]. assert (Hf2 : f_update f <> None \/ f_final f <> None) by (destruct Hf as [?|[?|[? _]]]; [left|right|]; (assumption || discriminate)).
      elim (encrypt_last_fault _ _ _ _ _ _ _ _ _ _ Hf2 E eq_refl).
    + unfold set_tag in H. destruct (f_tag f) eqn:Et; [cbn in H; congruence|]. cbn [orb] in H.
      destruct (length tg =? 0)%nat; [congruence|].
      revert H. apply last_result_fault. intros s x y m. apply decrypt_last_fault. destruct Hf as [?|[?|[? _]]]; [left|right|]; (assumption || discriminate).
  - destruct (is_block (c_alg c)); [congruence|]. destruct (c_encrypt c); eauto.
Qed.
