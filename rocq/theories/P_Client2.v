(** Proofs for S_Client: structures, and the steps of a call. *)
From Verif Require Import Base M_KeyStore P_KeyStore M_Marshal S_Marshal P_Marshal M_Client S_Client P_Client.

(** Layouts: offsets and lengths of the fields that are assigned. *)
Fixpoint layout (N : nat) (l : list (nat * nat)) : bool :=
  match l with
  | [] => true
  | (o, n) :: t => (o + n <=? N)%nat && forallb (fun f => (o + n <=? fst f)%nat || (fst f + snd f <=? o)%nat) t && layout N t
  end.
Definition shape (f : nat * bytes) : nat * nat := (fst f, length (snd f)).

Lemma layout_inside N l : forall fs, map shape fs = l -> layout N l = true -> Forall (inside N) fs.
Proof.
  induction l as [|[o n] l IH]; intros [|f fs] E H; try discriminate; constructor; cbn in E, H; injection E as E1 E2 E3;
    apply andb_prop in H; destruct H as [H H2]; apply andb_prop in H; destruct H as [H H1].
  - unfold inside. lia.
  - apply IH; auto.
Qed.
Lemma layout_away o n l : forall fs, map shape fs = l ->
  forallb (fun f => (o + n <=? fst f)%nat || (fst f + snd f <=? o)%nat) l = true -> Forall (away o n) fs.
Proof.
  induction l as [|[o' n'] l IH]; intros [|f fs] E H; try discriminate; constructor; cbn in E, H; injection E as E1 E2 E3;
    apply andb_prop in H; destruct H as [H H1].
  - unfold away. lia.
  - apply IH; auto.
Qed.
Definition holds (c : bytes) (l : nat * nat) (f : nat * bytes) : Prop := field c (fst f) (snd l) = snd f.
Lemma layout_fields N l : forall fs c, map shape fs = l -> layout N l = true -> length c = N ->
  length (assign c fs) = N /\ Forall2 (holds (assign c fs)) l fs.
Proof.
  intros fs c E H Hc. pose proof (layout_inside N l fs E H) as Hin.
  split; [rewrite length_assign; subst; auto|].
  revert fs c E H Hc Hin. induction l as [|[o n] l IH]; intros [|[o' b] fs] c E H Hc Hin; try discriminate; constructor;
    cbn in E, H; injection E as E1 E2 E3; inversion Hin as [|x y Hi Hj]; subst;
    apply andb_prop in H; destruct H as [H H5]; apply andb_prop in H; destruct H as [H H6].
  - unfold holds. cbn [fst snd]. eapply field_here; eauto. eapply layout_away; eauto.
  - cbn [fst snd] in *. unfold assign. cbn [fold_left fst snd]. fold (assign (set c o b) fs). unfold inside in Hi; cbn in Hi.
    apply IH; auto; rewrite ?length_set; auto.
Qed.

Lemma w8_set8 c o x : (o + 8 <= length c)%nat -> is_u64 x -> w8 (set8 c o x) o = x.
Proof. intros H Hx. unfold w8, set8. rewrite field_set_same by (rewrite ?le_bytes_length; lia). now apply num_w8. Qed.
Lemma w8_set8' c o x o' : (o + 8 <= length c)%nat -> (o' + 8 <= o \/ o + 8 <= o')%nat -> w8 (set8 c o x) o' = w8 c o'.
Proof. intros H Ho. unfold w8, set8. rewrite field_set_other; rewrite ?le_bytes_length; lia || auto. Qed.
Lemma length_set8 c o x : (o + 8 <= length c)%nat -> length (set8 c o x) = length c.
Proof. intros H. apply length_set. rewrite le_bytes_length. lia. Qed.
Lemma firstn_zlen b : firstn (Z.to_nat (zlen b)) b = b.
Proof. unfold zlen. rewrite Nat2Z.id. apply firstn_all. Qed.
Lemma zlen_nat b n : zlen b = n -> length b = Z.to_nat n.
Proof. unfold zlen. lia. Qed.
Lemma nat_zlen (b : bytes) n : length b = n -> zlen b = Z.of_nat n.
Proof. unfold zlen. lia. Qed.

Lemma answers_result a r c p1 p2 :
  r_words (copy_back a OK c p1 p2) = results a r ->
  match a with
  | GetVersion => r_bytes (copy_back a OK c p1 p2) = fixed 32 (r_bytes r)
  | GetTaUuid => r_bytes (copy_back a OK c p1 p2) = fixed 16 (r_bytes r)
  | KeyHeader _ => let h := fixed HEADER_SIZE (r_bytes r) in same_fields (header_fields (w4 h 616)) (r_bytes (copy_back a OK c p1 p2)) h
  | _ => True
  end -> answers a r (result a (r_status r) c p1 p2).
Proof.
  intros Hw Hb. unfold answers, result. destruct (status_eqb (r_status r) OK) eqn:E.
  - assert (r_status r = OK) as -> by (destruct (r_status r); cbn in E; congruence).
    split; [reflexivity|]. intros _. split; [exact Hw|]. destruct a; auto.
  - split; [reflexivity|]. intros F. rewrite F in E. discriminate.
Qed.

Lemma field_app_first a b n : length a = n -> field (a ++ b) 0 n = a.
Proof. intros <-. unfold field. cbn [skipn]. rewrite firstn_app, Nat.sub_diag, firstn_all. cbn. apply app_nil_r. Qed.
Lemma field_app_next a b o n : length a = o -> field (a ++ b) o n = firstn n b.
Proof. intros <-. unfold field. rewrite skipn_app, skipn_all, Nat.sub_diag. reflexivity. Qed.
Lemma w8_first x b : is_u64 x -> w8 (w 8 x ++ b) 0 = x.
Proof. intros H. apply w8_is; [|exact H]. apply field_app_first, length_w. Qed.
Lemma w8_next x y : is_u64 y -> w8 (w 8 x ++ w 8 y) 8 = y.
Proof. intros H. apply w8_is; [|exact H]. rewrite field_app_next by apply length_w. apply firstn_all2. rewrite length_w. lia. Qed.
Lemma w8_w x : is_u64 x -> w8 (w 8 x) 0 = x.
Proof. intros H. apply w8_is; [|exact H]. apply field_all. rewrite length_w. reflexivity. Qed.
Lemma firstn_exact b n : zlen b = n -> firstn (Z.to_nat n) b = b.
Proof. intros <-. apply firstn_zlen. Qed.
Lemma firstn_field b o n k : (n <= k)%nat -> firstn n (field b o k) = field b o n.
Proof. intros H. unfold field. rewrite firstn_firstn. f_equal. lia. Qed.
Lemma split_16 (a b : bytes) : length a = 16%nat -> length b = 16%nat -> field a 0 8 = field b 0 8 -> field a 8 8 = field b 8 8 -> a = b.
Proof.
  unfold field. cbn [skipn]. intros Ha Hb H1 H2.
  rewrite <- (firstn_skipn 8 a), <- (firstn_skipn 8 b). f_equal; [exact H1|].
  rewrite <- (firstn_all2 (n := 8) (skipn 8 a)), <- (firstn_all2 (n := 8) (skipn 8 b)); auto; rewrite skipn_length; lia.
Qed.
Lemma holds_cons c x l y m : Forall2 (holds c) (x :: l) (y :: m) -> holds c x y /\ Forall2 (holds c) l m.
Proof. intros H. inversion H; auto. Qed.

Section All.
Variable imp : app -> reply.
Variable junk : nat -> nat -> bytes.
Variable initial : Z.
Hypothesis Himp : word_sized imp.
Hypothesis Hjunk : allocator junk.
Hypothesis Hinit : is_u64 initial.

Lemma word_u64 a n : is_u64 (word (imp a) n).
Proof.
  unfold word. pose proof (Himp a) as H. generalize dependent n. induction H; intros [|n]; cbn; auto; split; reflexivity || discriminate.
Qed.

Lemma cmd_facts n l fs : map shape ((0%nat, [1]) :: fs) = l -> layout n l = true ->
  length (cmd_s junk n fs) = n /\ Forall2 (holds (cmd_s junk n fs)) l ((0%nat, [1]) :: fs).
Proof. intros H H2. apply layout_fields; auto. Qed.
Lemma par_facts n l fs : map shape fs = l -> layout n l = true ->
  length (par_s junk n fs) = n /\ Forall2 (holds (par_s junk n fs)) l fs.
Proof. intros H H2. apply layout_fields; auto. Qed.

Definition finishes (a : app) (t cmd : Z) (c : bytes) (p1 p2 p3 : param * mem) : Prop :=
  let r := imp (meaning a) in
  zlen c <> 0 /\ exists c' m', exec imp (mems c p1 p2 p3) (dispatch (pars t c p1 p2 p3) cmd c) = Some ((r_status r, c'), [meaning a], m') /\
    m' 0%nat = MBytes c /\ length c' = length c /\
    answers a r (result a (r_status r) (if t =? 7 then c' else c) (bytes_of (m' 1%nat)) (bytes_of (m' 2%nat))).
Lemma reach_inout a cmd c p1 p2 p3 : client junk initial a = to_ta cmd (pinout c) p1 p2 p3 -> finishes a 7 cmd c p1 p2 p3 ->
  reaches imp junk initial a.
Proof. intros E (Hz & c' & m' & H1 & H2 & H3 & H4). eexists. split; [eapply lib_inout; eauto|exact H4]. Qed.
Lemma reach_in a cmd c p1 p2 p3 : client junk initial a = to_ta cmd (pin c) p1 p2 p3 -> finishes a 5 cmd c p1 p2 p3 ->
  reaches imp junk initial a.
Proof. intros E (Hz & c' & m' & H1 & H2 & H3 & H4). eexists. split; [eapply lib_in; eauto|exact H4]. Qed.
Definition rejects (t cmd : Z) (c : bytes) (p1 p2 p3 : param * mem) : Prop :=
  zlen c <> 0 /\ exists st, exec imp (mems c p1 p2 p3) (dispatch (pars t c p1 p2 p3) cmd c) = Some ((st, c), [], mems c p1 p2 p3) /\
    (st = NULL_PARAMETER \/ st = INVALID_PARAMETER).
Lemma refuse_inout a cmd c p1 p2 p3 : client junk initial a = to_ta cmd (pinout c) p1 p2 p3 -> rejects 7 cmd c p1 p2 p3 ->
  refused imp junk initial a.
Proof. intros E (Hz & st & H1 & [-> | ->]); eexists; (split; [erewrite lib_inout; eauto; reflexivity|auto]). Qed.
Lemma refuse_in a cmd c p1 p2 p3 : client junk initial a = to_ta cmd (pin c) p1 p2 p3 -> rejects 5 cmd c p1 p2 p3 ->
  refused imp junk initial a.
Proof. intros E (Hz & st & H1 & [-> | ->]); eexists; (split; [erewrite lib_in; eauto; reflexivity|auto]). Qed.
Lemma refuse_client a st : client junk initial a = Refuse st -> (st = NULL_PARAMETER \/ st = INVALID_PARAMETER) ->
  refused imp junk initial a.
Proof. intros E H. exists st. unfold lib_call. rewrite E. auto. Qed.

Lemma exec_cast {A} m x y (k : prog A) : exec imp m (Cast x y k) = exec imp m k.
Proof. reflexivity. Qed.

Lemma exec_alloc {A} m n (k : bool -> prog A) : exec imp m (Alloc n k) = exec imp m (k true).
Proof. reflexivity. Qed.
Lemma exec_fill {A} m x y (k : prog A) : exec imp m (Fill x y k) = exec imp m k.
Proof. reflexivity. Qed.

End All.

Ltac bound := first [assumption | split; reflexivity | split; discriminate | unfold is_u64, u32, W64 in *; lia].
Ltac known :=
  repeat match goal with
  | H : Forall2 (holds _) (_ :: _) _ |- _ => apply holds_cons in H; destruct H
  | H : Forall2 (holds _) [] _ |- _ => clear H
  | H : holds ?c _ _ |- _ => unfold holds in H; cbn [fst snd] in H
  end;
  repeat match goal with
  | H : field ?c ?o 8 = w 8 ?x |- _ =>
      lazymatch goal with K : w8 c o = x |- _ => fail | _ => assert (w8 c o = x) by (apply w8_is; [exact H|bound]) end
  | H : field ?c ?o 4 = w 4 ?x |- _ =>
      lazymatch goal with K : w4 c o = x |- _ => fail | _ => assert (w4 c o = x) by (apply w4_is; [exact H|bound]) end
  | H : field ?c ?o 1 = w 1 ?x |- _ =>
      lazymatch goal with K : w1 c o = x |- _ => fail | _ => assert (w1 c o = x) by (apply w1_is; [exact H|bound]) end
  | H : field ?c 0 1 = [1] |- _ =>
      lazymatch goal with K : bad_version c = false |- _ => fail | _ => assert (bad_version c = false) by (unfold bad_version, w1; rewrite H; reflexivity) end
  end.
(** Facts about the structure [cmd_s junk n fs] in the goal, which becomes opaque. *)
Ltac shapes := cbn [map shape fst snd Datatypes.app]; unfold shape; cbn [fst snd]; rewrite ?length_w; 
  repeat match goal with H : zlen ?b = _ |- context [length ?b] => rewrite (zlen_nat b _ H) end; cbv; reflexivity.
Ltac opaque :=
  repeat match goal with |- context [par_s ?junk ?n ?fs] =>
    let H := fresh "Hlen" in let K := fresh "K" in
    destruct (par_facts junk ltac:(assumption) n _ fs ltac:(shapes) eq_refl) as [H K];
    let c := fresh "p" in set (c := par_s junk n fs) in *; clearbody c; known
  end;
  match goal with |- context [cmd_s ?junk ?n ?fs] =>
    let H := fresh "Hlen" in let K := fresh "K" in
    destruct (cmd_facts junk ltac:(assumption) n _ fs ltac:(shapes) eq_refl) as [H K];
    let c := fresh "c" in set (c := cmd_s junk n fs) in *; clearbody c; known
  end.


Ltac flat := cbv beta iota zeta delta [
  get_version get_name get_device_id get_ta_uuid key_generate key_export key_import key_unwrap key_get_public key_derive key_exchange
  key_release key_header key_digest crypto_random cipher_init cipher_update_iv cipher_process cipher_release mac_init mac_process
  mac_process_key mac_compute mac_release crypto_sign svp_supported svp_create svp_release svp_write svp_copy svp_key_check
  svp_buffer_check common_encryption rights_in buffer kdf_of kdf_size
  guard only_struct with_out run_out run_key T null size not_null is_null bad_opt_in exact_in is_in is_out is_inout
  pars params_of nth p_type p_null p_size at_ at_len fst snd pin popt pout pnull pinout TA_PARAM_NULL TA_PARAM_IN TA_PARAM_OUT
  TA_PARAM_INOUT negb orb andb dispatch SYMMETRIC EC RSA DH FORMAT_SYMMETRIC FORMAT_EC FORMAT_RSA FORMAT_EXPORTED FORMAT_SOC
  FORMAT_TYPEJ SOC_SIZE AES_CBC AES_CBC_PKCS7 AES_CTR AES_GCM RSA_OAEP EC_ELGAMAL CHACHA20 CHACHA20_POLY1305 ROOT_LADDER HKDF
  CONCAT X963 KDF_CMAC KDF_NETFLIX COMMON_ROOT_LADDER EXCHANGE_NETFLIX CLEAR HMAC RSA_PSS RSA_PKCS1V15 ECDSA].
Ltac tests :=
  repeat match goal with
  | |- context [?a =? ?b] =>
      first [ match goal with H : (a =? b) = _ |- _ => rewrite H end
            | constr_eq a b; rewrite (Z.eqb_refl a)
            | let v := eval cbv in (a =? b) in match v with true => idtac | false => idtac end; change (a =? b) with v ]
  | |- context [?a <=? ?b] =>
      let v := eval cbv in (a <=? b) in match v with true => idtac | false => idtac end; change (a <=? b) with v
  end.
Ltac learn :=
  repeat match goal with
  | H : w8 ?c ?o = _ |- context [w8 ?c ?o] => rewrite H
  | H : w4 ?c ?o = _ |- context [w4 ?c ?o] => rewrite H
  | H : w1 ?c ?o = _ |- context [w1 ?c ?o] => rewrite H
  | H : field ?c ?o ?n = _ |- context [field ?c ?o ?n] => rewrite H
  | H : bad_version ?c = false |- context [bad_version ?c] => rewrite H
  | H : zlen ?c = _ |- context [zlen ?c] => rewrite H
  | H : wrap64 ?x = _ |- context [wrap64 ?x] => rewrite H
  end.
Ltac walk0 := flat; learn; tests; flat; rewrite ?exec_cast; learn; tests; flat; rewrite ?exec_cast.
Ltac side := first [reflexivity | assumption | symmetry; assumption | symmetry; apply (zlen_le_bytes 8) | apply (zlen_le_bytes 8) | learn; reflexivity].
Ltac walk := walk0;
  repeat first [ erewrite exec_copy_in; [|reflexivity|side|side] | erewrite exec_fetch; [|reflexivity|side] ]; walk0.
Ltac resolve :=
  cbv beta iota zeta delta [map_api map_abuf option_map own resolve_in resolve_out r_base r_len mems memory_of nth fst snd pin popt pout pnull pinout meaning out_len sm_iv sm_crypt sm_skip sm_lengths sm_context sm_out sm_in from_in from_out];
  learn; rewrite ?firstn_zlen;
  repeat match goal with H : zlen ?b = ?n |- context [firstn (Z.to_nat ?n) ?b] => rewrite (firstn_exact b n H) end;
  repeat match goal with H : is_u64 ?h |- context [w8 (w 8 ?h) 0] => rewrite (w8_w h H) end;
  repeat match goal with H : firstn ?n ?x = _ |- context [firstn ?n ?x] => rewrite H end;
  try reflexivity.
Ltac begin := match goal with |- finishes _ _ _ _ _ _ _ _ => idtac | |- rejects _ _ _ _ _ _ _ => idtac end; cbv beta zeta;
  opaque;
  repeat match goal with H : length ?c = ?n |- _ =>
    lazymatch goal with K : zlen c = _ |- _ => fail | _ => let v := eval cbv in (Z.of_nat n) in assert (zlen c = v) by (apply (nat_zlen c n H)) end end.
Ltac invoke := eapply exec_invoke; [resolve|reflexivity].
Ltac len8 := lazymatch goal with
  | |- context [length (set8 ?c ?o ?x)] => rewrite (length_set8 c o x); [len8|len8]
  | _ => reflexivity || lia end.
Ltac room := first [apply word_u64; assumption | len8 | lia].
Ltac answer := change (7 =? 7) with true; change (5 =? 7) with false; cbv iota; apply answers_result;
  [cbn [copy_back r_words results];
   repeat first [rewrite w8_set8 by room | rewrite w8_set8' by room]; learn; reflexivity | exact I].
Ltac finish0 := begin; split; [lia|]; eexists; eexists; split.
Ltac finish := finish0; [walk; try invoke | split; [reflexivity | split; [try solve [len8] | try answer]]].


Ltac start := cbn [proper complete]; unfold rights_ok; intros.
Ltac split_all := repeat match goal with
  | H : _ /\ _ |- _ => destruct H
  | H : (_ && _) = true |- _ => apply andb_prop in H; destruct H
  end.
Ltac inout := eapply reach_inout; [reflexivity|].
Ltac input := eapply reach_in; [reflexivity|].

Ltac sent2 := cbn [client in_buf out_buf]; unfold refuse_if;
  repeat match goal with H : (?a <? ?b) = false |- context [?a <? ?b] => rewrite H end; reflexivity.
Ltac unplace :=
  repeat match goal with
  | H : wf_buf _ (Clear _ _) |- _ => cbn [wf_buf wf_in wf_out] in H; destruct H
  | H : wf_buf _ (Svp ?ty _ _) |- _ => cbn [wf_buf] in H; destruct H as (? & ? & ? & ?);
      assert ((ty =? 0) = false) by (apply Z.eqb_neq; assumption)
  | H : opt _ (Some _) |- _ => cbn [opt] in H
  | H : in_place (Clear ?x ?off) = true |- _ => destruct x as [|?b]; [discriminate H|]; cbn [in_place] in H;
      match type of H with (_ <=? ?n) = true => assert ((n <? off) = false) by (apply Z.ltb_ge; lia); clear H end
  | H : out_place (Clear ?x ?off) = true |- _ => destruct x as [|?id ?o ?n]; [discriminate H|]; cbn [out_place] in H;
      match type of H with (_ <=? ?n) = true => assert ((n <? off) = false) by (apply Z.ltb_ge; lia); clear H end
  end.

Ltac sent := cbn [client refuse_if in_bad unwrap_params]; unfold EC;
  repeat match goal with
  | H : (?t =? 1) = false |- context [?t =? 1] => rewrite H
  | H : zlen ?b = _ |- context [zlen ?b =? _] => rewrite H
  | H : (zlen ?b <=? 16) = true |- context [16 <? zlen ?b] => replace (16 <? zlen b) with false by lia
  end; reflexivity.


Section All.
Variable imp : app -> reply.
Variable junk : nat -> nat -> bytes.
Variable initial : Z.
Hypothesis Himp : word_sized imp.
Hypothesis Hjunk : allocator junk.
Hypothesis Hinit : is_u64 initial.

Lemma optional_null x : optional x = true -> x = InNull 0 \/ exists b, x = In b.
Proof. destruct x; cbn; intros; [left; f_equal; lia|eauto]. Qed.

Lemma fixed_length n b : length (fixed n b) = n.
Proof. unfold fixed. rewrite firstn_length, app_length, repeat_length. lia. Qed.

Lemma w4_616 h : length h = HEADER_SIZE -> same_fields (header_fields (w4 h 616)) (app_header h) h.
Proof.
  intros Hh.
  assert (F : forall o n, (o + n <= 1672)%nat -> length (field h o n) = n).
  { intros o n H. unfold field. rewrite firstn_length, skipn_length, Hh. unfold HEADER_SIZE. lia. }
  pose (base := [(0, field h 0 4); (8, field h 8 608); (616, field h 616 4); (1664, field h 1664 2)]%nat).
  pose (dh := [(624, field h 624 512); (1136, field h 1136 8); (1144, field h 1144 512); (1656, field h 1656 8)]%nat).
  assert (G : forall fs l, map shape fs = l -> layout 1672 l = true ->
            (forall f, List.In f fs -> snd f = field h (fst f) (length (snd f))) ->
            same_fields l (assign (repeat 0 HEADER_SIZE) fs) h).
  { intros fs l E L K. destruct (layout_fields 1672 l fs (repeat 0 HEADER_SIZE) E L (repeat_length _ _)) as [_ H].
    unfold same_fields. clear L. revert H. generalize (assign (repeat 0 HEADER_SIZE) fs). intros c. revert fs E K.
    induction l as [|x l IH]; intros [|f fs] E K H; try discriminate; constructor.
    - injection E as E1 E2. inversion H; subst. unfold holds in *. cbn [shape fst snd] in *. rewrite H3. apply K. now left.
    - injection E as E1 E2. inversion H; subst. apply (IH fs); auto. intros g Hg. apply K. now right. }
  unfold header_fields, app_header. destruct (w4 h 616 =? EC).
  - refine (G (base ++ [(624%nat, field h 624 4)]) _ _ _ _).
    + unfold base, dh. cbn [Datatypes.app map]. unfold shape. cbn [fst snd]. rewrite !F by lia. reflexivity.
    + reflexivity.
    + intros f Hf. unfold base, dh in Hf. cbn [Datatypes.app List.In] in Hf.
      repeat (destruct Hf as [<- | Hf]; [cbn [fst snd]; rewrite F by lia; reflexivity|]). contradiction.
  - destruct (w4 h 616 =? DH).
    + refine (G (base ++ dh) _ _ _ _).
      * unfold base, dh. cbn [Datatypes.app map]. unfold shape. cbn [fst snd]. rewrite !F by lia. reflexivity.
      * reflexivity.
      * intros f Hf. unfold base, dh in Hf. cbn [Datatypes.app List.In] in Hf.
      repeat (destruct Hf as [<- | Hf]; [cbn [fst snd]; rewrite F by lia; reflexivity|]). contradiction.
    + refine (G base _ _ _ _).
      * unfold base, dh. cbn [Datatypes.app map]. unfold shape. cbn [fst snd]. rewrite !F by lia. reflexivity.
      * reflexivity.
      * intros f Hf. unfold base, dh in Hf. cbn [Datatypes.app List.In] in Hf.
      repeat (destruct Hf as [<- | Hf]; [cbn [fst snd]; rewrite F by lia; reflexivity|]). contradiction.
Qed.

Lemma tagged_facts iv tag n : zlen iv = 12 -> zlen tag = n -> n <= 16 ->
  let p := par_s junk 48 [(0%nat, iv); (16%nat, w 8 12); (24%nat, tag); (40%nat, w 8 n)] in
  zlen p = 48 /\ field p 0 12 = iv /\ w8 p 16 = 12 /\ firstn (Z.to_nat n) (field p 24 16) = tag /\ w8 p 40 = n.
Proof.
  intros Hi Hn Ht p.
  destruct (par_facts junk Hjunk 48 [(0, 12); (16, 8); (24, length tag); (40, 8)]%nat
    [(0%nat, iv); (16%nat, w 8 12); (24%nat, tag); (40%nat, w 8 n)]) as [Hl Hf].
  - cbn [map shape fst snd]. unfold shape. cbn [fst snd]. rewrite !length_w. unfold zlen in Hi. replace (length iv) with 12%nat by lia. reflexivity.
  - unfold zlen in Hn. cbn [layout forallb fst snd]. repeat (apply andb_true_intro; split); try reflexivity; try lia.
  - fold p in Hl, Hf. clearbody p. assert (is_u64 n) by (unfold is_u64, W64; pose proof (zlen_nonneg tag); lia).
    known. repeat split; auto.
    + rewrite (nat_zlen p _ Hl). reflexivity.
    + subst n. unfold zlen. rewrite Nat2Z.id, firstn_field by (unfold zlen in Ht; lia). assumption.
Qed.

Lemma elgamal_struct s : zlen s = 16 -> par_s junk 16 [(8%nat, field s 8 8); (0%nat, field s 0 8)] = s.
Proof.
  intros Hs. apply zlen_nat in Hs. change (Z.to_nat 16) with 16%nat in Hs.
  destruct (par_facts junk Hjunk 16 [(8, 8); (0, 8)]%nat [(8%nat, field s 8 8); (0%nat, field s 0 8)]) as [Hl Hf].
  - cbn [map shape fst snd]. unfold shape, field. cbn [fst snd]. rewrite !firstn_length, !skipn_length, Hs. reflexivity.
  - reflexivity.
  - known. apply split_16; auto.
Qed.

Lemma length_spans l : length (concat (map span_bytes l)) = (24 * length l)%nat.
Proof. induction l; cbn [map concat length]; [reflexivity|]. rewrite app_length, IHl. unfold span_bytes. rewrite !app_length, !length_w. lia. Qed.
Lemma zlen_spans l : zlen (concat (map span_bytes l)) = 24 * Z.of_nat (length l).
Proof. unfold zlen. rewrite length_spans. lia. Qed.
Lemma spans_of l : Forall wf_span l -> spans (length l) (concat (map span_bytes l)) = l.
Proof.
  induction 1 as [|s l (H1 & H2 & H3) H IH]; cbn [length spans map concat]; [reflexivity|].
  assert (E : skipn 24 (span_bytes s ++ concat (map span_bytes l)) = concat (map span_bytes l)).
  { rewrite skipn_app, skipn_all2 by (unfold span_bytes; rewrite !app_length, !length_w; lia).
    unfold span_bytes. rewrite !app_length, !length_w. reflexivity. }
  rewrite E, IH. f_equal. unfold span_bytes. rewrite <- !app_assoc. destruct s as [a b n]; cbn [sp_out sp_in sp_len] in *.
  f_equal.
  - apply w8_first; auto.
  - apply w8_is; [reflexivity|auto].
  - apply w8_is; [reflexivity|auto].
Qed.
Lemma exec_offsets ps m i l c (k : list span -> prog done) : m i = MBytes (concat (map span_bytes l)) ->
  size ps i = 24 * Z.of_nat (length l) -> Forall wf_span l -> exec imp m (offsets_in ps i c k) = exec imp m (k l).
Proof.
  intros E S F. unfold offsets_in. rewrite S. replace (24 * Z.of_nat (length l) / 24) with (Z.of_nat (length l)) by (rewrite Z.mul_comm, Z.div_mul; lia).
  cbn [exec]. rewrite E, zlen_spans. destruct (_ && _) eqn:T; [|exfalso; lia].
  rewrite field_all by (rewrite length_spans; lia). rewrite Nat2Z.id, spans_of by exact F. reflexivity.
Qed.

Lemma length_pairs l : length (concat (map length_bytes l)) = (16 * length l)%nat.
Proof. induction l; cbn [map concat length]; [reflexivity|]. rewrite app_length, IHl. unfold length_bytes. rewrite !app_length, !length_w. lia. Qed.
Lemma zlen_pairs l : zlen (concat (map length_bytes l)) = 16 * Z.of_nat (length l).
Proof. unfold zlen. rewrite length_pairs. lia. Qed.
Lemma lengths_of l : Forall (fun l => is_u64 (fst l) /\ is_u64 (snd l)) l -> lengths (length l) (concat (map length_bytes l)) = l.
Proof.
  induction 1 as [|s l (H1 & H2) H IH]; cbn [length lengths map concat]; [reflexivity|].
  assert (E : skipn 16 (length_bytes s ++ concat (map length_bytes l)) = concat (map length_bytes l)).
  { rewrite skipn_app, skipn_all2 by (unfold length_bytes; rewrite !app_length, !length_w; lia).
    unfold length_bytes. rewrite !app_length, !length_w. reflexivity. }
  rewrite E, IH. f_equal. unfold length_bytes. rewrite <- !app_assoc. destruct s as [a b]; cbn [fst snd] in *.
  f_equal.
  - apply w8_first; auto.
  - apply w8_is; [reflexivity|auto].
Qed.

End All.
