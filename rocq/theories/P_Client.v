(** Proofs for S_Client. *)
From Verif Require Import Base M_KeyStore P_KeyStore M_Marshal S_Marshal P_Marshal M_Client S_Client.

(** ** Structures *)
Lemma length_set c off b : (off + length b <= length c)%nat -> length (set c off b) = length c.
Proof. unfold set. intros H. rewrite !app_length, firstn_length, skipn_length. lia. Qed.
Lemma field_set_same c off b n : length b = n -> (off + n <= length c)%nat -> field (set c off b) off n = b.
Proof.
  intros Hn H. unfold field, set. rewrite skipn_app, skipn_all2 by (rewrite firstn_length; lia).
  rewrite firstn_length. replace (off - Nat.min off (length c))%nat with 0%nat by lia. cbn [skipn app].
  change (firstn n (b ++ skipn (off + length b) c) = b). rewrite firstn_app, <- Hn, Nat.sub_diag, firstn_all. cbn. apply app_nil_r.
Qed.
Lemma nth_error_firstn' {X} (l : list X) n i : (i < n)%nat -> nth_error (firstn n l) i = nth_error l i.
Proof. revert n i; induction l; intros [|n] [|i] H; cbn; auto; try lia. apply IHl. lia. Qed.
Lemma nth_error_skipn' {X} (l : list X) n i : nth_error (skipn n l) i = nth_error l (n + i).
Proof. revert l i; induction n; intros l i; cbn; auto. destruct l; cbn; auto. now destruct i. Qed.
Lemma list_ext {X} (l1 l2 : list X) : (forall i, nth_error l1 i = nth_error l2 i) -> l1 = l2.
Proof.
  revert l2; induction l1; intros [|y l2] H; auto; try (specialize (H 0%nat); discriminate).
  pose proof (H 0%nat) as H0. cbn in H0. injection H0 as ->. f_equal. apply IHl1. intros i. apply (H (S i)).
Qed.
Lemma nth_error_set c off b i : (off + length b <= length c)%nat -> (i < off)%nat \/ (off + length b <= i)%nat ->
  nth_error (set c off b) i = nth_error c i.
Proof.
  intros H Hi. unfold set. destruct Hi.
  - rewrite nth_error_app1 by (rewrite firstn_length; lia). apply nth_error_firstn'. lia.
  - rewrite nth_error_app2 by (rewrite firstn_length; lia). rewrite firstn_length.
    rewrite nth_error_app2 by lia. rewrite nth_error_skipn'. f_equal. lia.
Qed.
Lemma field_set_other c off b o n : (off + length b <= length c)%nat -> (o + n <= off)%nat \/ (off + length b <= o)%nat ->
  field (set c off b) o n = field c o n.
Proof.
  intros H Ho. apply list_ext. intros i. unfold field. destruct (Nat.lt_ge_cases i n).
  - rewrite !nth_error_firstn', !nth_error_skipn' by lia. apply nth_error_set; lia.
  - rewrite (proj2 (nth_error_None (firstn n _) i)), (proj2 (nth_error_None (firstn n _) i)); auto;
      rewrite firstn_length; lia.
Qed.

Definition inside (n : nat) (f : nat * bytes) : Prop := (fst f + length (snd f) <= n)%nat.
Definition away (o n : nat) (f : nat * bytes) : Prop := (o + n <= fst f)%nat \/ (fst f + length (snd f) <= o)%nat.

Lemma length_assign fs : forall c, Forall (inside (length c)) fs -> length (assign c fs) = length c.
Proof.
  unfold assign. induction fs as [|f fs IH]; intros c H; cbn; [reflexivity|]. inversion H; subst.
  rewrite IH; rewrite length_set; auto.
Qed.
Lemma field_away fs o n : forall c, Forall (inside (length c)) fs -> Forall (away o n) fs -> field (assign c fs) o n = field c o n.
Proof.
  unfold assign. induction fs as [|f fs IH]; intros c H Ha; cbn; [reflexivity|]. inversion H; inversion Ha; subst.
  rewrite IH by (rewrite ?length_set; auto). apply field_set_other; auto.
Qed.
Lemma field_here N o b n fs c : length c = N -> Forall (inside N) ((o, b) :: fs) -> Forall (away o n) fs -> length b = n ->
  field (assign c ((o, b) :: fs)) o n = b.
Proof.
  intros Hc H Ha Hb. inversion H as [|x y H1 H2]; subst. unfold assign. cbn [fold_left fst snd]. fold (assign (set c o b) fs).
  unfold inside in H1; cbn in H1. rewrite field_away; auto.
  - apply field_set_same; auto.
  - rewrite length_set; auto.
Qed.
Lemma field_skip N f o n b fs c : length c = N -> inside N f ->
  (forall c', length c' = N -> field (assign c' fs) o n = b) -> field (assign c (f :: fs)) o n = b.
Proof.
  intros Hc H K. unfold assign. cbn [fold_left]. fold (assign (set c (fst f) (snd f)) fs). apply K.
  unfold inside in H. rewrite length_set; subst; auto.
Qed.

Lemma length_w n x : length (w n x) = n.
Proof. apply le_bytes_length. Qed.
Lemma num_w8 x : is_u64 x -> le_num (w 8 x) = x.
Proof. intros H. apply le_num_bytes. exact H. Qed.
Lemma num_w4 x : u32 x -> le_num (w 4 x) = x.
Proof. intros H. apply le_num_bytes. exact H. Qed.
Lemma num_w1 x : 0 <= x < 256 -> le_num (w 1 x) = x.
Proof. intros H. apply le_num_bytes. exact H. Qed.
Lemma w8_is c o x : field c o 8 = w 8 x -> is_u64 x -> w8 c o = x.
Proof. unfold w8. intros -> H. now apply num_w8. Qed.
Lemma w4_is c o x : field c o 4 = w 4 x -> u32 x -> w4 c o = x.
Proof. unfold w4. intros -> H. now apply num_w4. Qed.
Lemma w1_is c o x : field c o 1 = w 1 x -> 0 <= x < 256 -> w1 c o = x.
Proof. unfold w1. intros -> H. now apply num_w1. Qed.
Lemma field_all b n : n = length b -> field b 0 n = b.
Proof. intros ->. unfold field. cbn [skipn]. apply firstn_all. Qed.
Lemma set_all c b : length c = length b -> set c 0 b = b.
Proof. intros H. unfold set. cbn [firstn app Nat.add]. rewrite <- H, skipn_all. apply app_nil_r. Qed.

(** ** Running *)
Section Run.
Variable imp : app -> reply.

Lemma exec_bind {A B} (p : prog A) (f : A -> prog B) : forall m a l m' b l2 m2,
  exec imp m p = Some (a, l, m') -> exec imp m' (f a) = Some (b, l2, m2) -> exec imp m (bind p f) = Some (b, l ++ l2, m2).
Proof.
  induction p; intros m x l m' y l2 m2; cbn [exec bind]; intros H1 H2.
  - injection H1 as -> <- ->. exact H2.
  - destruct (m i); try discriminate. destruct (_ && _); [|discriminate]. eauto.
  - destruct (m i); try discriminate. destruct (_ && _); [|discriminate]. eauto.
  - eauto.
  - eauto.
  - discriminate.
  - eauto.
  - destruct (exec imp m (k _)) as [[[z l1] m1]|] eqn:E; [|discriminate]. injection H1 as -> <- ->.
    erewrite H by eauto. reflexivity.
Qed.

Lemma zlen_nonneg b : 0 <= zlen b.
Proof. unfold zlen. lia. Qed.
Lemma exec_fetch {A} m i b n (k : bytes -> prog A) : m i = MBytes b -> n = zlen b -> exec imp m (Fetch i 0 n k) = exec imp m (k b).
Proof.
  intros E ->. cbn [exec]. rewrite E. pose proof (zlen_nonneg b).
  destruct (_ && _) eqn:F; [|exfalso; lia]. rewrite field_all; [reflexivity|]. unfold zlen. lia.
Qed.
Lemma exec_store {A} m i b b' (k : prog A) : m i = MBytes b -> length b' = length b ->
  exec imp m (Store i 0 b' k) = exec imp (put_mem m i (MBytes b')) k.
Proof.
  intros E L. cbn [exec]. rewrite E. unfold zlen. destruct (_ && _) eqn:F; [|exfalso; lia].
  rewrite set_all by auto. reflexivity.
Qed.
Lemma exec_copy_in ps m i b n (k : bytes -> prog done) : m i = MBytes b -> size ps i = n -> zlen b = n ->
  exec imp m (copy_in ps i n k) = exec imp m (k b).
Proof.
  intros E S L. unfold copy_in. rewrite S. rewrite (exec_fetch m i b) by auto. cbn [exec]. rewrite Z.ltb_irrefl. reflexivity.
Qed.
Lemma exec_invoke {A} m f (k : reply -> prog A) a x m' : map_api (resolve_in m) (resolve_out m) f = a ->
  exec imp m (k (imp a)) = Some (x, [], m') -> exec imp m (Invoke f k) = Some (x, [a], m').
Proof. intros <- H. cbn [exec]. rewrite H. reflexivity. Qed.

(** A call with a command structure [c] and three more parameters. *)
Definition pars (t : Z) (c : bytes) (p1 p2 p3 : param * mem) : nat -> param :=
  params_of [MkParam t false (zlen c); fst p1; fst p2; fst p3].
Definition mems (c : bytes) (p1 p2 p3 : param * mem) : memory := memory_of [MBytes c; snd p1; snd p2; snd p3].

Lemma exec_handler ps t c cmd m st c' l m' : ps 0%nat = MkParam t false (zlen c) -> (t = 5 \/ t = 7) -> zlen c <> 0 ->
  m 0%nat = MBytes c -> exec imp m (dispatch ps cmd c) = Some ((st, c'), l, m') -> m' 0%nat = MBytes c -> length c' = length c ->
  exec imp m (handler ps cmd) = Some (st, l, if t =? 7 then put_mem m' 0 (MBytes c') else m').
Proof.
  intros E Ht Hz Em Ed Em' Hl. unfold handler, is_null, T, null, size. rewrite E. cbn [p_type p_null p_size].
  replace (t =? 0) with false by lia. rewrite (proj2 (Z.eqb_neq _ _) Hz). cbn [orb exec negb].
  rewrite Em. pose proof (zlen_nonneg c). destruct (_ && _) eqn:F; [|exfalso; lia].
  rewrite field_all by (unfold zlen; lia). cbn [exec].
  rewrite (exec_bind _ _ _ _ _ _ st [] (if t =? 7 then put_mem m' 0 (MBytes c') else m') Ed), app_nil_r.
  - reflexivity.
  - destruct Ht as [-> | ->]; cbn [is_inout Z.eqb Pos.eqb orb]; [reflexivity|].
    rewrite (exec_store m' 0 c c') by auto. reflexivity.
Qed.

Variable junk : nat -> nat -> bytes.
Variable initial : Z.

Definition result (a : app) (st : status) (c p1 p2 : bytes) : reply :=
  if status_eqb st OK then copy_back a st c p1 p2 else MkReply st [] [].

Lemma lib_inout a cmd c p1 p2 p3 st c' l m' : client junk initial a = to_ta cmd (pinout c) p1 p2 p3 -> zlen c <> 0 ->
  exec imp (mems c p1 p2 p3) (dispatch (pars 7 c p1 p2 p3) cmd c) = Some ((st, c'), l, m') -> m' 0%nat = MBytes c ->
  length c' = length c -> lib_call imp junk initial a = Some (result a st c' (bytes_of (m' 1%nat)) (bytes_of (m' 2%nat)), l).
Proof.
  intros E Hz Ed Em Hl. unfold lib_call. rewrite E. unfold to_ta.
  pose proof (exec_handler (pars 7 c p1 p2 p3) 7 c cmd (mems c p1 p2 p3) st c' l m' eq_refl (or_intror eq_refl) Hz eq_refl Ed Em Hl) as H.
  cbn [pinout fst snd] in *. unfold pars, mems, TA_PARAM_INOUT in *. rewrite H. reflexivity.
Qed.
Lemma lib_in a cmd c p1 p2 p3 st c' l m' : client junk initial a = to_ta cmd (pin c) p1 p2 p3 -> zlen c <> 0 ->
  exec imp (mems c p1 p2 p3) (dispatch (pars 5 c p1 p2 p3) cmd c) = Some ((st, c'), l, m') -> m' 0%nat = MBytes c ->
  length c' = length c -> lib_call imp junk initial a = Some (result a st c (bytes_of (m' 1%nat)) (bytes_of (m' 2%nat)), l).
Proof.
  intros E Hz Ed Em Hl. unfold lib_call. rewrite E. unfold to_ta.
  pose proof (exec_handler (pars 5 c p1 p2 p3) 5 c cmd (mems c p1 p2 p3) st c' l m' eq_refl (or_introl eq_refl) Hz eq_refl Ed Em Hl) as H.
  cbn [pin fst snd] in *. unfold pars, mems, TA_PARAM_IN in *. change (5 =? 7) with false in H. cbv iota in H. rewrite H, Em. reflexivity.
Qed.

End Run.
