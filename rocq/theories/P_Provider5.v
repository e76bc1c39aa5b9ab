(** Nothing is left over of messages of stream ciphers; instances. *)
From Verif Require Import Base S_Bytes M_Mac M_Unwrap P_Unwrap M_Cipher S_Cipher P_Cipher P_Cipher2 M_Provider S_Provider P_Provider P_Provider2 P_Provider3 P_Provider4.

Lemma stream_loop fuel L : forall p c out off inp pos st sum fs st2 p2 c2 out2 pos2 sum2,
  is_block (p_alg p) = false -> p_rem p = [] -> (pos <= length inp)%nat ->
  update_loop fuel L p c out off inp (zlen inp - Z.of_nat pos) pos st sum fs = Loop st2 p2 c2 out2 pos2 sum2 ->
  p_alg p2 = p_alg p /\ p_rem p2 = [] /\ pos2 = length inp.
Proof.
  induction fuel as [|fuel IH]; intros p c out off inp pos st sum fs st2 p2 c2 out2 pos2 sum2 Hb Hr Hp E; cbn [update_loop] in E;
    unfold block_size in E; rewrite Hb in E.
  - destruct (zlen inp - Z.of_nat pos <? 1) eqn:El; [|discriminate]. apply Z.ltb_lt in El. unfold zlen in El.
    injection E as <- <- <- <- <- <-. repeat split; auto. lia.
  - destruct (zlen inp - Z.of_nat pos <? 1) eqn:El.
    { apply Z.ltb_lt in El. unfold zlen in El. injection E as <- <- <- <- <- <-. repeat split; auto. lia. }
    rewrite Hr, Z.div_1_r, Z.mul_1_r in E.
    assert (Ep : (pos + Z.to_nat (zlen inp - Z.of_nat pos))%nat = length inp) by (unfold zlen; lia).
    rewrite Ep in E. replace (zlen inp - Z.of_nat pos - (zlen inp - Z.of_nat pos)) with (zlen inp - Z.of_nat (length inp)) in E by (unfold zlen; lia).
    destruct (process L c _ _ _ _) as [s c1 b1 n1 k1 t1|]; [|discriminate]. destruct s; apply IH in E; auto.
Qed.
Lemma stream_cipher L ks p out inp refused pf lf b p2 o n : is_block (p_alg p) = false -> p_rem p = [] ->
  cipher_cipher L ks p out inp refused pf lf = Done b p2 o n -> p_alg p2 = p_alg p /\ p_rem p2 = [].
Proof.
  intros Hb Hr E. unfold cipher_cipher in E. destruct (match p_key p with None => true | Some _ => false end); [injection E as <- <- <- <-; auto|].
  destruct (match p_cipher p with Some c => Some c | None => _ end) as [c|]; [|injection E as <- <- <- <-; auto].
  destruct out as [out|]; [|injection E as <- <- <- <-; auto]. destruct inp as [d|].
  - assert (Et : zlen (p_rem (set_cipher p (Some c))) + zlen d = zlen d - Z.of_nat 0) by (cbn [p_rem set_cipher]; rewrite Hr; cbn; lia).
    rewrite Et in E.
    destruct (update_loop _ _ _ _ _ _ _ _ _ _ _ _) as [st p1 c1 out1 pos sum| |] eqn:El; try discriminate.
    apply stream_loop in El; [|assumption|assumption|lia]. destruct El as (E1 & E2 & ->). rewrite Nat.ltb_irrefl in E.
    destruct st; injection E as <- <- <- <-; auto.
  - destruct (match p_alg (set_cipher p (Some c)) with CBC | ECB => true | _ => false end).
    + destruct (p_rem (set_cipher p (Some c))); injection E as <- <- <- <-; auto.
    + destruct (process_last _ _ _ _ _ _ _) as [st c1 b1 n1 k1 t1|]; [|discriminate].
      destruct t1; destruct st; injection E as <- <- <- <-; auto.
Qed.
Lemma stream_set ks p o b ks2 p2 : is_block (p_alg p) = false -> p_rem p = [] -> set_ctx_params ks p o = (b, ks2, p2) -> is_block (p_alg p2) = false /\ p_rem p2 = [].
Proof.
  intros Hb Hr E. unfold set_ctx_params in E.
  set (q := match o_padding o with Some b => set_alg p (with_padding (p_alg p) b) | None => p end) in *.
  assert (Q : is_block (p_alg q) = false /\ p_rem q = []).
  { unfold q. destruct (o_padding o) as [pd|]; [|auto]. split; [|exact Hr]. cbn. destruct (p_alg p); try discriminate; destruct pd; reflexivity. }
  destruct Q as (Q1 & Q2).
  destruct (match o_tag o with Some t => _ | None => _ end) as [x|] eqn:Ex; [|injection E as <- <- <-; auto].
  assert (X : is_block (p_alg x) = false /\ p_rem x = []).
  { destruct (o_tag o) as [t|]; [destruct (put (p_tag q) t); [|discriminate]|]; injection Ex as <-; auto. }
  destruct (o_key o) as [h|].
  - destruct (lookup ks h) as [k|]; [|injection E as <- <- <-; exact X]. destruct (negb (p_ksize x =? zlen k)); injection E as <- <- <-; [exact X|].
    destruct (o_delete o); exact X.
  - injection E as <- <- <-. destruct (o_delete o); exact X.
Qed.
Lemma stream_init ks p key header iv o e b ks2 p2 : is_block (p_alg p) = false -> p_rem p = [] -> init ks p key header iv o e = (b, ks2, p2) ->
  is_block (p_alg p2) = false /\ p_rem p2 = [].
Proof.
  intros Hb Hr E. unfold init in E.
  destruct (match iv with Some v => _ | None => _ end) as [x|] eqn:Ex; [|injection E as <- <- <-; auto].
  assert (X : is_block (p_alg x) = false /\ p_rem x = []).
  { cbn [p_iv] in Ex. destruct iv as [v|]; [destruct (put (p_iv p) v); [|discriminate]|]; injection Ex as <-; auto. }
  destruct X as (X1 & X2). destruct key as [[k [h|]]|].
  - destruct (negb header); [injection E as <- <- <-; auto|]. destruct (negb (p_ksize x =? zlen k)); [injection E as <- <- <-; auto|].
    eapply stream_set; [| |exact E]; assumption.
  - injection E as <- <- <-; auto.
  - eapply stream_set; [| |exact E]; assumption.
Qed.
Lemma stream_uses L ks p us ks2 p2 : uses L ks p us ks2 p2 -> is_block (p_alg p) = false -> p_rem p = [] -> p_rem p2 = [].
Proof.
  induction 1 as [ks p|ks p u ks1 p1 us ks2 p2 H U IH]; intros Hb Hr; [exact Hr|].
  destruct u as [key header iv o e|o|out inp refused pf lf]; cbn [used] in H.
  - destruct H as (_ & b & E). destruct (stream_init _ _ _ _ _ _ _ _ _ _ Hb Hr E). auto.
  - destruct H as (b & E). destruct (stream_set _ _ _ _ _ _ Hb Hr E). auto.
  - destruct H as (-> & b & o & n & E). destruct (stream_cipher _ _ _ _ _ _ _ _ _ _ _ _ Hb Hr E) as (E1 & E2). apply IH; [now rewrite E1|exact E2].
Qed.
Lemma stream_new L ks a n us ks2 p2 : is_block a = false -> uses L ks (newctx a n) us ks2 p2 -> p_rem p2 = [].
Proof. intros Hb U. eapply stream_uses; [exact U|exact Hb|reflexivity]. Qed.

(** ** Padding *)
Lemma loop_alg fuel : forall L p c out off data total pos st sum fl st1 p1 c1 out1 pos1 sum1,
  update_loop fuel L p c out off data total pos st sum fl = Loop st1 p1 c1 out1 pos1 sum1 -> p_alg p1 = p_alg p.
Proof.
  induction fuel as [|fuel IH]; intros L p c out off data total pos st sum fl st1 p1 c1 out1 pos1 sum1 E; cbn [update_loop] in E;
    (destruct (total <? block_size (p_alg p)); [now injection E as <- <- <- <- <- <-|]); [discriminate|].
  destruct (p_rem p) as [|x r]; (destruct (process _ _ _ _ _ _) as [s c2 b n k t|]; [|discriminate]);
    destruct s; apply IH in E; exact E.
Qed.
Lemma cipher_alg L ks p out inp refused pf lf b p2 o n :
  cipher_cipher L ks p out inp refused pf lf = Done b p2 o n -> p_alg p2 = p_alg p.
Proof.
  intros E. unfold cipher_cipher in E. destruct (match p_key p with None => true | Some _ => false end); [injection E as <- <- <- <-; auto|].
  destruct (match p_cipher p with Some c => Some c | None => _ end) as [c|]; [|injection E as <- <- <- <-; auto].
  destruct out as [out|]; [|injection E as <- <- <- <-; auto]. destruct inp as [d|].
  - destruct (update_loop _ _ _ _ _ _ _ _ _ _ _ _) as [st p1 c1 out1 pos sum| |] eqn:El; try discriminate.
    apply loop_alg in El. cbn in El. destruct (pos <? length d)%nat; destruct st; injection E as <- <- <- <-; exact El.
  - destruct (match p_alg (set_cipher p (Some c)) with CBC | ECB => true | _ => false end).
    + destruct (p_rem (set_cipher p (Some c))); injection E as <- <- <- <-; auto.
    + destruct (process_last _ _ _ _ _ _ _) as [st c1 b1 n1 k1 t1|]; [|discriminate].
      destruct t1; destruct st; injection E as <- <- <- <-; auto.
Qed.
Definition asked (a : calg) (q : option bool) : calg := match q with Some true => padded a | Some false => unpadded a | None => a end.
Lemma with_padding_asked a b : with_padding a b = asked a (Some b).
Proof. now destruct a, b. Qed.
Lemma set_alg_asked ks p o b ks2 p2 : set_ctx_params ks p o = (b, ks2, p2) -> p_alg p2 = asked (p_alg p) (o_padding o).
Proof.
  intros E. unfold set_ctx_params in E.
  set (q := match o_padding o with Some b => set_alg p (with_padding (p_alg p) b) | None => p end) in *.
  assert (Q : p_alg q = asked (p_alg p) (o_padding o)) by (unfold q; destruct (o_padding o); [apply with_padding_asked|reflexivity]).
  rewrite <- Q. clearbody q. clear Q.
  destruct (match o_tag o with Some t => _ | None => _ end) as [x|] eqn:Ex; [|injection E as <- <- <-; auto].
  assert (X : p_alg x = p_alg q) by (destruct (o_tag o) as [t|]; [destruct (put (p_tag q) t); [|discriminate]|]; injection Ex as <-; auto).
  rewrite <- X. destruct (o_key o) as [h|].
  - destruct (lookup ks h) as [k|]; [|now injection E as <- <- <-]. destruct (negb (p_ksize x =? zlen k)); injection E as <- <- <-; [reflexivity|].
    now destruct (o_delete o).
  - injection E as <- <- <-. now destruct (o_delete o).
Qed.
Lemma init_alg_asked ks p key header iv o e b ks2 p2 : init ks p key header iv o e = (b, ks2, p2) ->
  p_alg p2 = asked (p_alg p) (o_padding o) \/ b = false /\ p_alg p2 = p_alg p.
Proof.
  intros E. unfold init in E.
  destruct (match iv with Some v => _ | None => _ end) as [x|] eqn:Ex; [|injection E as <- <- <-; auto].
  assert (X : p_alg x = p_alg p).
  { cbn [p_iv] in Ex. destruct iv as [v|]; [destruct (put (p_iv p) v); [|discriminate]|]; injection Ex as <-; auto. }
  rewrite <- X. destruct key as [[k [h|]]|].
  - destruct (negb header); [injection E as <- <- <-; auto|]. destruct (negb (p_ksize x =? zlen k)); [injection E as <- <- <-; auto|].
    left. exact (set_alg_asked _ _ _ _ _ _ E).
  - injection E as <- <- <-; auto.
  - left. exact (set_alg_asked _ _ _ _ _ _ E).
Qed.
Lemma asked_forms a q : unpadded (asked a q) = unpadded a /\ padded (asked a q) = padded a.
Proof. destruct q as [[|]|], a; split; reflexivity. Qed.
Lemma used_forms L ks p u ks2 p2 : used L ks p u ks2 p2 -> unpadded (p_alg p2) = unpadded (p_alg p) /\ padded (p_alg p2) = padded (p_alg p).
Proof.
  destruct u as [key header iv o e|o|out inp refused pf lf]; cbn [used].
  - intros (_ & b & E). apply init_alg_asked in E as [-> | [_ ->] ]; [apply asked_forms|auto].
  - intros (b & E). rewrite (set_alg_asked _ _ _ _ _ _ E). apply asked_forms.
  - intros (_ & b & o & n & E). rewrite (cipher_alg _ _ _ _ _ _ _ _ _ _ _ _ E). auto.
Qed.
Lemma uses_forms L ks p us ks2 p2 : uses L ks p us ks2 p2 -> unpadded (p_alg p2) = unpadded (p_alg p) /\ padded (p_alg p2) = padded (p_alg p).
Proof.
  induction 1 as [|ks p u ks1 p1 us ks2 p2 H U [IH1 IH2]]; [auto|]. destruct (used_forms _ _ _ _ _ _ H) as [A B].
  now rewrite IH1, IH2.
Qed.
Lemma uses_no_padding L ks p us ks2 p2 : uses L ks p us ks2 p2 -> Forall no_padding us -> p_alg p2 = p_alg p.
Proof.
  induction 1 as [|ks p u ks1 p1 us ks2 p2 H U IH]; intros F; [auto|]. inversion F as [|? ? F1 F2]; subst. rewrite (IH F2). clear IH F F2 U.
  destruct u as [key header iv o e|o|out inp refused pf lf]; cbn [used no_padding] in *.
  - destruct H as (_ & b & E). apply init_alg_asked in E as [-> | [_ ->] ]; [now rewrite F1|auto].
  - destruct H as (b & E). rewrite (set_alg_asked _ _ _ _ _ _ E). now rewrite F1.
  - destruct H as (_ & b & o & n & E). exact (cipher_alg _ _ _ _ _ _ _ _ _ _ _ _ E).
Qed.
Lemma padding_as_asked L ks a n us ks1 p1 o b ks2 p2 vs ks3 p3 : uses L ks (newctx a n) us ks1 p1 -> o_padding o = Some b ->
  (set_ctx_params ks1 p1 o = (true, ks2, p2) \/ exists key header iv e, init ks1 p1 key header iv o e = (true, ks2, p2)) ->
  uses L ks2 p2 vs ks3 p3 -> Forall no_padding vs -> p_alg p3 = if b then padded a else unpadded a.
Proof.
  intros U Ho S V F. rewrite (uses_no_padding _ _ _ _ _ _ V F). destruct (uses_forms _ _ _ _ _ _ U) as [A B]. cbn in A, B.
  assert (E : p_alg p2 = asked (p_alg p1) (o_padding o)).
  { destruct S as [S|(key & header & iv & e & S)]; [exact (set_alg_asked _ _ _ _ _ _ S)|]. apply init_alg_asked in S as [S | [S _] ]; [exact S|discriminate]. }
  rewrite E, Ho. destruct b; cbn; [now rewrite B|now rewrite A].
Qed.
Lemma padding_never_asked L ks a n us ks1 p1 : uses L ks (newctx a n) us ks1 p1 -> Forall no_padding us -> p_alg p1 = a.
Proof. intros U F. exact (uses_no_padding _ _ _ _ _ _ U F). Qed.

(** ** Instances *)
Definition toy_keys : keys := [(5, toy_key)].
Definition own_key : params := MkParams None None (Some 5) None.
Definition toy_p (a : calg) (e : bool) : pctx := MkP a 16 e (repeat 1 16) (Some 5) false None (repeat 0 16) [].
Lemma toy_init a e : vector_length a = 16%nat -> init toy_keys (newctx a 16) None true (Some (repeat 1 16)) own_key e = (true, toy_keys, toy_p a e).
Proof. destruct a; intros H; try discriminate H; reflexivity. Qed.
Lemma toy_ready a e : a <> CHACHA20 -> a <> POLY1305 -> ready toy_keys (toy_p a e) a e toy_key.
Proof.
  intros H1 H2. unfold ready. do 5 (split; [reflexivity|]). split; [destruct a; try congruence; left; reflexivity|].
  exists 5. split; reflexivity.
Qed.
Lemma bytes_repeat x n : 0 <= x < 256 -> bytes_ok (repeat x n).
Proof. intros H. apply Forall_forall. intros y Hy. apply repeat_spec in Hy. subst. exact H. Qed.

Lemma aead_decryption L a key iv text : is_aead a = true -> exists msg, decryption L a key iv text msg.
Proof.
  intros Ha. exists (map (fun i => Z.lxor (nth i text 0) (k_stream L a key iv (Z.of_nat i))) (seq 0 (length text))).
  assert (S : streamed (k_stream L a key iv) text (map (fun i => Z.lxor (nth i text 0) (k_stream L a key iv (Z.of_nat i))) (seq 0 (length text)))).
  { unfold streamed. split; [now rewrite map_length, seq_length|]. intros i Hi.
    set (f := fun i => Z.lxor (nth i text 0) (k_stream L a key iv (Z.of_nat i))).
    rewrite (nth_indep _ 0 (f 0%nat)) by now rewrite map_length, seq_length.
    rewrite map_nth, seq_nth by exact Hi. reflexivity. }
  unfold decryption, decrypts. destruct a; try discriminate; exact S.
Qed.
Lemma provider_opens L ks p a key aad p1 ds p2 outs : good_clib L -> k_ahead L = false -> ready ks p a false key -> p_rem p = [] ->
  aad_short aad -> begins L ks p aad p1 -> Forall (fun d => zlen d < 2 ^ 31) ds -> updates L ks p1 ds p2 outs -> is_aead a = true ->
  exists b p3 n, final L ks p2 (Some []) = Done b p3 [] (Some n) /\
    (b = true <-> p_tag p = tag_of L a key (vector p) (associated a aad) (concat ds) 16).
Proof.
  intros HL Ha R Hr Hs B F U Hae.
  assert (Hb : is_block a = false) by (destruct a; try discriminate; reflexivity).
  assert (Hro : zlen ([] : list Z) = final_room a) by (destruct a; try discriminate; reflexivity).
  destruct (provider_decrypts L ks p a key aad p1 ds p2 outs [] HL Ha R Hr Hs B F U ltac:(congruence) Hro) as (b & p3 & out3 & n & E & El & Hiff & _).
  destruct out3; [|discriminate]. exists b, p3, n. split; [exact E|]. rewrite Hiff. split.
  - intros (_ & H). auto.
  - intros H. split; [now apply aead_decryption|auto].
Qed.
Lemma provider_seals L ks p a key aad p1 ds p2 outs : good_clib L -> k_ahead L = false -> ready ks p a true key -> p_rem p = [] ->
  aad_short aad -> begins L ks p aad p1 -> Forall (fun d => zlen d < 2 ^ 31) ds -> updates L ks p1 ds p2 outs -> is_aead a = true ->
  exists p3 n, final L ks p2 (Some []) = Done true p3 [] (Some n) /\ encryption L a key (vector p) (concat ds) outs /\
    p_tag p3 = tag_of L a key (vector p) (associated a aad) outs 16.
Proof.
  intros HL Ha R Hr Hs B F U Hae.
  assert (Hb : is_block a = false) by (destruct a; try discriminate; reflexivity).
  assert (Hro : zlen ([] : list Z) = final_room a) by (destruct a; try discriminate; reflexivity).
  pose proof (provider_encrypts L ks p a key aad p1 ds p2 outs [] HL Ha R Hr Hs B F U ltac:(congruence) Hro) as H. cbv zeta in H.
  replace (complete a (concat ds)) with true in H by (destruct a; try discriminate; reflexivity).
  destruct H as (p3 & out3 & n & E & El & Henc & Ht). destruct out3; [|discriminate]. exists p3, n. rewrite firstn_nil, app_nil_r in *.
  split; [exact E|]. split; [exact Henc|]. now apply Ht.
Qed.

(** Two short pieces. *)
Lemma toy_lost : exists L ks p p2 outs p3 out3 n, good_clib L /\ k_ahead L = false /\
  init ks (newctx CBC7 16) None true (Some (repeat 1 16)) own_key true = (true, ks, p) /\
  updates L ks p [repeat 2 5; repeat 3 5] p2 outs /\ final L ks p2 (Some (repeat 0 16)) = Done true p3 out3 (Some n) /\
  ~ encryption L CBC7 toy_key (vector p) (repeat 2 5 ++ repeat 3 5) (outs ++ firstn (Z.to_nat n) out3).
Proof.
  pose (L := toy_lib false).
  assert (U : exists p2 outs, updates L toy_keys (toy_p CBC7 true) [repeat 2 5; repeat 3 5] p2 outs).
  { do 2 eexists. eapply updates_cons with (out := repeat 0 21); [reflexivity|vm_compute; reflexivity|].
    eapply updates_cons with (out := repeat 0 21); [reflexivity|vm_compute; reflexivity|]. apply updates_nil. }
  destruct U as (p2 & outs & U).
  destruct (provider_lost L toy_keys (toy_p CBC7 true) CBC7 toy_key (repeat 2 5) (repeat 3 5) p2 outs (repeat 0 16) (toy_good false) eq_refl
    (toy_ready CBC7 true ltac:(discriminate) ltac:(discriminate)) eq_refl eq_refl ltac:(discriminate) ltac:(discriminate) ltac:(reflexivity) U eq_refl)
    as (p3 & out3 & n & E & _ & N).
  exists L, toy_keys, (toy_p CBC7 true), p2, outs, p3, out3, n. split; [apply toy_good|]. split; [reflexivity|]. split; [reflexivity|].
  split; [exact U|]. split; [exact E|]. apply N; apply bytes_repeat; lia.
Qed.

(** The first of two calls fails, the second succeeds. *)
Lemma toy_failure : exists L ks p p1 out1 n1 v p2 out2, good_clib L /\ k_ahead L = false /\
  init ks (newctx CBC7 16) None true (Some (repeat 1 16)) own_key true = (true, ks, p) /\
  update L ks p (repeat 0 21) (repeat 2 5) = Done true p1 out1 n1 /\
  cipher_cipher L ks p1 (Some (repeat 0 48)) (Some (repeat 3 32)) false [Some v] no_faults = Done true p2 out2 (Some 32) /\
  skipn 16 out2 = repeat 0 32.
Proof.
  exists (toy_lib false), toy_keys, (toy_p CBC7 true). do 3 eexists. exists (fresh (repeat 1 16) []). do 2 eexists.
  split; [apply toy_good|]. split; [reflexivity|]. split; [reflexivity|]. split; [vm_compute; reflexivity|]. split; vm_compute; reflexivity.
Qed.

(** Associated data in two pieces. *)
Lemma toy_aad : exists L ks p p1 p2 p3 outs p4 n, good_clib L /\ k_ahead L = false /\
  init ks (newctx GCM 16) None true (Some (repeat 1 12)) own_key true = (true, ks, p) /\
  update_aad L ks p [4; 5] = Done true p1 [] (Some 0) /\ update_aad L ks p1 [6] = Done true p2 [] (Some 0) /\
  updates L ks p2 [[8; 9]] p3 outs /\ final L ks p3 (Some []) = Done true p4 [] n /\
  p_tag p4 <> tag_of L GCM toy_key (repeat 1 12) [4; 5; 6] outs 16.
Proof.
  exists (toy_lib false), toy_keys. do 7 eexists. split; [apply toy_good|]. split; [reflexivity|]. split; [reflexivity|].
  split; [vm_compute; reflexivity|]. split; [vm_compute; reflexivity|].
  split; [eapply updates_cons with (out := repeat 0 2); [reflexivity|vm_compute; reflexivity|apply updates_nil]|].
  split; [vm_compute; reflexivity|]. vm_compute. discriminate.
Qed.

(** A tag that is not that of the text. *)
Lemma toy_null_final : exists L ks p p1 outs p2, good_clib L /\ k_ahead L = false /\
  init ks (newctx GCM 16) None true (Some (repeat 1 12)) (MkParams None (Some (repeat 9 16)) (Some 5) None) false = (true, ks, p) /\
  updates L ks p [[8; 9]] p1 outs /\ final L ks p1 None = Done true p2 [] (Some 0) /\
  p_tag p <> tag_of L GCM toy_key (repeat 1 12) [] [8; 9] 16.
Proof.
  exists (toy_lib false), toy_keys. do 4 eexists. split; [apply toy_good|]. split; [reflexivity|]. split; [reflexivity|].
  split; [eapply updates_cons with (out := repeat 0 2); [reflexivity|vm_compute; reflexivity|apply updates_nil]|].
  split; [vm_compute; reflexivity|]. vm_compute. discriminate.
Qed.
(** A tag of twelve bytes. *)
Lemma toy_short_tag : exists L ks p p1 outs p2, good_clib L /\ k_ahead L = false /\
  init ks (newctx GCM 16) None true (Some (repeat 1 12))
    (MkParams None (Some (tag_of L GCM toy_key (repeat 1 12) [] [8; 9] 12)) (Some 5) None) false = (true, ks, p) /\
  updates L ks p [[8; 9]] p1 outs /\ final L ks p1 (Some []) = Done false p2 [] (Some 0).
Proof.
  exists (toy_lib false), toy_keys. do 4 eexists. split; [apply toy_good|]. split; [reflexivity|]. split; [vm_compute; reflexivity|].
  split; [eapply updates_cons with (out := repeat 0 2); [reflexivity|vm_compute; reflexivity|apply updates_nil]|].
  vm_compute. reflexivity.
Qed.

(** A second message. *)
Lemma toy_reuse : exists L ks p p1 outs1 p2 out2 n2 p3 p4 outs4 p5 out5 n5, good_clib L /\ k_ahead L = false /\
  init ks (newctx CBC7 16) None true (Some (repeat 1 16)) own_key true = (true, ks, p) /\
  updates L ks p [repeat 2 5] p1 outs1 /\ final L ks p1 (Some (repeat 0 16)) = Done true p2 out2 (Some n2) /\
  init ks p2 None true (Some (repeat 1 16)) no_params true = (true, ks, p3) /\
  updates L ks p3 [repeat 3 16] p4 outs4 /\ final L ks p4 (Some (repeat 0 16)) = Done true p5 out5 (Some n5) /\
  ~ encryption L CBC7 toy_key (repeat 1 16) (repeat 3 16) (outs4 ++ firstn (Z.to_nat n5) out5).
Proof.
  pose (L := toy_lib false).
  pose (q := MkP CBC7 16 true (repeat 1 16) (Some 5) false None (repeat 0 16) (repeat 2 5)).
  assert (R : ready toy_keys q CBC7 true toy_key).
  { unfold ready. do 5 (split; [reflexivity|]). split; [left; reflexivity|]. exists 5. split; reflexivity. }
  assert (U : exists p4 outs4, updates L toy_keys q [repeat 3 16] p4 outs4).
  { do 2 eexists. eapply updates_cons with (out := repeat 0 32); [reflexivity|vm_compute; reflexivity|]. apply updates_nil. }
  destruct U as (p4 & outs4 & U).
  destruct (leftover_prepended L toy_keys q CBC7 toy_key (repeat 2 5) [repeat 3 16] p4 outs4 (repeat 0 16) (toy_good false) eq_refl R eq_refl eq_refl
    ltac:(discriminate) ltac:(reflexivity)
    ltac:(repeat constructor) ltac:(cbn [completes]; split; [right; right; vm_compute; discriminate|exact I]) U eq_refl)
    as (p5 & out5 & n5 & E & _ & N).
  exists L, toy_keys, (toy_p CBC7 true). do 5 eexists. exists q, p4, outs4, p5, out5, n5.
  split; [apply toy_good|]. split; [reflexivity|]. split; [reflexivity|].
  split; [eapply updates_cons with (out := repeat 0 21); [reflexivity|vm_compute; reflexivity|apply updates_nil]|].
  split; [vm_compute; reflexivity|]. split; [vm_compute; reflexivity|]. split; [exact U|]. split; [exact E|].
  cbn [concat] in N. rewrite app_nil_r in N. apply N; apply bytes_repeat; lia.
Qed.

(** ** Keys *)
(** The application's key 5, which it has not given away, is gone: after a clear key has been
    set, *)
Lemma toy_replaced : exists ks p ks2 p2, lookup ks 5 = Some toy_key /\
  init ks (newctx CBC 16) None true (Some (repeat 1 16)) own_key true = (true, ks, p) /\
  init ks p (Some (repeat 8 16, Some 7)) true (Some (repeat 1 16)) no_params true = (true, ks2, p2) /\ lookup ks2 5 = None.
Proof. exists toy_keys. do 3 eexists. split; [reflexivity|]. split; [reflexivity|]. split; vm_compute; reflexivity. Qed.
(** after a clear key had been set before, *)
Lemma toy_inherited : exists ks ks1 p1 ks2 p2, lookup ks 5 = Some toy_key /\
  init ks (newctx CBC 16) (Some (repeat 8 16, Some 7)) true (Some (repeat 1 16)) no_params true = (true, ks1, p1) /\
  set_ctx_params ks1 p1 own_key = (true, ks2, p2) /\ lookup ks2 5 = Some toy_key /\ lookup (freectx ks2 p2) 5 = None.
Proof. exists toy_keys. do 4 eexists. split; [reflexivity|]. split; [vm_compute; reflexivity|]. split; [vm_compute; reflexivity|]. split; vm_compute; reflexivity. Qed.
(** after the key has been set twice. *)
Lemma toy_twice : exists ks p ks2 p2, lookup ks 5 = Some toy_key /\
  init ks (newctx CBC 16) None true (Some (repeat 1 16)) own_key true = (true, ks, p) /\
  init ks p None true (Some (repeat 2 16)) own_key true = (true, ks2, p2) /\ lookup ks2 5 = None.
Proof. exists toy_keys. do 3 eexists. split; [reflexivity|]. split; [reflexivity|]. split; vm_compute; reflexivity. Qed.
(** A context keeps the handle of a key that it has released; the application's next key has
    that handle, and the context releases it. *)
Lemma toy_stale : exists ks ks1 p1 ks2 p2, 
  init ks (newctx CBC 16) (Some (repeat 8 16, Some 7)) true (Some (repeat 1 16)) no_params true = (true, ks1, p1) /\
  init ks1 p1 (Some (repeat 9 16, None)) true (Some (repeat 1 16)) no_params true = (false, ks2, p2) /\
  lookup ks2 7 = None /\ lookup (freectx ((7, repeat 6 16) :: ks2) p2) 7 = None.
Proof. exists toy_keys. do 4 eexists. split; [vm_compute; reflexivity|]. split; [vm_compute; reflexivity|]. split; vm_compute; reflexivity. Qed.
(** A key that a failing initialisation has imported is never released. *)
Lemma toy_leak : exists ks ks1 p1, lookup ks 7 = None /\
  init ks (newctx CBC 16) (Some (repeat 8 16, Some 7)) false (Some (repeat 1 16)) no_params true = (false, ks1, p1) /\
  lookup (freectx ks1 p1) 7 = Some (repeat 8 16).
Proof. exists toy_keys. do 2 eexists. split; [reflexivity|]. split; vm_compute; reflexivity. Qed.
(** MACs. *)
Lemma toy_mac_twice : exists ks m ks2 m2, lookup ks 5 = Some toy_key /\
  mac_init ks mac_newctx None true (Some 5) None false = (true, ks, m) /\
  mac_init ks m None true (Some 5) None false = (false, ks2, m2) /\ lookup ks2 5 = None.
Proof. exists toy_keys. do 3 eexists. split; [reflexivity|]. split; [vm_compute; reflexivity|]. split; vm_compute; reflexivity. Qed.
