(** Proofs for S_Client: all functions; the requests of the library at the trusted application. *)
From Verif Require Import Base M_KeyStore P_KeyStore M_Marshal S_Marshal P_Marshal P_Marshal2 P_Marshal3 M_Client S_Client P_Client P_Client2
  P_Client3 P_Client4 P_Client5 P_Client6.

Lemma all_reach imp junk initial a : word_sized imp -> allocator junk -> is_u64 initial ->
  proper a -> complete a = true -> uniform a -> reaches imp junk initial a.
Proof.
  intros H1 H2 H3 P C U. destruct a;
    eauto using reach_generate, reach_version, reach_uuid, reach_name, reach_device, reach_export, reach_import, reach_get_public,
      reach_digest, reach_compute, reach_derive, reach_exchange, reach_release, reach_header, reach_random, reach_cipher_init,
      reach_update_iv, reach_cipher_release, reach_mac_release, reach_mac_init, reach_mac_process, reach_mac_process_key,
      reach_svp_supported, reach_svp_create, reach_svp_release, reach_buffer_check, reach_sign, reach_unwrap, reach_process,
      reach_process_last, reach_svp_copy, reach_svp_write, reach_key_check, reach_cenc.
Qed.
Lemma all_refused imp junk initial a : allocator junk -> is_u64 initial ->
  proper a -> complete a = false -> refused imp junk initial a.
Proof.
  intros H2 H3 P C. destruct a; try discriminate C;
    eauto using refuse_generate, refuse_export, refuse_import, refuse_derive, refuse_exchange, refuse_random, refuse_cipher_init,
      refuse_update_iv, refuse_mac_init, refuse_mac_process, refuse_svp_create, refuse_buffer_check, refuse_sign, refuse_unwrap, refuse_process,
      refuse_process_last, refuse_svp_copy, refuse_svp_write, refuse_key_check, refuse_cenc.
Qed.

(** The table of a write: the first entry, repeated. *)
Lemma write_repeats imp junk initial o d s l : word_sized imp -> allocator junk -> is_u64 initial ->
  proper (SvpWrite o d (s :: l)) -> complete (SvpWrite o d (s :: l)) = true ->
  exists r, lib_call imp junk initial (SvpWrite o d (s :: l)) = Some (r, [SvpWrite o d (repeat s (S (length l)))]).
Proof.
  intros H1 H2 H3 (P1 & P2 & P3 & P4) C.
  destruct (all_reach imp junk initial (SvpWrite o d (repeat s (S (length l)))) H1 H2 H3) as (r & E & _).
  - repeat split; auto; try apply P1.
    + apply Forall_forall. intros x Hx. apply repeat_spec in Hx. subst. now inversion P3.
    + rewrite repeat_length. exact P4.
  - exact C.
  - exists s, (S (length l)). reflexivity.
  - exists r. refine (eq_trans _ E). unfold lib_call.
    assert (G : client junk initial (SvpWrite o d (s :: l)) = client junk initial (SvpWrite o d (repeat s (S (length l))))).
    { destruct d; [reflexivity|]. cbn [client repeat hd]. unfold refuse_if. destruct (zlen b =? 0); [reflexivity|].
      assert (X : map (fun _ => span_bytes s) (s :: l) = map (fun _ => span_bytes s) (s :: repeat s (length l))).
      { cbn [map]. f_equal. clear. induction l; cbn [map repeat length]; congruence. }
      rewrite X. reflexivity. }
    rewrite G. reflexivity.
Qed.

(** ** Requests *)
Definition small (p : param * mem) : Prop := is_u64 (p_size (fst p)).
Definition fine (cmd : Z) (p0 p1 p2 p3 : param * mem) : Prop :=
  forall c, snd p0 = MBytes c -> sound cmd (params_of [fst p0; fst p1; fst p2; fst p3]) c.
Definition request (x : send) : Prop :=
  match x with
  | Refuse _ => True
  | Send cmd ps ms => sized (params_of ps) /\ readable (params_of ps 0%nat) /\
      (forall c, memory_of ms 0%nat = MBytes c -> sound cmd (params_of ps) c)
  end.
Lemma request_to_ta cmd p0 p1 p2 p3 : readable (fst p0) -> small p0 -> small p1 -> small p2 -> small p3 -> fine cmd p0 p1 p2 p3 ->
  request (to_ta cmd p0 p1 p2 p3).
Proof.
  intros R S0 S1 S2 S3 F. unfold request, to_ta. repeat split.
  - destruct i as [|[|[|[|[|i]]]]]; cbn; try apply S0; try apply S1; try apply S2; try apply S3; discriminate.
  - destruct i as [|[|[|[|[|i]]]]]; cbn; try apply S0; try apply S1; try apply S2; try apply S3; reflexivity.
  - apply R.
  - apply R.
  - intros c E. apply F. exact E.
Qed.
Lemma request_if b st k : (b = false -> request k) -> request (refuse_if b st k).
Proof. destruct b; cbn; auto. Qed.
Lemma small_null : small pnull.
Proof. split; reflexivity || discriminate. Qed.
Lemma small_pin b : fits b -> small (pin b).
Proof. intros H. pose proof (zlen_nonneg b). split; assumption. Qed.
Lemma small_popt x : wf_in x -> small (popt x).
Proof. destruct x; [intros; apply small_null|apply small_pin]. Qed.
Lemma small_pout x : wf_out x -> small (pout x).
Proof. destruct x; [intros; apply small_null|]. intros H. exact H. Qed.
Lemma small_len b n : length b = n -> Z.of_nat n < W64 -> small (pin b) /\ small (pinout b).
Proof. intros H Hn. split; (split; cbn; unfold zlen; lia). Qed.
Lemma fits_len b n : length b = n -> Z.of_nat n < W64 -> fits b.
Proof. unfold fits, zlen. lia. Qed.
Lemma fits_skipn b n : fits b -> fits (skipn n b).
Proof. unfold fits, zlen. rewrite skipn_length. lia. Qed.
Lemma readable_pinout b : readable (fst (pinout b)).
Proof. split; [reflexivity|]. cbn. unfold TA_PARAM_INOUT. auto. Qed.
Lemma readable_pin b : readable (fst (pin b)).
Proof. split; [reflexivity|]. cbn. unfold TA_PARAM_IN. auto. Qed.

Lemma small_pin_len b n : length b = n -> Z.of_nat n < W64 -> small (pin b).
Proof. intros H H2. exact (proj1 (small_len b n H H2)). Qed.
Lemma small_pinout_len b n : length b = n -> Z.of_nat n < W64 -> small (pinout b).
Proof. intros H H2. exact (proj2 (small_len b n H H2)). Qed.

Ltac small_tac :=
  first [ assumption | exact small_null
        | match goal with H : length ?b = ?n |- small (pin ?b) => exact (small_pin_len b n H eq_refl) end
        | match goal with H : length ?b = ?n |- small (pinout ?b) => exact (small_pinout_len b n H eq_refl) end
        | match goal with H : zlen ?b = ?n |- small (pin ?b) => refine (small_pin b _); unfold fits; rewrite H; reflexivity end
        | match goal with |- small (pin (w 8 ?x)) => exact (small_pin_len _ 8 (length_w 8 x) eq_refl) end
        | apply small_pin; first [assumption | apply fits_skipn; assumption]
        | apply small_popt; assumption
        | apply small_pout; assumption
        | apply small_pout; cbn [wf_out]; unfold is_u64 in *; lia
        | split; cbn; unfold is_u64 in *; (lia || reflexivity || discriminate) ].
Ltac req0 := opaque; apply request_to_ta; [first [apply readable_pinout | apply readable_pin] | small_tac | try small_tac | try small_tac | try small_tac | ].
Ltac told := intros ? E; cbv beta iota delta [snd pinout pin] in E; injection E as <-;
  cbv beta iota delta [sound params_of nth p_type p_size p_null fst snd pin pinout pnull popt kdf_size derivation_size].
Ltac plain := req0; intros ? _; exact I.

Section Requests.
Variable junk : nat -> nat -> bytes.
Variable initial : Z.
Hypothesis Hjunk : allocator junk.
Hypothesis Hinit : is_u64 initial.

Lemma request_import format d p : proper (KeyImport format d p) -> request (client junk initial (KeyImport format d p)).
Proof.
  start. split_all. cbn [client]. apply request_if. intros _. destruct p as [|r|r|r curve|kc kh|s]; cbn [import_params]; split_all; subst.
  - destruct ((format =? FORMAT_EXPORTED) || (format =? FORMAT_SOC)).
    + req0. intros ? _. cbn. intros _ [D|D]; discriminate D.
    + destruct ((0 <=? format) && (format <=? 5)); exact I.
  - req0. told. learn. intros; congruence.
  - req0. told. learn. intros; congruence.
  - req0. told. learn. intros; congruence.
  - req0. told. learn. intros; congruence.
  - req0; [unfold small; cbv beta iota delta [fst p_size]; match goal with H : _ + _ = 624 |- _ => rewrite H end; split; reflexivity || discriminate|].
    told. intros; assumption.
Qed.
Lemma request_derive r alg p : proper (KeyDerive r alg p) -> request (client junk initial (KeyDerive r alg p)).
Proof.
  start. split_all. cbn [client]. destruct p; cbn [derive_params]; split_all.
  - apply request_if. intros T. repeat (apply orb_false_elim in T; destruct T as [T ?]).
    repeat match goal with T : negb (zlen ?b =? 16) = false |- _ => apply negb_false_iff, Z.eqb_eq in T end.
    assert (u32 alg) by (destruct H0; subst; split; reflexivity || discriminate).
    req0. told. rewrite (nat_zlen _ _ Hlen). destruct H0; subst alg; learn; reflexivity.
  - apply request_if. intros _. subst. req0. told. rewrite (nat_zlen _ _ Hlen). learn. reflexivity.
  - apply request_if. intros _. subst. req0. told. rewrite (nat_zlen _ _ Hlen). learn. reflexivity.
  - apply request_if. intros _. subst. req0. told. rewrite (nat_zlen _ _ Hlen). learn. reflexivity.
  - apply request_if. intros _. subst. req0. told. rewrite (nat_zlen _ _ Hlen). learn. reflexivity.
  - subst. req0. told. rewrite (nat_zlen _ _ Hlen). learn. reflexivity.
Qed.
Lemma request_unwrap r t c alg p k d : proper (KeyUnwrap r t c alg p k d) -> request (client junk initial (KeyUnwrap r t c alg p k d)).
Proof.
  start. split_all. cbn [client]. apply request_if. intros _. apply request_if. intros _.
  assert (u32 (if t =? EC then match c with Some c => c | None => 0 end else 0)).
  { destruct (t =? EC); [destruct c|]; try assumption; split; reflexivity || discriminate. }
  assert (Go : forall p2 p3, small p2 -> small p3 -> request (to_ta 8 (pinout (cmd_s junk 648 [(8%nat, w 8 initial); (16%nat, r); (624%nat, w 4 t);
    (632%nat, w 4 alg); (640%nat, w 8 k); (628%nat, w 4 (if t =? EC then match c with Some c => c | None => 0 end else 0))])) (popt d) p2 p3)).
  { intros. plain. }
  destruct p as [|iv|counter|iv aad tag|counter nonce|nonce aad tag|params|dg mg label]; cbn [unwrap_params]; split_all.
  - destruct ((alg =? 0) || (alg =? 1) || (alg =? 6)); [apply Go; small_tac|]. destruct ((2 <=? alg) && (alg <=? 10)); exact I.
  - destruct iv; [exact I|]. apply request_if. intros T. apply negb_false_iff, Z.eqb_eq in T. apply Go; [|small_tac].
    eapply small_pin_len; [eapply (par_facts junk Hjunk 16); [shapes|reflexivity]|reflexivity].
  - destruct counter; [exact I|]. apply request_if. intros T. apply negb_false_iff, Z.eqb_eq in T. apply Go; [|small_tac].
    eapply small_pin_len; [eapply (par_facts junk Hjunk 16); [shapes|reflexivity]|reflexivity].
  - destruct iv; [exact I|]. destruct tag; [exact I|]. apply request_if. intros T. apply negb_false_iff, Z.eqb_eq in T.
    apply request_if. intros T2. apply request_if. intros _. apply Go; [|small_tac].
    rewrite T. destruct (tagged_facts junk Hjunk b b0 _ T eq_refl ltac:(lia)) as [X _]. small_tac.
  - destruct counter; [exact I|]. destruct nonce; [exact I|]. apply request_if. intros T. apply negb_false_iff, Z.eqb_eq in T.
    apply request_if. intros T2. apply negb_false_iff, Z.eqb_eq in T2. apply Go; [|small_tac].
    eapply small_pin_len; [eapply (par_facts junk Hjunk 40); [shapes|reflexivity]|reflexivity].
  - destruct nonce; [exact I|]. destruct tag; [exact I|]. apply request_if. intros T. apply negb_false_iff, Z.eqb_eq in T.
    apply request_if. intros T2. apply negb_false_iff, Z.eqb_eq in T2. apply request_if. intros _. apply Go; [|small_tac].
    eapply small_pin_len; [eapply (par_facts junk Hjunk 48); [shapes|reflexivity]|reflexivity].
  - destruct params; [exact I|]. apply Go; [|small_tac]. rewrite (elgamal_struct junk Hjunk) by assumption. small_tac.
  - apply request_if. intros _. apply Go; [|small_tac].
    eapply small_pin_len; [eapply (par_facts junk Hjunk 8); [shapes|reflexivity]|reflexivity].
Qed.
Lemma request_init alg mode k p : proper (CipherInit alg mode k p) -> request (client junk initial (CipherInit alg mode k p)).
Proof.
  start. split_all. cbn [client].
  assert (Go : forall p2 p3, small p2 -> small p3 -> request (to_ta 16 (pinout (cmd_s junk 32 [(8%nat, w 8 initial); (16%nat, w 4 alg); (20%nat, w 4 mode);
    (24%nat, w 8 k)])) p2 p3 pnull)).
  { intros. plain. }
  destruct p as [|iv|counter|iv aad|nonce counter|nonce aad|dg mg label]; cbn [cipher_params]; split_all.
  - destruct ((alg =? 0) || (alg =? 1) || (alg =? 6) || (alg =? 8)); [apply Go; small_tac|]. destruct ((2 <=? alg) && (alg <=? 10)); exact I.
  - destruct iv; [exact I|]. apply Go; small_tac.
  - destruct counter; [exact I|]. apply Go; small_tac.
  - destruct iv; [exact I|]. apply request_if. intros _. apply Go; small_tac.
  - destruct nonce; [exact I|]. destruct counter; [exact I|]. apply Go; small_tac.
  - destruct nonce; [exact I|]. apply request_if. intros _. apply Go; small_tac.
  - apply request_if. intros _. apply Go; [|small_tac].
    eapply small_pin_len; [eapply (par_facts junk Hjunk 8); [shapes|reflexivity]|reflexivity].
Qed.

(** Buffers of the application: clear memory of the right kind, or a handle. *)
Definition fits_in (ty : Z) (p : param * mem) : Prop := small p /\ (ty = 0 \/ 8 <= p_size (fst p)).
Definition fits_out (ty : Z) (p : param * mem) : Prop :=
  small p /\ (if ty =? 0 then writable (fst p) else svp_handle_fits (fst p)).
Lemma request_in x k : wf_buf wf_in x -> (forall ty off p, u32 ty -> is_u64 off -> fits_in ty p -> request (k ty off p)) -> request (in_buf x k).
Proof.
  destruct x as [[n|b] off|ty h off]; cbn [in_buf wf_buf wf_in].
  - intros; exact I.
  - intros [F U] K. apply request_if. intros _. apply K; [split; reflexivity || discriminate|split; reflexivity || discriminate|].
    split; [small_tac|auto].
  - intros (U & N & A & B) K. apply K; auto. split; [small_tac|]. right. change (8 <= zlen (w 8 h)). unfold zlen. rewrite length_w. discriminate.
Qed.
Lemma request_out x k : wf_buf wf_out x -> (forall ty off p, u32 ty -> is_u64 off -> fits_out ty p -> request (k ty off p)) -> request (out_buf x k).
Proof.
  destruct x as [[n|id o len] off|ty h off]; cbn [out_buf wf_buf wf_out].
  - intros; exact I.
  - intros [F U] K. apply request_if. intros T. apply K; [split; reflexivity || discriminate|split; reflexivity || discriminate|].
    split; [small_tac|]. split; cbn; auto.
  - intros (U & N & A & B) K. apply K; auto. split; [small_tac|]. rewrite (proj2 (Z.eqb_neq ty 0) N).
    split; [apply readable_pin|]. change (8 <= zlen (w 8 h)). unfold zlen. rewrite length_w. discriminate.
Qed.
Lemma request_process o c i n : proper (CipherProcess o c i n) -> request (client junk initial (CipherProcess o c i n)).
Proof.
  start. split_all. cbn [client]. cbv zeta.
  assert (Go : forall ot oo p1, u32 ot -> is_u64 oo -> small p1 ->
    (if ot =? 0 then p_null (fst p1) = true \/ writable (fst p1) else svp_handle_fits (fst p1)) ->
    request (in_buf i (fun it io p2 => to_ta 18 (pinout (cmd_s junk 56 [(8%nat, w 8 c); (16%nat, w 8 n); (24%nat, w 4 ot); (40%nat, w 4 it); (32%nat, w 8 oo); (48%nat, w 8 io)]))
            p1 p2 pnull))).
  { intros ot oo p1 U1 U2 S1 W. apply request_in; [assumption|]. intros it io p2 U3 U4 [S2 F2]. req0.
    told. learn. split; [exact W|exact F2]. }
  destruct o as [o|].
  - apply request_out; [assumption|]. intros ot oo p1 U1 U2 [S1 W]. apply Go; auto. destruct (ot =? 0); auto.
  - apply Go; [split; reflexivity || discriminate|split; reflexivity || discriminate|small_tac|left; reflexivity].
Qed.
Lemma request_process_last o c i n t : proper (CipherProcessLast o c i n t) -> request (client junk initial (CipherProcessLast o c i n t)).
Proof.
  start. split_all. cbn [client]. cbv zeta.
  assert (Go : forall ot oo p1, u32 ot -> is_u64 oo -> small p1 ->
    (if ot =? 0 then p_null (fst p1) = true \/ writable (fst p1) else svp_handle_fits (fst p1)) ->
    request (in_buf i (fun it io p2 =>
      match t with
      | None => to_ta 19 (pinout (cmd_s junk 56 [(8%nat, w 8 c); (16%nat, w 8 n); (24%nat, w 4 ot); (40%nat, w 4 it); (32%nat, w 8 oo); (48%nat, w 8 io)])) p1 p2 pnull
      | Some (OutNull _) => Refuse NULL_PARAMETER
      | Some (Out id off len) => to_ta 19 (pinout (cmd_s junk 56 [(8%nat, w 8 c); (16%nat, w 8 n); (24%nat, w 4 ot); (40%nat, w 4 it); (32%nat, w 8 oo); (48%nat, w 8 io)])) p1 p2 (MkParam TA_PARAM_INOUT false len, MOut id off)
      end))).
  { intros ot oo p1 U1 U2 S1 W. apply request_in; [assumption|]. intros it io p2 U3 U4 [S2 F2].
    destruct t as [[|id off len]|]; [exact I| |]; req0.
    - told. learn. split; [exact W|exact F2].
    - told. learn. split; [exact W|exact F2]. }
  destruct o as [o|].
  - apply request_out; [assumption|]. intros ot oo p1 U1 U2 [S1 W]. apply Go; auto. destruct (ot =? 0); auto.
  - apply Go; [split; reflexivity || discriminate|split; reflexivity || discriminate|small_tac|left; reflexivity].
Qed.
Lemma request_key_check k i n e : proper (SvpKeyCheck k i n e) -> request (client junk initial (SvpKeyCheck k i n e)).
Proof.
  start. split_all. cbn [client]. cbv zeta. destruct e as [|e]; [exact I|]. destruct i as [[m|b] off|ty h off]; cbn [wf_buf] in *; [exact I| |]; split_all.
  - assert (u32 CLEAR) by (split; reflexivity || discriminate). req0. told. auto.
  - req0. told. right. unfold zlen. rewrite length_w. discriminate.
Qed.
Lemma request_cenc s : proper (CommonEncryption s) -> request (client junk initial (CommonEncryption s)).
Proof.
  start. split_all. cbn [client]. apply request_if. intros T. apply negb_false_iff, Z.eqb_eq in T.
  assert (is_u64 (Z.of_nat (length (sm_lengths s)))) by (unfold is_u64; lia).
  apply request_out; [assumption|]. intros ot oo p2 U1 U2 [S2 W]. apply request_in; [assumption|]. intros it io p3 U3 U4 [S3 F3].
  req0.
  - split; cbn; rewrite zlen_pairs; lia.
  - told. learn. change (2 ^ 64) with W64. auto.
Qed.

Lemma client_request a : proper a -> request (client junk initial a).
Proof.
  destruct a; intros P; auto using request_import, request_derive, request_unwrap, request_init, request_process, request_process_last,
    request_key_check, request_cenc; revert P; start; split_all; cbn [client]; try (plain; fail).
  all: try (apply request_if; intros _; try (apply request_if; intros _); plain; fail).
  all: try (match goal with |- context [match ?p with GenNone => _ | _ => _ end] => destruct p; split_all end;
    repeat match goal with x : inb |- _ => destruct x end; try exact I; plain; fail).
  all: try (match goal with |- context [match ?p with InNull _ => _ | _ => _ end] => destruct p end; [exact I|plain]; fail).
  all: try (match goal with |- context [match ?p with OutNull _ => _ | _ => _ end] => destruct p end; [exact I|plain]; fail).
  - destruct other; [exact I|]. destruct p; split_all; [destruct (alg =? EXCHANGE_NETFLIX); [exact I|plain]|plain].
  - req0. told. reflexivity.
  - destruct (alg =? HMAC); [|plain]. destruct digest; [|exact I]. cbn [opt] in *. plain.
  - apply request_if. intros _. assert (is_u64 (out_len out)) by (destruct out; assumption).
    destruct p as [|dg mg pre salt|dg pre|dg pre]; split_all.
    + destruct ((alg =? RSA_PSS) || (alg =? RSA_PKCS1V15) || (alg =? ECDSA)); [exact I|plain].
    + plain.
    + plain.
    + plain.
  - destruct data; [exact I|]. apply request_if. intros _. req0.
    + split; cbv beta iota delta [fst p_size pin]; unfold zlen;
        replace (length (concat (map (fun _ => span_bytes (hd (MkSpan 0 0 0) offsets)) offsets))) with (24 * length offsets)%nat; try lia;
        generalize (hd (MkSpan 0 0 0) offsets); clear; induction offsets; intros; cbn [map concat length]; auto;
        rewrite app_length, <- IHoffsets; unfold span_bytes; rewrite !app_length, !length_w; lia.
    + intros ? _; exact I.
  - req0; [|intros ? _; exact I]. split; cbv beta iota delta [fst p_size pin]; rewrite zlen_spans; lia.
Qed.
End Requests.

(** A request of the library whose structure nobody changes: only allowed steps. *)
Lemma library_allowed junk initial a cmd ps ms l : allocator junk -> is_u64 initial -> proper a ->
  client junk initial a = Send cmd ps ms -> runs (handler (params_of ps) cmd) l ->
  (forall c, command l = Some c -> memory_of ms 0 = MBytes c) -> Forall (allowed (params_of ps)) l.
Proof.
  intros Hj Hi P E R C. pose proof (client_request junk initial Hj Hi a P) as Q. rewrite E in Q. destruct Q as (Q1 & Q2 & Q3).
  eapply handler_allowed; eauto.
Qed.

Lemma write_not_reached : exists a, proper a /\ complete a = true /\
  forall implementation junk initial, word_sized implementation -> allocator junk -> is_u64 initial ->
  ~ reaches implementation junk initial a.
Proof.
  exists (SvpWrite 1 (In [7; 8]) [MkSpan 0 0 1; MkSpan 1 1 1]).
  assert (P : proper (SvpWrite 1 (In [7; 8]) [MkSpan 0 0 1; MkSpan 1 1 1])).
  { cbn [proper]. split; [split; discriminate || reflexivity|]. split; [reflexivity|]. split; [|reflexivity].
    repeat constructor; discriminate. }
  split; [exact P|]. split; [reflexivity|]. intros imp junk initial H1 H2 H3 (r & E & _).
  destruct (write_repeats imp junk initial _ _ _ _ H1 H2 H3 P eq_refl) as (r' & E'). rewrite E in E'. discriminate E'.
Qed.
Lemma unwrap_without_aad implementation junk initial rights key data iv tag alg :
  allocator junk -> is_u64 initial ->
  proper (KeyUnwrap rights 0 None alg (UnwGcm (In iv) (InNull 0) (In tag)) key (In data)) ->
  refused implementation junk initial (KeyUnwrap rights 0 None alg (UnwGcm (In iv) (InNull 0) (In tag)) key (In data)).
Proof. intros H1 H2 P. apply all_refused; auto. cbn [complete given]. rewrite !andb_false_r. reflexivity. Qed.

(** A run of a request that reads what the library wrote. *)
Definition garbage_165 (k n : nat) : bytes := repeat 165 n.
Lemma library_run : exists l c ps ms, client garbage_165 0 (KeyRelease 3) = Send 12 ps ms /\
  runs (handler (params_of ps) 12) l /\ command l = Some c /\ memory_of ms 0 = MBytes c /\ List.In (EInvoke (KeyRelease 3)) l.
Proof.
  set (c := [1; 165; 165; 165; 165; 165; 165; 165; 3; 0; 0; 0; 0; 0; 0; 0]).
  exists [EFetch 0 0 c; EFill 16 16; ECast 16 16; EInvoke (KeyRelease 3)], c. do 2 eexists. split; [reflexivity|].
  split; [|split; [reflexivity|split; [reflexivity|cbn; auto]]].
  eapply RunAlloc with (ok := true). eapply RunFetch with (b := c); [reflexivity| |].
  { repeat constructor; discriminate. }
  eapply RunFill. eapply RunCast. eapply RunInvoke with (r := MkReply OK [] []). apply RunStop.
Qed.
