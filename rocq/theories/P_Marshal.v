(** Proofs for S_Marshal. *)
From Verif Require Import Base M_KeyStore P_KeyStore M_Marshal S_Marshal.

Section Wp.
Variable ps : nat -> param.

Fixpoint wp {A} (p : prog A) (Q : A -> Prop) : Prop :=
  match p with
  | Done a => Q a
  | Fetch i off n k =>
      0 <= n /\ readable (ps i) /\ within (ps i) off n /\ (forall b, zlen b = n -> Forall byte_ok b -> wp (k b) Q)
  | Store i off b k => writable (ps i) /\ within (ps i) off (zlen b) /\ wp k Q
  | Fill cap n k => n <= cap /\ wp k Q
  | Cast have need k => need <= have /\ wp k Q
  | Garbage n k => False
  | Alloc n k => forall ok, wp (k ok) Q
  | Invoke f k => call_ok ps f /\ (forall r, wp (k r) Q)
  end.

Lemma wp_bind {A B} (p : prog A) (f : A -> prog B) (R : B -> Prop) :
  wp p (fun a => wp (f a) R) -> wp (bind p f) R.
Proof. induction p; cbn [wp bind]; firstorder. Qed.

Lemma wp_runs {A} (p : prog A) Q l : wp p Q -> runs p l -> Forall (allowed ps) l.
Proof.
  intros Hw Hr. induction Hr; cbn [wp] in Hw.
  - constructor.
  - destruct Hw as (Hn & Hrd & Hin & Hk). rewrite Z.max_r in H by lia.
    constructor; [|apply IHHr; auto]. cbn. rewrite H. auto.
  - destruct Hw as (? & ? & ?). constructor; cbn; auto.
  - destruct Hw. constructor; cbn; auto.
  - destruct Hw. constructor; cbn; auto.
  - contradiction.
  - apply IHHr. apply Hw.
  - destruct Hw. constructor; cbn; auto.
Qed.
End Wp.

Lemma zlen_set c off b : Z.of_nat off + zlen b <= zlen c -> zlen (set c off b) = zlen c.
Proof. unfold zlen, set. intros H. rewrite !app_length, firstn_length, skipn_length. lia. Qed.
Lemma zlen_le_bytes n x : zlen (le_bytes n x) = Z.of_nat n.
Proof. unfold zlen. f_equal. revert x. induction n; intros x; cbn; [reflexivity|]. rewrite IHn. reflexivity. Qed.
Lemma zlen_set8 c off x : Z.of_nat off + 8 <= zlen c -> zlen (set8 c off x) = zlen c.
Proof. intros H. apply zlen_set. rewrite zlen_le_bytes. lia. Qed.
Lemma zlen_fixed n b : zlen (fixed n b) = Z.of_nat n.
Proof. unfold zlen, fixed. rewrite firstn_length, app_length, repeat_length. lia. Qed.
Lemma zlen_field c off n : Z.of_nat off + Z.of_nat n <= zlen c -> zlen (field c off n) = Z.of_nat n.
Proof. unfold zlen, field. intros H. rewrite firstn_length, skipn_length. lia. Qed.


Section Commands.
Variable ps : nat -> param.
Hypothesis Hps : sized ps.
Variable c : bytes.
Hypothesis Hc : zlen c = p_size (ps 0%nat).
Hypothesis Hb : Forall byte_ok c.

Definition same (d : done) : Prop := zlen (snd d) = zlen c.

Lemma u64_size i : 0 <= p_size (ps i) < W64.
Proof. apply Hps. Qed.

Ltac facts :=
  repeat match goal with
  | H : (_ || _) = false |- _ => apply orb_false_iff in H; destruct H
  | H : negb _ = false |- _ => apply negb_false_iff in H
  | H : negb _ = true |- _ => apply negb_true_iff in H
  | H : (_ =? _) = true |- _ => apply Z.eqb_eq in H
  | H : (_ =? _) = false |- _ => apply Z.eqb_neq in H
  end; unfold size in *.

Lemma r_in i : is_in (T ps i) = true -> null ps i = false -> readable (ps i).
Proof. unfold is_in, T, null, readable. rewrite orb_true_iff, !Z.eqb_eq. tauto. Qed.
Lemma r_in' i : is_in (T ps i) = true -> null ps i = true \/ readable (ps i).
Proof. destruct (null ps i) eqn:E; auto using r_in. Qed.
Lemma r_opt i : bad_opt_in ps i = false -> null ps i = false -> readable (ps i).
Proof.
  unfold bad_opt_in, not_null. intros H E. rewrite E in H. cbn in H. rewrite orb_true_r in H. cbn in H.
  rewrite andb_true_r in H. apply negb_false_iff in H. now apply r_in.
Qed.
Lemma r_opt' i : bad_opt_in ps i = false -> null ps i = true \/ readable (ps i).
Proof. destruct (null ps i) eqn:E; auto using r_opt. Qed.
Lemma w_out i : is_out (T ps i) = true -> null ps i = false -> writable (ps i).
Proof. unfold is_out, T, null, writable. rewrite orb_true_iff, !Z.eqb_eq. tauto. Qed.
Lemma w_out' i : is_out (T ps i) = true -> null ps i = true \/ writable (ps i).
Proof. destruct (null ps i) eqn:E; auto using w_out. Qed.
Lemma w_opt i : negb (is_out (T ps i)) && not_null ps i = false -> null ps i = false -> writable (ps i).
Proof.
  unfold not_null. intros H E. rewrite E in H. cbn in H. rewrite orb_true_r in H. cbn in H.
  rewrite andb_true_r in H. apply negb_false_iff in H. now apply w_out.
Qed.
Lemma rw_opt i : negb (is_inout (T ps i)) && not_null ps i = false -> null ps i = false ->
  readable (ps i) /\ writable (ps i).
Proof.
  unfold not_null. intros H E. rewrite E in H. cbn in H. rewrite orb_true_r in H. cbn in H.
  rewrite andb_true_r in H. apply negb_false_iff in H. unfold is_inout, T, null, readable, writable in *.
  rewrite orb_true_iff, !Z.eqb_eq in H. tauto.
Qed.
Lemma w_none i : not_null ps i = false -> null ps i = true.
Proof. unfold not_null. destruct (null ps i); auto. rewrite orb_true_r. discriminate. Qed.

Lemma wp_guard bad st k : (bad = false -> wp ps k same) -> wp ps (guard bad st c k) same.
Proof. intros H. unfold guard. destruct bad; [reflexivity|auto]. Qed.

Lemma wp_copy_in i cap k :
  readable (ps i) -> p_size (ps i) = cap ->
  (forall b, zlen b = cap -> Forall byte_ok b -> wp ps (k b) same) -> wp ps (copy_in ps i cap k) same.
Proof.
  intros Hr Hs Hk. unfold copy_in, size. cbn [wp]. pose proof (u64_size i).
  split; [lia|]. split; [exact Hr|]. split; [unfold within; lia|]. intros b Hl Hbb. split; [lia|].
  rewrite Hs, Z.ltb_irrefl. apply Hk; [lia|exact Hbb].
Qed.

Lemma at_in i : (null ps i = true \/ readable (ps i)) -> in_ok ps (at_ ps i).
Proof.
  intros H. unfold at_, at_len, in_ok, null in *. cbn. pose proof (u64_size i).
  destruct (p_null (ps i)); [exact I|]. destruct H as [H|H]; [discriminate|]. split; auto. unfold within, size. lia.
Qed.
Lemma at_out i : (null ps i = true \/ writable (ps i)) -> out_ok ps (at_ ps i).
Proof.
  intros H. unfold at_, at_len, out_ok, null in *. cbn. pose proof (u64_size i).
  destruct (p_null (ps i)); [exact I|]. destruct H as [H|H]; [discriminate|]. split; auto. unfold within, size. lia.
Qed.
Lemma at_len_out i n : (null ps i = true \/ writable (ps i) /\ 0 <= n <= p_size (ps i)) -> out_ok ps (at_len ps i n).
Proof.
  intros H. unfold at_len, out_ok, null in *. cbn.
  destruct (p_null (ps i)); [exact I|]. destruct H as [H|H]; [discriminate|]. split; [apply H|]. unfold within. lia.
Qed.


Lemma own_in b off n : Z.of_nat off + Z.of_nat n <= zlen b -> in_ok ps (own (field b off n) (Z.of_nat n)).
Proof. intros H. unfold in_ok, own. cbn. rewrite zlen_field by exact H. lia. Qed.
Lemma with_out_wp n extra k :
  (zlen c = n -> extra = false -> not_null ps 3 = false -> out_ok ps (at_len ps 1 (w8 c 8)) -> wp ps k same) ->
  wp ps (with_out ps n extra c k) same.
Proof.
  intros Hk. unfold with_out. apply wp_guard. intros H. facts. cbn [wp]. split; [lia|].
  apply wp_guard. intros H'. apply wp_guard. intros _. apply Hk; try assumption; [lia|].
  apply at_len_out. destruct (null ps 1) eqn:E; [now left|right]. split; [now apply w_opt|].
  unfold not_null in H'. rewrite E in H'. cbn [negb] in H'. rewrite orb_true_r in H'. cbn [orb andb] in H'. facts.
  pose proof (u64_size 1). lia.
Qed.
Lemma run_out_wp f :
  16 <= zlen c -> (forall o, out_ok ps o -> call_ok ps (f o)) -> out_ok ps (at_len ps 1 (w8 c 8)) ->
  wp ps (run_out ps c f) same.
Proof.
  intros Hl Hf Ho. unfold run_out. cbn [wp]. split; [auto|]. intros r. unfold same. cbn [snd].
  rewrite zlen_set8; lia.
Qed.
Lemma offsets_wp i k :
  readable (ps i) -> (forall l, wp ps (k l) same) -> wp ps (offsets_in ps i c k) same.
Proof.
  intros Hr Hk. unfold offsets_in, size. cbn [wp]. intros [|]; [|reflexivity]. cbn [wp].
  pose proof (u64_size i). split; [lia|]. split; [exact Hr|]. split; [unfold within; lia|].
  intros b _ _. split; [lia|]. apply Hk.
Qed.
Lemma buffer_in_wp ty i off k :
  readable (ps i) -> (ty = 0 \/ 8 <= p_size (ps i)) ->
  (forall b, Forall (in_ok ps) (abuf_refs b) -> wp ps (k b) same) -> wp ps (buffer ps ty i off k) same.
Proof.
  intros Hr Hs Hk. unfold buffer. destruct (ty =? CLEAR) eqn:E.
  - apply Hk. cbn. repeat constructor. apply at_in. now right.
  - apply Z.eqb_neq in E. cbn [wp]. split; [lia|]. split; [exact Hr|].
    split; [unfold within, CLEAR in *; lia|]. intros b _ _. apply Hk. constructor.
Qed.
Lemma buffer_out_wp ty i off k :
  (if ty =? 0 then p_null (ps i) = true \/ writable (ps i) else svp_handle_fits (ps i)) ->
  (forall b, Forall (out_ok ps) (abuf_refs b) -> wp ps (k b) same) -> wp ps (buffer ps ty i off k) same.
Proof.
  intros Hs Hk. unfold buffer, CLEAR. destruct (ty =? 0).
  - apply Hk. cbn. repeat constructor. apply at_out. exact Hs.
  - destruct Hs as [Hr Hl]. cbn [wp]. split; [lia|]. split; [exact Hr|].
    split; [unfold within; lia|]. intros b _ _. apply Hk. constructor.
Qed.

Ltac access := facts; solve [ eauto using r_in, r_in', r_opt, r_opt', w_out, w_out', w_opt, w_none
  | match goal with H : null _ _ = true |- _ => left; exact H end ].
Ltac lens := unfold same; cbn [snd]; facts; repeat (rewrite zlen_set8 || rewrite zlen_set || rewrite zlen_fixed);
  lia.
Ltac rights_call :=
  unfold call_ok; cbn [ins outs claimed abuf_refs opt_refs sm_in sm_out app];
  split; [|split]; repeat (apply Forall_cons || apply Forall_nil);
  first [ exact I | apply at_in; access | apply at_out; access | apply own_in; lia | idtac ].
Ltac step :=
  match goal with
  | |- wp _ (guard _ _ _ _) _ => apply wp_guard; intro
  | |- wp _ (copy_in _ _ _ _) _ => apply wp_copy_in; [try access|try (facts; lia)|intros ? ? ?]
  | |- wp _ (Cast _ _ _) _ => cbn [wp]; split; [try (facts; lia)|]
  | |- wp _ (Invoke _ _) _ => cbn [wp]; split; [try rights_call|intros ?]
  | |- wp _ (if ?b then _ else _) _ => destruct b eqn:?
  | |- wp _ (Done _) _ => cbn [wp]
  | |- same _ => lens
  | |- wp _ (let _ := _ in _) _ => cbv zeta
  end.


Ltac out_call := intros; apply with_out_wp; intros; apply run_out_wp; [lia| |assumption]; intros; rights_call; auto.

Definition simple (p : bytes -> prog done) : Prop := wp ps (p c) same.

Lemma wp_version : simple (get_version ps).
Proof. unfold simple, get_version, only_struct. repeat step. Qed.
Lemma wp_name : simple (get_name ps).
Proof. unfold simple, get_name. out_call. Qed.
Lemma wp_device : simple (get_device_id ps).
Proof. unfold simple, get_device_id, only_struct. repeat step. Qed.
Lemma wp_uuid : simple (get_ta_uuid ps).
Proof. unfold simple, get_ta_uuid, only_struct. repeat step. Qed.
Lemma wp_generate : simple (key_generate ps).
Proof. unfold simple, key_generate, run_key. repeat step. Qed.
Lemma wp_export : simple (key_export ps).
Proof. unfold simple, key_export. out_call. Qed.
Lemma wp_import : (w4 c 16 = 4 -> p_type (ps 2%nat) = 5 \/ p_type (ps 2%nat) = 13 -> p_size (ps 2%nat) = 624) ->
  simple (key_import ps).
Proof.
  intros Hs. unfold simple, key_import, run_key, rights_in. repeat step.
  facts. apply Hs; [assumption|]. unfold is_in, T in *. rewrite orb_true_iff, !Z.eqb_eq in *. assumption.
Qed.
Lemma wp_unwrap : simple (key_unwrap ps).
Proof.
  unfold simple, key_unwrap, run_key, exact_in. repeat step; apply (own_in _ 0 16); lia.
Qed.
Lemma wp_public : simple (key_get_public ps).
Proof. unfold simple, key_get_public. out_call. Qed.
Lemma wp_derive : p_size (ps 1%nat) = kdf_size (w4 c 624) -> simple (key_derive ps).
Proof.
  intros Hs. unfold simple, key_derive, run_key. repeat step.
  unfold kdf_of. repeat match goal with |- context [if ?b then _ else _] => destruct b end; cbn; repeat (apply Forall_cons || apply Forall_nil); apply at_in; access.
Qed.
Lemma wp_exchange : simple (key_exchange ps).
Proof.
  unfold simple, key_exchange, run_key, exact_in. repeat step.
  all: facts; match goal with H : negb (is_inout (T ps 2)) && _ = false |- _ =>
         destruct (rw_opt 2 H) as [Hr Hw]; [assumption|] end.
  - exact Hr.
  - split; [exact Hw|]. rewrite !zlen_set8; [|lia|rewrite zlen_set8; lia].
    split; [unfold within; lia|]. lens.
Qed.
Lemma wp_key_release : simple (key_release ps).
Proof. unfold simple, key_release, only_struct. repeat step. Qed.
Lemma wp_header : p_null (ps 1%nat) = false -> simple (key_header ps).
Proof.
  intros Hn. unfold simple, key_header. repeat step. facts. rewrite zlen_fixed.
  split; [now apply w_out|]. split; [unfold within; lia|reflexivity].
Qed.
Lemma wp_digest : simple (key_digest ps).
Proof. unfold simple, key_digest. out_call. Qed.
Lemma wp_random : simple (crypto_random ps).
Proof. unfold simple, crypto_random. repeat step. Qed.
Lemma wp_init : simple (cipher_init ps).
Proof. unfold simple, cipher_init, run_key, exact_in. repeat step. Qed.
Lemma wp_update_iv : simple (cipher_update_iv ps).
Proof. unfold simple, cipher_update_iv. repeat step. Qed.
Lemma wp_process last :
  (if w4 c 24 =? 0 then p_null (ps 1%nat) = true \/ writable (ps 1%nat) else svp_handle_fits (ps 1%nat)) ->
  (w4 c 40 = 0 \/ 8 <= p_size (ps 2%nat)) -> simple (cipher_process ps last).
Proof.
  intros Ho Hi. unfold simple, cipher_process. repeat step.
  apply buffer_out_wp; [exact Ho|]. intros o Hoo. apply buffer_in_wp; [access|exact Hi|]. intros b Hbb.
  cbn [wp]. split.
  - destruct last, (null ps 1) eqn:E1, (null ps 3) eqn:E3; unfold call_ok; cbn [ins outs claimed opt_refs app];
      (split; [exact Hbb|split; [|constructor]]); rewrite ?app_nil_r; try assumption; try constructor; try constructor;
      try (apply Forall_app; split; [assumption|constructor; [|constructor]]);
      apply at_out; right; facts; eapply rw_opt; eassumption.
  - intros r. unfold same. cbn [snd]. facts. destruct (null ps 1); repeat rewrite zlen_set8; lia.
Qed.
Lemma wp_cipher_release : simple (cipher_release ps).
Proof. unfold simple, cipher_release, only_struct. repeat step. Qed.
Lemma wp_mac_init : simple (mac_init ps).
Proof. unfold simple, mac_init, only_struct, run_key. repeat step. Qed.
Lemma wp_mac_process : simple (mac_process ps).
Proof. unfold simple, mac_process. repeat step. Qed.
Lemma wp_mac_process_key : simple (mac_process_key ps).
Proof. unfold simple, mac_process_key, only_struct. repeat step. Qed.
Lemma wp_mac_compute : simple (mac_compute ps).
Proof. unfold simple, mac_compute. out_call. Qed.
Lemma wp_mac_release : simple (mac_release ps).
Proof. unfold simple, mac_release, only_struct. repeat step. Qed.
Lemma wp_sign : simple (crypto_sign ps).
Proof. unfold simple, crypto_sign. cbv zeta. out_call. Qed.
Lemma wp_supported : simple (svp_supported ps).
Proof. unfold simple, svp_supported, only_struct. repeat step. Qed.
Lemma wp_create : simple (svp_create ps).
Proof. unfold simple, svp_create, only_struct, run_key. repeat step. Qed.
Lemma wp_svp_release : simple (svp_release ps).
Proof. unfold simple, svp_release, only_struct. repeat step. Qed.
Lemma wp_write : simple (svp_write ps).
Proof. unfold simple, svp_write. repeat step. apply offsets_wp; [access|]. intros l. repeat step. Qed.
Lemma wp_copy : simple (svp_copy ps).
Proof. unfold simple, svp_copy. repeat step. apply offsets_wp; [access|]. intros l. repeat step. Qed.
Lemma wp_key_check : (w4 c 16 = 0 \/ 8 <= p_size (ps 1%nat)) -> simple (svp_key_check ps).
Proof.
  intros Hi. unfold simple, svp_key_check. repeat step. apply buffer_in_wp; [access|exact Hi|]. intros b Hbb.
  repeat step. assumption.
Qed.
Lemma wp_buffer_check : simple (svp_buffer_check ps).
Proof. unfold simple, svp_buffer_check. repeat step. Qed.
Lemma wp_cenc :
  16 * w8 c 40 < 2 ^ 64 ->
  (if w4 c 56 =? 0 then writable (ps 2%nat) else svp_handle_fits (ps 2%nat)) ->
  (w4 c 72 = 0 \/ 8 <= p_size (ps 3%nat)) -> simple (common_encryption ps).
Proof.
  intros Hn Ho Hi. unfold simple, common_encryption. repeat step.
  assert (0 <= w8 c 40) by (apply le_num_bound, field_bytes, Hb).
  assert (Hw : wrap64 (16 * w8 c 40) = 16 * w8 c 40).
  { unfold wrap64. apply Z.mod_small. unfold W64. lia. }
  cbn [wp]. intros [|]; [|reflexivity]. cbn [negb wp]. rewrite Hw in *. facts.
  split; [lia|]. split; [access|]. split; [unfold within; lia|]. intros b _ _. split; [lia|].
  apply buffer_out_wp; [destruct (w4 c 56 =? 0); auto|]. intros o Hoo.
  apply buffer_in_wp; [access|exact Hi|]. intros bi Hbi.
  cbn [wp]. split; [unfold call_ok; cbn [ins outs claimed sm_in sm_out]; auto|]. intros r. lens.
Qed.


Lemma wp_dispatch cmd : sound cmd ps c -> wp ps (dispatch ps cmd c) same.
Proof.
  intros Hs.
  destruct cmd as [|p|p]; try reflexivity.
  do 6 (try (destruct p as [p|p|]; try reflexivity)); cbn [sound] in Hs; cbn [dispatch];
  first [ exact wp_version | exact wp_name | exact wp_device | exact wp_uuid | exact wp_generate | exact wp_export
        | exact wp_unwrap | exact wp_public | exact wp_exchange | exact wp_key_release | exact wp_digest
        | exact wp_random | exact wp_init | exact wp_update_iv | exact wp_cipher_release | exact wp_mac_init
        | exact wp_mac_process | exact wp_mac_process_key | exact wp_mac_compute | exact wp_mac_release
        | exact wp_sign | exact wp_supported | exact wp_create | exact wp_svp_release | exact wp_write | exact wp_copy
        | exact wp_buffer_check | exact (wp_import Hs) | exact (wp_derive Hs) | exact (wp_header Hs)
        | exact (wp_process _ (proj1 Hs) (proj2 Hs)) | exact (wp_key_check Hs)
        | exact (wp_cenc (proj1 Hs) (proj1 (proj2 Hs)) (proj2 (proj2 Hs))) | contradiction | idtac ].
Qed.
End Commands.

Lemma handler_allowed cmd ps l :
  sized ps -> (is_null ps 0 = true \/ readable (ps 0%nat)) ->
  runs (handler ps cmd) l -> (forall c, command l = Some c -> sound cmd ps c) -> Forall (allowed ps) l.
Proof.
  intros Hps H0 Hr Hs. unfold handler in Hr. destruct (is_null ps 0) eqn:E.
  { inversion Hr; constructor. }
  destruct H0 as [H0|H0]; [discriminate|].
  inversion Hr as [| | | | | |? ? ok ? Hk E1 E2|]; subst; [constructor|]. destruct ok; cbn [negb] in Hk; [|inversion Hk; constructor].
  inversion Hk as [|? ? ? ? b ? Hl Hbb Hk'| | | | | |]; subst; [constructor|].
  pose proof (Hps 0%nat) as Hu. unfold is_u64, size in *. rewrite Z.max_r in Hl by lia.
  constructor.
  { cbn. split; [exact H0|]. unfold within. lia. }
  eapply wp_runs with (Q := fun _ => True); [|exact Hk'].
  cbn [wp]. split; [lia|]. apply wp_bind.
  assert (Hd : wp ps (dispatch ps cmd b) (same b)).
  { apply wp_dispatch; auto. }
  clear - Hd Hl Hu H0.
  assert (Hmono : forall (p : prog done) (P Q : done -> Prop), (forall d, P d -> Q d) -> wp ps p P -> wp ps p Q).
  { clear. intros p P Q HPQ. induction p; cbn [wp]; firstorder. }
  eapply Hmono; [|exact Hd]. intros [st c'] Hsame. unfold same in Hsame. cbn [snd] in Hsame.
  destruct (is_inout (T ps 0)) eqn:Ei; [|exact I]. cbn [wp]. split; [|split; [unfold within; lia|exact I]].
  unfold writable, readable, is_inout, T in *. apply orb_true_iff in Ei. rewrite !Z.eqb_eq in Ei. tauto.
Qed.
