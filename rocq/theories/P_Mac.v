(** Proofs about MAC contexts. *)
From Verif Require Import Base M_Rights M_Mac S_Mac.

Lemma put_exact buf b : (length b <= length buf)%nat -> put buf b = Some (b ++ skipn (length b) buf).
Proof. intros H. unfold put. now rewrite (proj2 (Nat.leb_le _ _) H). Qed.

Lemma hash_length L d m : good_lib L -> 0 <= d <= 3 -> Z.of_nat (length (l_hash L d m)) = digest_length d.
Proof.
  intros (G0&G1&G2&G3&_) H. assert (C : d = 0 \/ d = 1 \/ d = 2 \/ d = 3) by lia.
  destruct C as [-> |[-> |[-> | ->]]]; cbn; rewrite ?G0, ?G1, ?G2, ?G3; reflexivity.
Qed.
Lemma hmac_length L d k m : good_lib L -> 0 <= d <= 3 -> Z.of_nat (length (l_hmac L d k m)) = digest_length d.
Proof. intros. unfold l_hmac. now apply hash_length. Qed.
Lemma size_digest d : 0 <= d <= 3 -> mac_size 1 d = digest_length d.
Proof.
  intros H. assert (C : d = 0 \/ d = 1 \/ d = 2 \/ d = 3) by lia.
  destruct C as [-> |[-> |[-> | ->]]]; reflexivity.
Qed.
Lemma mac_length L alg d k m : good_lib L -> mac_known alg d ->
  Z.of_nat (length (mac_of L alg d k m)) = mac_size alg d.
Proof.
  intros G [-> |[-> H]]; cbn [mac_of].
  - destruct G as (_&_&_&_&G). rewrite G. reflexivity.
  - rewrite hmac_length by auto. symmetry. now apply size_digest.
Qed.
Lemma known_alg alg d : mac_known alg d -> alg = 0 \/ alg = 1.
Proof. intros [->|[-> _]]; auto. Qed.

(** The state that a history leads to. *)
Record follows (alg d : Z) (key : list Z) (x : mctx) (h : list (mac_call * out)) : Prop := {
  f_alg : x_alg x = alg; f_digest : x_digest x = d; f_key : x_key x = key;
  f_data : x_lost x = false -> x_data x = fed h;
  f_lost : x_lost x = true -> Exists feeding_failed h;
  f_done : x_done x = true <-> Exists finishing h }.

Lemma fed_app h e : fed (h ++ [e]) = fed h ++ accepted e.
Proof. unfold fed. rewrite map_app, concat_app. cbn. now rewrite app_nil_r. Qed.
Lemma exists_app (P : mac_call * out -> Prop) h e : Exists P (h ++ [e]) <-> Exists P h \/ P e.
Proof.
  rewrite Exists_app. split; intros [H|H]; auto.
  - inversion H; subst; auto. inversion H1.
Qed.

Lemma final_ok L alg d x a : good_lib L -> mac_known alg d -> x_alg x = alg -> x_digest x = d ->
  zlen (la_junk a) = mac_size alg d ->
  match lib_final L x a with
  | Some m => zlen m = mac_size alg d /\ (x_lost x = false -> m = mac_of L alg d (x_key x) (x_data x)) /\ la_ok a = true
  | None => la_ok a = false
  end.
Proof.
  intros G K A D J. unfold lib_final. destruct (la_ok a); auto. unfold lib_mac. rewrite A, D.
  destruct (x_lost x); [split; [exact J|split; [discriminate|reflexivity]]|].
  assert (E : (if alg =? 1 then l_hmac L d (x_key x) (x_data x) else l_cmac L (x_key x) (x_data x)) =
              mac_of L alg d (x_key x) (x_data x)).
  { destruct (known_alg _ _ K) as [-> | ->]; reflexivity. }
  rewrite E. split; [now apply mac_length|auto].
Qed.

(** Everything about the final step. *)
Lemma compute_cases L alg d x b n a : good_lib L -> mac_known alg d -> x_alg x = alg -> x_digest x = d ->
  sound_call alg d (CallCompute (Some b) n a) ->
  ta_compute L x (Some b) n a =
    if x_done x then (x, Ret INVALID_PARAMETER b n)
    else if n <? mac_size alg d then (x, Ret INVALID_PARAMETER b n)
    else (set_done x,
      match lib_final L (set_done x) a with
      | None => Ret INTERNAL_ERROR b (mac_size alg d)
      | Some m => Ret OK (m ++ skipn (Z.to_nat (mac_size alg d)) b) (mac_size alg d)
      end).
Proof.
  intros G K A D [S1 S2]. unfold ta_compute. rewrite A, D.
  assert (F := final_ok L alg d (set_done x) a G K A D S2).
  destruct K as [->|[-> Kd]]; cbn [Z.eqb Pos.eqb].
  - change (mac_size 0 d) with 16. destruct (x_done x) eqn:Dn; [reflexivity|]. destruct (n <? 16) eqn:N; [reflexivity|].
    unfold cmac_compute. rewrite Dn. destruct (lib_final L (set_done x) a) as [m|]; [|reflexivity].
    destruct F as (F&_). change (mac_size 0 d) with 16 in F. unfold zlen in *. rewrite put_exact by lia.
    f_equal. do 3 f_equal. lia.
  - rewrite size_digest by auto. destruct (x_done x) eqn:Dn; [reflexivity|]. destruct (n <? digest_length d) eqn:N; [reflexivity|].
    unfold hmac_compute. rewrite D, Z.ltb_irrefl, Dn. destruct (lib_final L (set_done x) a) as [m|]; [|reflexivity].
    rewrite size_digest in F by auto. destruct F as (F&_). unfold zlen in *. rewrite put_exact by lia.
    f_equal. do 3 f_equal. lia.
Qed.

Lemma mac_step_cases L alg d x c : good_lib L -> mac_known alg d -> x_alg x = alg -> x_digest x = d ->
  sound_call alg d c ->
  let '(x', o) := mac_step L x c in
  x_alg x' = alg /\ x_digest x' = d /\ x_key x' = x_key x /\
  (x_lost x' = true -> x_lost x = true \/ feeding_failed (c, o)) /\
  (x_lost x' = false -> x_lost x = false /\ x_data x' = x_data x ++ accepted (c, o)) /\
  (x_done x' = true <-> x_done x = true \/ finishing (c, o)).
Proof.
  intros G K A D SC. assert (AA := known_alg _ _ K).
  assert (E : (x_alg x =? 1) || (x_alg x =? 0) = true) by lia.
  destruct c as [i a|r a|buf n a]; cbn [mac_step].
  - unfold ta_process. rewrite E. destruct (bad_input i) eqn:B.
    { cbn. destruct i; cbn in *; rewrite ?app_nil_r; repeat split; auto; intros; tauto. }
    destruct (x_done x) eqn:Dn.
    { cbn. destruct i; cbn; rewrite ?app_nil_r, ?Dn; repeat split; auto; intros; tauto. }
    unfold context_update. rewrite Dn, B. destruct (0 <? in_length i) eqn:N.
    + unfold lib_update. destruct (la_ok a) eqn:OKa; cbn.
      * destruct i; cbn in *; [lia|]. rewrite Dn. repeat split; auto; intros; try tauto; try discriminate.
      * destruct i; cbn in *; [lia|]. rewrite Dn, app_nil_r. repeat split; auto; intros; try tauto; discriminate.
    + cbn. destruct i as [m|l]; cbn in *; rewrite ?Dn, ?app_nil_r.
      * repeat split; auto; intros; tauto.
      * destruct l; cbn in N; [|lia]. rewrite app_nil_r. repeat split; auto; intros; tauto.
  - unfold ta_process_key. destruct r as [s [k|]].
    2:{ destruct s; cbn; rewrite ?app_nil_r; repeat split; auto; intros; tauto. }
    destruct s; try (cbn; rewrite ?app_nil_r; repeat split; auto; intros; tauto).
    destruct (negb (k_type k =? KT_SYMMETRIC)).
    { cbn; rewrite ?app_nil_r; repeat split; auto; intros; tauto. }
    destruct AA as [AA|AA]; rewrite A, AA; cbn [Z.eqb Pos.eqb].
    + destruct (x_done x) eqn:Dn.
      { cbn. rewrite ?app_nil_r, ?Dn; repeat split; auto; intros; try tauto; lia. }
      unfold cmac_update_key. rewrite Dn. destruct (0 <? zlen (k_bytes k)) eqn:N.
      * unfold lib_update. destruct (la_ok a) eqn:OKa; cbn; rewrite ?Dn, ?app_nil_r;
          repeat split; auto; intros; try tauto; try discriminate; try lia.
      * cbn. rewrite Dn. destruct (k_bytes k); [|unfold zlen in N; cbn in N; lia].
        rewrite ?app_nil_r. repeat split; auto; intros; try tauto; lia.
    + destruct (x_done x) eqn:Dn.
      { cbn. rewrite ?app_nil_r, ?Dn; repeat split; auto; intros; try tauto; lia. }
      unfold hmac_update_key, lib_update. rewrite Dn. destruct (la_ok a) eqn:OKa; cbn; rewrite ?Dn, ?app_nil_r;
          repeat split; auto; intros; try tauto; try discriminate; try lia.
  - destruct buf as [b|].
    2:{ unfold ta_compute. destruct AA as [AA|AA]; rewrite A, AA; cbn;
          rewrite ?app_nil_r; repeat split; auto; intros; try tauto; lia. }
    rewrite (compute_cases L alg d) by assumption.
    destruct (x_done x) eqn:Dn.
    { cbn. rewrite ?app_nil_r, ?Dn. repeat split; auto; intros; try tauto; lia. }
    destruct (n <? mac_size alg d).
    { cbn. rewrite ?app_nil_r, ?Dn. repeat split; auto; intros; try tauto; try lia.
      destruct H as [H|[H|H]]; discriminate. }
    destruct (lib_final L (set_done x) a); cbn; rewrite ?app_nil_r; repeat split; auto; intros; tauto.
Qed.

Lemma follows_new alg d key : follows alg d key (mac_new alg d key) [].
Proof. split; cbn; auto; try discriminate. split; [discriminate|intros H; inversion H]. Qed.
Lemma follows_step L alg d key x h c x' o : good_lib L -> mac_known alg d -> sound_call alg d c ->
  follows alg d key x h -> mac_step L x c = (x', o) -> follows alg d key x' (h ++ [(c, o)]).
Proof.
  intros G K SC [A D Ky Da Lo Dn] E. assert (C := mac_step_cases L alg d x c G K A D SC). rewrite E in C.
  destruct C as (C1&C2&C3&C4&C5&C6). split; auto.
  - congruence.
  - intros N. destruct (C5 N) as [N' ->]. rewrite fed_app. now rewrite Da.
  - intros N. apply exists_app. destruct (C4 N); auto.
  - rewrite exists_app, C6, Dn. tauto.
Qed.
Lemma history_follows L alg d key cs : good_lib L -> mac_known alg d -> Forall (sound_call alg d) cs ->
  forall x h0, follows alg d key x h0 ->
  follows alg d key (fst (mac_history L x cs)) (h0 ++ snd (mac_history L x cs)).
Proof.
  intros G K F. induction F as [|c cs SC F IH]; intros x h0 H; cbn [mac_history].
  - cbn. now rewrite app_nil_r.
  - destruct (mac_step L x c) as [x1 o] eqn:E.
    specialize (IH x1 (h0 ++ [(c, o)]) (follows_step _ _ _ _ _ _ _ _ _ G K SC H E)).
    destruct (mac_history L x1 cs) as [x2 h]. cbn in *. now rewrite <- app_assoc in IH.
Qed.
Lemma reached L alg d key cs x h : good_lib L -> mac_known alg d -> Forall (sound_call alg d) cs ->
  mac_history L (mac_new alg d key) cs = (x, h) -> follows alg d key x h.
Proof.
  intros G K F E. assert (H := history_follows L alg d key cs G K F _ _ (follows_new alg d key)).
  now rewrite E in H.
Qed.

Section Results.
Variables (L : lib) (alg d : Z) (key : list Z) (cs : list mac_call) (x : mctx) (h : list (mac_call * out)).
Hypotheses (G : good_lib L) (K : mac_known alg d) (F : Forall (sound_call alg d) cs)
  (E : mac_history L (mac_new alg d key) cs = (x, h)).

Lemma mac_value b n a x' b' n' : sound_call alg d (CallCompute (Some b) n a) -> ~ Exists feeding_failed h ->
  mac_step L x (CallCompute (Some b) n a) = (x', Ret OK b' n') ->
  n' = mac_size alg d /\ b' = mac_of L alg d key (fed h) ++ skipn (Z.to_nat n') b.
Proof.
  intros SC N. destruct (reached _ _ _ _ _ _ _ G K F E) as [A D Ky Da Lo Dn]. cbn [mac_step].
  rewrite (compute_cases L alg d) by assumption.
  destruct (x_done x); [discriminate|]. destruct (n <? mac_size alg d); [discriminate|].
  assert (FF := final_ok L alg d (set_done x) a G K A D (proj2 SC)).
  destruct (lib_final L (set_done x) a); [|discriminate]. intros [= <- <- <-]. split; [reflexivity|].
  f_equal. destruct FF as (_&FF&_).
  assert (Hl : x_lost x = false) by (destruct (x_lost x); auto; destruct (N (Lo eq_refl))).
  rewrite (FF Hl). cbn. now rewrite Ky, Da.
Qed.
Lemma mac_available b n a : sound_call alg d (CallCompute (Some b) n a) -> ~ Exists finishing h ->
  mac_size alg d <= n -> la_ok a = true ->
  exists x' b', mac_step L x (CallCompute (Some b) n a) = (x', Ret OK b' (mac_size alg d)).
Proof.
  intros SC N Hn Ha. destruct (reached _ _ _ _ _ _ _ G K F E) as [A D Ky Da Lo Dn]. cbn [mac_step].
  rewrite (compute_cases L alg d) by assumption.
  destruct (x_done x); [destruct N; now apply Dn|]. destruct (n <? mac_size alg d) eqn:C; [lia|].
  unfold lib_final. rewrite Ha. eauto.
Qed.
Lemma data_accepted i a : ~ Exists finishing h -> bad_input i = false -> la_ok a = true ->
  snd (mac_step L x (CallProcess i a)) = Ret OK [] 0.
Proof.
  intros N B Ha. destruct (reached _ _ _ _ _ _ _ G K F E) as [A D Ky Da Lo Dn]. cbn [mac_step].
  unfold ta_process. rewrite B.
  assert (EE : (x_alg x =? 1) || (x_alg x =? 0) = true) by (destruct (known_alg _ _ K); lia). rewrite EE.
  destruct (x_done x) eqn:Q; [destruct N; now apply Dn|]. unfold context_update, lib_update. rewrite Q, B, Ha.
  destruct (0 <? in_length i); reflexivity.
Qed.
Lemma length_query n a : exists x', mac_step L x (CallCompute None n a) = (x', Ret OK [] (mac_size alg d)) /\ x' = x.
Proof.
  destruct (reached _ _ _ _ _ _ _ G K F E) as [A D _ _ _ _]. exists x. split; [|reflexivity].
  cbn [mac_step]. unfold ta_compute. rewrite A, D. destruct K as [->|[-> Kd]]; cbn [Z.eqb Pos.eqb].
  - reflexivity.
  - rewrite size_digest by auto.
    assert (C : d = 0 \/ d = 1 \/ d = 2 \/ d = 3) by lia. destruct C as [-> |[-> |[-> | ->]]]; reflexivity.
Qed.
Lemma small_buffer b n a : sound_call alg d (CallCompute (Some b) n a) -> n < mac_size alg d ->
  mac_step L x (CallCompute (Some b) n a) = (x, Ret INVALID_PARAMETER b n).
Proof.
  intros SC N. destruct (reached _ _ _ _ _ _ _ G K F E) as [A D _ _ _ _]. cbn [mac_step].
  rewrite (compute_cases L alg d) by assumption. destruct (x_done x); [reflexivity|].
  destruct (n <? mac_size alg d) eqn:C; [reflexivity|lia].
Qed.
Lemma refused_after c : sound_call alg d c -> Exists finishing h -> feeds c \/ asks_for_mac c ->
  exists s b n, mac_step L x c = (x, Ret s b n) /\ s <> OK /\
    match c with CallCompute (Some b0) n0 _ => b = b0 /\ n = n0 | _ => True end.
Proof.
  intros SC N C. destruct (reached _ _ _ _ _ _ _ G K F E) as [A D _ _ _ Dn]. apply Dn in N.
  assert (EE : (x_alg x =? 1) || (x_alg x =? 0) = true) by (destruct (known_alg _ _ K); lia).
  destruct c as [i a|r a|[b|] n a]; cbn [mac_step].
  - unfold ta_process. rewrite EE, N. destruct (bad_input i); do 3 eexists; (split; [reflexivity|split; [discriminate|exact I]]).
  - unfold ta_process_key. destruct r as [s o]. destruct s.
    2-13: destruct o; do 3 eexists; (split; [reflexivity|split; [discriminate|exact I]]).
    destruct o as [k|]; [|do 3 eexists; (split; [reflexivity|split; [discriminate|exact I]])].
    rewrite N. destruct (negb (k_type k =? KT_SYMMETRIC)); [do 3 eexists; (split; [reflexivity|split; [discriminate|exact I]])|].
    destruct (x_alg x =? 1), (x_alg x =? 0); do 3 eexists; (split; [reflexivity|split; [discriminate|exact I]]).
  - rewrite (compute_cases L alg d) by assumption. rewrite N. do 3 eexists. split; [reflexivity|split; [discriminate|auto]].
  - destruct C; contradiction.
Qed.
Lemma in_bounds c : sound_call alg d c -> snd (mac_step L x c) <> Oob.
Proof.
  intros SC. destruct (reached _ _ _ _ _ _ _ G K F E) as [A D _ _ _ _].
  destruct c as [i a|r a|[b|] n a]; cbn [mac_step].
  - destruct (ta_process x i a). discriminate.
  - destruct (ta_process_key x r a). discriminate.
  - rewrite (compute_cases L alg d) by assumption. destruct (x_done x); [discriminate|].
    destruct (n <? mac_size alg d); [discriminate|]. destruct (lib_final L (set_done x) a); discriminate.
  - unfold ta_compute. destruct (x_alg x =? 1); [discriminate|]. destruct (x_alg x =? 0); discriminate.
Qed.
End Results.

(** A library to run the model with: a digest repeats the sum of the message's bytes. *)
Definition toy_sum (l : list Z) : Z := fold_left (fun s b => (s * 31 + b + 1) mod 251) l 7.
Definition toy_lib : lib := MkLib
  (fun d m => repeat (toy_sum (d :: m)) (Z.to_nat (match d with 0 => 20 | 1 => 32 | 2 => 48 | _ => 64 end)))
  (fun k m => repeat (toy_sum (k ++ m)) 16).
Lemma toy_good : good_lib toy_lib.
Proof. repeat split; intros; cbn; apply repeat_length. Qed.
