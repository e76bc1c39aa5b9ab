(** Proofs about unwrapping. *)
From Verif Require Import Base M_Memory M_Rights M_Mac M_Kdf M_Unwrap S_Bytes S_Rights S_Unwrap P_Bytes P_Rights P_Mac P_Kdf P_KeyStore.

Lemma int_of_small n : 0 <= n < 2 ^ 31 -> int_of n = n.
Proof.
  intros H. unfold int_of. rewrite Z.mod_small by lia. cbn zeta.
  now rewrite (proj2 (Z.ltb_lt _ _) (proj2 H)).
Qed.
Lemma first_all (l : list Z) : firstn (Z.to_nat (zlen l)) l = l.
Proof. unfold zlen. rewrite Nat2Z.id. apply firstn_all. Qed.
Lemma put_all (buf p : list Z) : zlen p = zlen buf -> put buf p = Some p.
Proof.
  intros H. unfold zlen in H. rewrite put_exact by lia. replace (length p) with (length buf) by lia.
  now rewrite skipn_all, app_nil_r.
Qed.
Lemma evp_ok buf input f answer : zlen input < 2 ^ 31 -> zlen buf = zlen input ->
  (forall p, f input = Some p -> zlen p = zlen input) ->
  evp_decrypt buf input f answer = if answer then match f input with None => None | Some p => Some (Some p) end else None.
Proof.
  intros H Hb Hf. unfold evp_decrypt. rewrite int_of_small by (unfold zlen in *; lia). cbn zeta.
  replace (zlen input <? 0) with false by (unfold zlen; lia). cbn [orb].
  destruct answer; cbn [negb]; [|reflexivity]. rewrite first_all. destruct (f input) as [p|] eqn:E; [|reflexivity].
  f_equal. apply put_all. rewrite Hb. now apply Hf.
Qed.
Lemma aad_ok (aad : list Z) f : zlen aad < 2 ^ 31 -> evp_aad aad f = f aad.
Proof.
  intros H. unfold evp_aad. rewrite int_of_small by (unfold zlen in *; lia). cbn zeta.
  replace (zlen aad <? 0) with false by (unfold zlen; lia). now rewrite first_all.
Qed.

Lemma not_allowed_0 t c : t <> 3 -> ~ size_allowed t c 0.
Proof. intros N H. inversion H; subst; [lia| | |lia]; cbn [In] in *; intuition (try discriminate; try congruence). Qed.

(** [import_key] *)
Lemma import_ok U rights w t curve bytes alloc :
  match import_key U rights (k_rights w) t curve bytes alloc with
  | UKey k => key_made U rights w t curve bytes k /\ (t = 0 \/ t = 2 \/ (t = 1 /\ curve <> None)) /\
      size_allowed t (p_curve (fst (content U t curve bytes))) (snd (content U t curve bytes)) /\
      rights_validate_format rights = true
  | UFails s => s <> OK /\ (alloc = true -> (t = 0 \/ t = 2 \/ (t = 1 /\ curve <> None)) ->
      size_allowed t (p_curve (fst (content U t curve bytes))) (snd (content U t curve bytes)) ->
      rights_validate_format rights = true -> False)
  | _ => False
  end.
Proof.
  unfold import_key, key_made.
  change KT_EC with 1; change KT_SYMMETRIC with 0; change KT_RSA with 2.
  assert (Create : forall ps size, (ps, size) = content U t curve bytes -> (t = 0 \/ t = 2 \/ (t = 1 /\ curve <> None)) ->
    match match stored_key_create (Some rights) (Some (k_rights w)) t ps size (Some bytes) alloc with
    | (OK, Some k) => UKey k | (OK, None) => UNothing | (s, _) => UFails s end with
    | UKey k => k = MkKey (restrict_child_rights rights (Some (k_rights w))) t (fst (content U t curve bytes)) (snd (content U t curve bytes)) bytes /\
        (t = 0 \/ t = 2 \/ (t = 1 /\ curve <> None)) /\
        size_allowed t (p_curve (fst (content U t curve bytes))) (snd (content U t curve bytes)) /\
        rights_validate_format rights = true
    | UFails s => s <> OK /\ (alloc = true -> (t = 0 \/ t = 2 \/ (t = 1 /\ curve <> None)) ->
        size_allowed t (p_curve (fst (content U t curve bytes))) (snd (content U t curve bytes)) ->
        rights_validate_format rights = true -> False)
    | _ => False end).
  { intros ps size E Ht. rewrite <- E. cbn [fst snd]. unfold stored_key_create.
    assert (HS := supports_any_iff t (p_curve ps) size).
    destruct (key_type_supports_any t (p_curve ps) size); cbn [negb].
    - destruct (rights_validate_format rights); cbn [negb]; [|split; [discriminate|intuition discriminate]].
      destruct alloc; cbn [negb]; [|split; [discriminate|intuition discriminate]].
      split; [reflexivity|]. split; [exact Ht|]. split; [now apply HS|reflexivity].
    - split; [discriminate|]. intros _ _ S _. apply HS in S. discriminate. }
  destruct (t =? 1) eqn:E1; cbn [orb negb].
  { apply Z.eqb_eq in E1. subst t. destruct curve as [c|].
    - destruct (u_ec_size U c bytes =? 0) eqn:E0.
      + split; [discriminate|]. intros _ _ S _. cbn in S. apply Z.eqb_eq in E0. rewrite E0 in S.
        now apply not_allowed_0 in S.
      + apply Create; [reflexivity|]. right; right. split; [reflexivity|discriminate].
    - split; [discriminate|]. intros _ [H|[H|[_ H]]] _ _; try discriminate. now apply H. }
  destruct (t =? 0) eqn:E0; cbn [orb negb].
  { apply Z.eqb_eq in E0. subst t. cbn [Z.eqb]. apply Create; [reflexivity|]. now left. }
  destruct (t =? 2) eqn:E2; cbn [orb negb].
  { apply Z.eqb_eq in E2. subst t. destruct (u_rsa_size U bytes =? 0) eqn:E.
    - split; [discriminate|]. intros _ _ S _. cbn in S. apply Z.eqb_eq in E. rewrite E in S. now apply not_allowed_0 in S.
    - apply Create; [reflexivity|]. right. now left. }
  split; [discriminate|]. intros _ H _ _. lia.
Qed.

Lemma pad_inj a b : pkcs7_pad a = pkcs7_pad b -> a = b.
Proof.
  intros E. destruct (pad_checks a _ eq_refl) as (p & A & B). destruct (pad_checks b _ eq_refl) as (q & C & D).
  rewrite E in A, B. rewrite A in C. injection C as ->. now rewrite B in D.
Qed.
Lemma pad_length m : 16 <= zlen (pkcs7_pad m).
Proof.
  unfold pkcs7_pad, zlen. cbn zeta. rewrite app_length, repeat_length.
  assert (B := Z.mod_pos_bound (Z.of_nat (length m)) 16 ltac:(lia)).
  assert (E := Z.div_mod (Z.of_nat (length m)) 16 ltac:(lia)).
  assert (0 <= Z.of_nat (length m) / 16) by (apply Z.div_pos; lia). lia.
Qed.

(** The last 16 bytes. *)
Lemma last_sixteen (buf : list Z) : 16 <= zlen buf ->
  firstn 16 (skipn (Z.to_nat (zlen buf - 16)) buf) = skipn (Z.to_nat (zlen buf - 16)) buf.
Proof. intros H. apply firstn_all2. rewrite skipn_length. unfold zlen in *. lia. Qed.

Lemma padded_ok U pkcs7 rights w t curve (buf : list Z) alloc : zlen buf mod 16 = 0 -> (pkcs7 = true -> 0 < zlen buf) ->
  match import_padded U pkcs7 rights (k_rights w) t curve buf alloc with
  | UKey k => exists bytes, (if pkcs7 then buf = pkcs7_pad bytes else bytes = buf) /\
      key_made U rights w t curve bytes k /\ (t = 0 \/ t = 2 \/ (t = 1 /\ curve <> None)) /\
      size_allowed t (p_curve (fst (content U t curve bytes))) (snd (content U t curve bytes)) /\
      rights_validate_format rights = true
  | UFails s => s <> OK /\ forall bytes, (if pkcs7 then buf = pkcs7_pad bytes else bytes = buf) ->
      (alloc = true -> (t = 0 \/ t = 2 \/ (t = 1 /\ curve <> None)) ->
      size_allowed t (p_curve (fst (content U t curve bytes))) (snd (content U t curve bytes)) ->
      rights_validate_format rights = true -> False)
  | _ => False
  end.
Proof.
  intros Hm Hp. unfold import_padded. cbn zeta. destruct pkcs7.
  - specialize (Hp eq_refl).
    assert (H16 : 16 <= zlen buf). { assert (E := Z.div_mod (zlen buf) 16 ltac:(lia)). lia. }
    replace (zlen buf - 16 <? 0) with false by lia. rewrite last_sixteen by exact H16.
    destruct (pad_check_pkcs7 _) as [p ok] eqn:E. destruct ok; cbn [negb].
    + assert (S := strip_pad buf p (zlen buf) eq_refl Hm H16 E).
      assert (I := import_ok U rights w t curve (firstn (Z.to_nat (zlen buf - p)) buf) alloc).
      destruct (import_key _ _ _ _ _ _ _); try contradiction.
      * eexists. split; [exact S|]. exact I.
      * destruct I as [I1 I2]. split; [exact I1|]. intros bytes Eb. rewrite S in Eb. apply pad_inj in Eb. subst bytes. exact I2.
    + split; [discriminate|]. intros bytes Eb. exfalso. subst buf. destruct (pad_checks bytes _ eq_refl) as (q & A & _).
      rewrite A in E. discriminate.
  - assert (I := import_ok U rights w t curve buf alloc).
    destruct (import_key _ _ _ _ _ _ _); try contradiction.
    + exists buf. split; [reflexivity|exact I].
    + destruct I as [I1 I2]. split; [exact I1|]. intros bytes ->. exact I2.
Qed.

(** ** The checks *)
Lemma check_some b s x : check b s = Some x -> b = false /\ x = s.
Proof. unfold check. destruct b; intros E; [discriminate|]. injection E as <-. auto. Qed.
Lemma check_none b s : check b s = None -> b = true.
Proof. unfold check. destruct b; [auto|discriminate]. Qed.
Lemma then_none a b : then_ a b = None -> a = None /\ b = None.
Proof. destruct a; [discriminate|auto]. Qed.
Lemma then_some a b s : then_ a b = Some s -> a = Some s \/ b = Some s.
Proof. destruct a; auto. Qed.
Lemma exactly_none i n : exactly i n = None -> present i n.
Proof. destruct i as [m|l]; cbn; [discriminate|]. destruct (zlen l =? n) eqn:E; [|discriminate]. intros _. exists l. split; [reflexivity|lia]. Qed.
Lemma exactly_some i n s : exactly i n = Some s -> s <> OK /\ ~ present i n.
Proof.
  destruct i as [m|l]; cbn; [intros E; injection E as <-; split; [discriminate|]; intros (l & E & _); discriminate|].
  destruct (zlen l =? n) eqn:E; [discriminate|]. intros E'. injection E' as <-. split; [discriminate|].
  intros (l' & El & L). injection El as <-. lia.
Qed.
Lemma given_iff i : negb (bad_input i) = true <-> given i.
Proof. destruct i; cbn; [|tauto]. rewrite negb_true_iff. split; intros; lia. Qed.
Lemma aes_iff w : key_type_supports_aes (k_type w) (k_size w) = true <-> k_type w = 0 /\ (k_size w = 16 \/ k_size w = 32).
Proof. unfold key_type_supports_aes, valid_aes_size. change KT_SYMMETRIC with 0. lia. Qed.
Lemma chacha_iff w : key_type_supports_chacha20 (k_type w) (k_size w) = true <-> k_type w = 0 /\ k_size w = 32.
Proof. unfold key_type_supports_chacha20. change KT_SYMMETRIC with 0. lia. Qed.
Lemma rsa_iff w : key_type_supports_rsa (k_type w) (k_size w) = true <-> k_type w = 2 /\ size_allowed 2 0 (k_size w).
Proof.
  unfold key_type_supports_rsa, valid_rsa_size. change KT_RSA with 2. split.
  - intros H. split; [lia|]. apply sz_rsa. cbn [In]. lia.
  - intros [A B]. inversion B; subst. cbn [In] in *. lia.
Qed.
Lemma ec_iff w : key_type_supports_ec (k_type w) (p_curve (k_params w)) (k_size w) = true <->
  k_type w = 1 /\ size_allowed 1 (p_curve (k_params w)) (k_size w).
Proof.
  unfold key_type_supports_ec. change KT_EC with 1. rewrite andb_true_iff, valid_ec_iff, Z.eqb_eq. split.
  - intros [A B]. split; [exact A|]. now apply sz_ec.
  - intros [A B]. split; [exact A|]. now inversion B; subst.
Qed.
Lemma ec_size_of c s : size_allowed 1 c s -> ec_key_size_from_curve c = s /\ 0 < s.
Proof.
  intros H. inversion H; subst. cbn [In] in *.
  repeat match goal with H : _ \/ _ |- _ => destruct H as [H|H]; [injection H as <- <-; split; [reflexivity|lia]|] end. contradiction.
Qed.
Lemma unwrap_allowed_iff w now : rights_allowed_unwrap (k_rights w) now = true <-> may_unwrap w now.
Proof. apply operations_iff. Qed.

(** ** Each algorithm *)
Section Outcome.
Variables (U : ulib) (rights : rights) (t : Z) (curve : option Z) (w : stored_key) (now : Z)
  (input : list Z) (mem : option (list Z)) (stack : list Z) (answer alloc : bool).
Hypothesis HU : good_ulib U.
Hypothesis Hw : honest U w.
Hypothesis Hn : zlen input < 2 ^ 31.
Hypothesis Hstack : zlen stack = 16.

Definition outcome (alg : ualg) (r : unwrapped) : Prop :=
  match r with
  | UKey k => exists bytes, unwrappable U alg rights t curve w now input bytes /\ key_made U rights w t curve bytes k
  | UFails s => s <> OK /\ (answer = true -> alloc = true -> mem <> None ->
      forall bytes, ~ unwrappable U alg rights t curve w now input bytes)
  | ULeak s => s <> OK /\ label_missing alg
  | _ => False
  end.

Lemma passes b s : check b s = None <-> b = true.
Proof. split; [apply check_none|]. unfold check. now intros ->. Qed.
Lemma exactly_iff i n : exactly i n = None <-> present i n.
Proof.
  split; [apply exactly_none|]. intros H. destruct (exactly i n) eqn:E; [|reflexivity].
  apply exactly_some in E. tauto.
Qed.
Definition bad_status (o : option status) : Prop := match o with Some s => s <> OK | None => True end.
Lemma check_status b s : s <> OK -> bad_status (check b s).
Proof. intros H. unfold check. destruct b; cbn; auto. Qed.
Lemma exactly_status i n : bad_status (exactly i n).
Proof. destruct (exactly i n) eqn:E; [|exact I]. now apply exactly_some in E. Qed.
Lemma then_status a b : bad_status a -> bad_status b -> bad_status (then_ a b).
Proof. destruct a; cbn; auto. Qed.

(** A refusal by the checks, and what follows them. *)
Lemma checked alg (c : option status) (P : Prop) body : bad_status c -> (c = None <-> P) ->
  (forall bytes, unwrappable U alg rights t curve w now input bytes -> P) ->
  (P -> outcome alg body) ->
  outcome alg (match c with Some s => UFails s | None => body end).
Proof.
  intros Hs Hc Hu Hb. destruct c as [s|].
  - split; [exact Hs|]. intros _ _ _ bytes Hbytes. apply Hu in Hbytes. apply Hc in Hbytes. discriminate.
  - apply Hb. now apply Hc.
Qed.
Lemma then_iff a b P Q : (a = None <-> P) -> (b = None <-> Q) -> (then_ a b = None <-> P /\ Q).
Proof. intros Ha Hb. destruct a as [s|]; cbn; [|tauto]. split; [discriminate|]. intros [p _]. apply Ha in p. discriminate. Qed.

(** A decryption that is followed by the import of everything. *)
Lemma imports_all alg buf f :
  mem = Some buf -> zlen buf = zlen input -> (forall p, f input = Some p -> zlen p = zlen input) ->
  (forall bytes, contains U alg (k_bytes w) (p_curve (k_params w)) input bytes <-> f input = Some bytes) ->
  may_unwrap w now -> arguments_ok alg w (zlen input) -> wrapping_ok alg w ->
  (content_type_ok alg t curve <-> (t = 0 \/ t = 2 \/ (t = 1 /\ curve <> None))) ->
  outcome alg (match evp_decrypt buf input f answer with
               | None => UFails INTERNAL_ERROR | Some None => UCrash
               | Some (Some b) => import_key U rights (k_rights w) t curve b alloc end).
Proof.
  intros Hmem Hb Hf Hc Hmay Harg Hwrap Ht. rewrite (evp_ok buf input f answer Hn Hb Hf).
  unfold outcome. destruct answer; [|split; [discriminate|intros X; discriminate X]].
  destruct (f input) as [p|] eqn:Ef.
  - assert (I := import_ok U rights w t curve p alloc).
    destruct (import_key _ _ _ _ _ _ _); try contradiction.
    + destruct I as (I1 & I2 & I3 & I4). exists p. split; [|exact I1].
      split; [exact Hmay|]. split; [exact Harg|]. split; [exact Hwrap|]. split; [now apply Ht|].
      split; [exact I4|]. split; [now apply Hc|exact I3].
    + destruct I as (I1 & I2). split; [exact I1|]. intros _ Hal _ bytes (_ & _ & _ & T & V & C & S).
      apply Hc in C. injection C as <-. apply Ht in T. auto.
  - split; [discriminate|]. intros _ _ _ bytes (_ & _ & _ & T & V & C & S). apply Hc in C. discriminate.
Qed.
Lemma key_length_aes : k_type w = 0 -> zlen (k_bytes w) = k_size w.
Proof. apply Hw. Qed.
Lemma no_memory alg : mem = None -> outcome alg (UFails INTERNAL_ERROR).
Proof. intros E. split; [discriminate|]. intros _ _ X. now contradict X. Qed.

Lemma blocks_outcome alg pkcs7 f : mem = None \/ (exists buf, mem = Some buf /\ zlen buf = zlen input) ->
  (forall l : list Z, zlen (f l : list Z) = zlen l) -> (pkcs7 = true -> 0 < zlen input) ->
  (forall bytes, contains U alg (k_bytes w) (p_curve (k_params w)) input bytes <->
                 (if pkcs7 then f input = pkcs7_pad bytes else bytes = f input)) ->
  may_unwrap w now -> arguments_ok alg w (zlen input) -> zlen input mod 16 = 0 -> wrapping_ok alg w ->
  (k_type w = 0 /\ (k_size w = 16 \/ k_size w = 32)) ->
  (content_type_ok alg t curve <-> (t = 0 \/ t = 2 \/ (t = 1 /\ curve <> None))) ->
  outcome alg (unwrap_blocks U rights t curve w input mem answer alloc pkcs7 f).
Proof.
  intros Hmem Hf Hp Hc Hmay Harg Hmod Hwrap [Kt Ks] Ht. unfold unwrap_blocks.
  destruct Hmem as [E|(buf & E & Hb)]; [rewrite E; now apply no_memory|]. rewrite E.
  rewrite Hmod. cbn [Z.eqb negb]. rewrite (key_length_aes Kt).
  replace ((k_size w =? 16) || (k_size w =? 32)) with true by lia. cbn [negb].
  rewrite (evp_ok buf input (fun l => Some (f l)) answer Hn Hb) by (intros p Ep; injection Ep as <-; apply Hf).
  unfold outcome. destruct answer; [|split; [discriminate|intros X; discriminate X]].
  assert (I := padded_ok U pkcs7 rights w t curve (f input) alloc ltac:(rewrite Hf; exact Hmod) ltac:(rewrite Hf; exact Hp)).
  destruct (import_padded _ _ _ _ _ _ _ _); try contradiction.
  - destruct I as (bytes & B & I1 & I2 & I3 & I4). exists bytes. split; [|exact I1].
    split; [exact Hmay|]. split; [exact Harg|]. split; [exact Hwrap|]. split; [now apply Ht|].
    split; [exact I4|]. split; [now apply Hc|exact I3].
  - destruct I as (I1 & I2). split; [exact I1|]. intros _ Hal _ bytes (_ & _ & _ & T & V & C & S).
    apply Hc in C. apply Ht in T. exact (I2 bytes C Hal T S V).
Qed.

Ltac status := idtac; repeat first [apply then_status | apply exactly_status | apply check_status; discriminate].
Lemma room_all alg : unwrap_room alg w (zlen input) mem -> (forall p, alg <> UElgamal p) ->
  mem = None \/ (exists buf, mem = Some buf /\ zlen buf = zlen input).
Proof.
  intros H N. destruct mem as [m|]; [right; exists m|now left]. split; [reflexivity|].
  destruct alg; try exact H. now destruct (N p).
Qed.
Lemma whole_iff : check (zlen input mod 16 =? 0) INVALID_PARAMETER = None <-> zlen input mod 16 = 0.
Proof. rewrite passes. apply Z.eqb_eq. Qed.
Lemma allowed_iff : check (rights_allowed_unwrap (k_rights w) now) OPERATION_NOT_ALLOWED = None <-> may_unwrap w now.
Proof. rewrite passes. apply unwrap_allowed_iff. Qed.
Lemma aes_check : check (key_type_supports_aes (k_type w) (k_size w)) INVALID_KEY_TYPE = None <-> k_type w = 0 /\ (k_size w = 16 \/ k_size w = 32).
Proof. rewrite passes. apply aes_iff. Qed.
Lemma chacha_check : check (key_type_supports_chacha20 (k_type w) (k_size w)) INVALID_KEY_TYPE = None <-> k_type w = 0 /\ k_size w = 32.
Proof. rewrite passes. apply chacha_iff. Qed.
Lemma rsa_check : check (key_type_supports_rsa (k_type w) (k_size w)) INVALID_KEY_TYPE = None <-> k_type w = 2 /\ size_allowed 2 0 (k_size w).
Proof. rewrite passes. apply rsa_iff. Qed.
Lemma ec_check : check (key_type_supports_ec (k_type w) (p_curve (k_params w)) (k_size w)) INVALID_KEY_TYPE = None <->
  k_type w = 1 /\ size_allowed 1 (p_curve (k_params w)) (k_size w).
Proof. rewrite passes. apply ec_iff. Qed.
Lemma size_check : check (zlen input =? k_size w) INVALID_PARAMETER = None <-> zlen input = k_size w.
Proof. rewrite passes. apply Z.eqb_eq. Qed.
Lemma symmetric_check : check (t =? KT_SYMMETRIC) INVALID_PARAMETER = None <-> t = 0.
Proof. rewrite passes. apply Z.eqb_eq. Qed.
Lemma given_check i : check (negb (bad_input i)) NULL_PARAMETER = None <-> given i.
Proof. rewrite passes. apply given_iff. Qed.
Lemma refused alg s : s <> OK -> (forall n, ~ arguments_ok alg w n) -> outcome alg (UFails s).
Proof. intros Hs H. split; [exact Hs|]. intros _ _ _ bytes (_ & A & _). exact (H _ A). Qed.
Ltac iffs := repeat first [apply then_iff | apply whole_iff | apply allowed_iff | apply aes_check | apply chacha_check
  | apply rsa_check | apply ec_check | apply size_check | apply symmetric_check | apply given_check | apply exactly_iff].

Lemma ecb_outcome p : unwrap_room (UEcb p) w (zlen input) mem -> some_block (UEcb p) (zlen input) ->
  outcome (UEcb p) (ta_unwrap U (UEcb p) rights t curve w now input mem stack answer alloc).
Proof.
  intros R B. unfold ta_unwrap. cbn zeta. eapply checked; [status|iffs| |].
  - intros bytes (M & A & W & _). cbn in A, W. tauto.
  - intros (A & M & W). apply blocks_outcome; auto.
    + eapply room_all; [exact R|discriminate].
    + apply HU.
    + intros ->. exact B.
    + intros bytes. destruct p; reflexivity.
    + reflexivity.
Qed.
Lemma cbc_outcome p iv : unwrap_room (UCbc p iv) w (zlen input) mem -> some_block (UCbc p iv) (zlen input) ->
  outcome (UCbc p iv) (ta_unwrap U (UCbc p iv) rights t curve w now input mem stack answer alloc).
Proof.
  intros R B. unfold ta_unwrap. cbn zeta. destruct iv as [iv|]; [|apply refused; [discriminate|intros n []]].
  eapply checked; [status|iffs| |].
  - intros bytes (M & A & W & _). cbn in A, W. tauto.
  - intros (I & A & M & W). destruct I as (iv' & -> & Li). apply blocks_outcome; auto.
    + eapply room_all; [exact R|discriminate].
    + apply HU.
    + intros ->. exact B.
    + intros bytes. destruct p; reflexivity.
    + split; [|exact A]. now exists iv'.
    + reflexivity.
Qed.
Lemma ctr_outcome ctr : unwrap_room (UCtr ctr) w (zlen input) mem ->
  outcome (UCtr ctr) (ta_unwrap U (UCtr ctr) rights t curve w now input mem stack answer alloc).
Proof.
  intros R. unfold ta_unwrap. cbn zeta. destruct ctr as [ctr|]; [|apply refused; [discriminate|intros n []]].
  eapply checked; [status|iffs| |].
  - intros bytes (M & A & W & _). cbn in A, W. tauto.
  - intros (I & M & W). destruct I as (c & -> & Lc). unfold unwrap_ctr.
    destruct (room_all _ R ltac:(discriminate)) as [E|(buf & E & Hb)]; rewrite E; [now apply no_memory|].
    rewrite (key_length_aes (proj1 W)). replace (negb (k_size w =? 16) && (k_size w <? 32)) with false by lia.
    apply imports_all; auto.
    + intros q Eq. injection Eq as <-. apply HU.
    + intros bytes. cbn. split; [now intros ->|]. intros Eq. now injection Eq.
    + now exists c.
    + reflexivity.
Qed.
Lemma gcm_outcome p : unwrap_room (UGcm p) w (zlen input) mem -> short_aad (UGcm p) ->
  outcome (UGcm p) (ta_unwrap U (UGcm p) rights t curve w now input mem stack answer alloc).
Proof.
  intros R S. unfold ta_unwrap. cbn zeta. destruct p as [[[iv aad] tag]|]; [|apply refused; [discriminate|intros n []]].
  eapply (checked _ _ (present iv 12 /\ given aad /\ (exists t', tag = Bytes t' /\ zlen t' <= 16) /\ may_unwrap w now /\ _)).
  - status. destruct tag; [discriminate|apply check_status; discriminate].
  - iffs. destruct tag as [m|l]; [split; [discriminate|intros (l & E & _); discriminate]|]. rewrite passes. split.
    + intros H. exists l. split; [reflexivity|lia].
    + intros (l' & E & H). injection E as <-. lia.
  - intros bytes (M & A & W & _). cbn in A, W. tauto.
  - intros (I & G & T & M & W). destruct I as (iv' & -> & Li). destruct T as (tag' & -> & Lt). unfold unwrap_gcm.
    destruct (room_all _ R ltac:(discriminate)) as [E|(buf & E & Hb)]; rewrite E; [now apply no_memory|].
    assert (G' := proj2 (given_iff aad) G). apply negb_true_iff in G'. rewrite G'. cbn [in_length].
    change (Z.of_nat (length iv')) with (zlen iv'). change (Z.of_nat (length tag')) with (zlen tag'). rewrite Li. cbn [Z.eqb negb].
    change (12 =? 12) with true. cbn [negb]. replace (16 <? zlen tag') with false by lia.
    rewrite (key_length_aes (proj1 W)). replace ((k_size w =? 16) || (k_size w =? 32)) with true by lia. cbn [negb in_bytes].
    cbn in S. apply imports_all; auto.
    + intros q. rewrite aad_ok by exact S. apply HU.
    + intros bytes. rewrite aad_ok by exact S. reflexivity.
    + split; [now exists iv'|]. split; [exact G|now exists tag'].
    + reflexivity.
Qed.
Lemma chacha_outcome p : unwrap_room (UChacha p) w (zlen input) mem ->
  outcome (UChacha p) (ta_unwrap U (UChacha p) rights t curve w now input mem stack answer alloc).
Proof.
  intros R. unfold ta_unwrap. cbn zeta. destruct p as [[counter nonce]|]; [|apply refused; [discriminate|intros n []]].
  eapply checked; [status|iffs| |].
  - intros bytes (M & A & W & _). cbn in A, W. tauto.
  - intros (I & J & M & W). destruct I as (c & -> & Lc). destruct J as (nn & -> & Ln). unfold unwrap_chacha.
    destruct (room_all _ R ltac:(discriminate)) as [E|(buf & E & Hb)]; rewrite E; [now apply no_memory|].
    cbn [in_bytes]. rewrite Lc, Ln.
    rewrite copy_to_ok by lia. rewrite copy_to_ok; [|lia|lia|lia|rewrite copy_to_len; lia].
    rewrite (key_length_aes (proj1 W)). replace (k_size w <? 32) with false by lia.
    match goal with |- context [u_chacha U (k_bytes w) ?a ?b] => replace a with c; [replace b with nn|] end.
    + apply imports_all; auto.
      * intros q Eq. injection Eq as <-. apply HU.
      * intros bytes. cbn. split; [now intros ->|]. intros Eq. now injection Eq.
      * split; [now exists c|now exists nn].
      * reflexivity.
    + unfold zlen in *. change (Z.to_nat 4) with 4%nat. change (Z.to_nat 0) with 0%nat. change (Z.to_nat 12) with 12%nat.
      change (Z.to_nat (0 + 4)) with 4%nat. change (Z.to_nat (4 + 12)) with 16%nat. rewrite firstn_O. cbn [app].
      rewrite (firstn_all2 c) by lia. rewrite (firstn_all2 nn) by lia.
      rewrite firstn_app, (firstn_all2 c) by lia. replace (4 - length c)%nat with 0%nat by lia. rewrite firstn_O, app_nil_r.
      rewrite skipn_app, (skipn_all2 c) by lia. replace (4 - length c)%nat with 0%nat by lia. rewrite skipn_O. cbn [app].
      rewrite (skipn_all2 (c ++ skipn 4 stack)), app_nil_r; [reflexivity|].
      rewrite app_length, skipn_length. lia.
    + unfold zlen in *. change (Z.to_nat 4) with 4%nat. change (Z.to_nat 0) with 0%nat. change (Z.to_nat 12) with 12%nat.
      change (Z.to_nat (0 + 4)) with 4%nat. rewrite firstn_O. cbn [app].
      rewrite (firstn_all2 c) by lia.
      rewrite firstn_app, firstn_firstn. cbn [Init.Nat.min].
      rewrite firstn_app, (firstn_all2 c) by lia. replace (4 - length c)%nat with 0%nat by lia. rewrite firstn_O, app_nil_r.
      replace (4 - length c)%nat with 0%nat by lia. now rewrite firstn_O, app_nil_r.
Qed.
Lemma poly_outcome p : unwrap_room (UPoly p) w (zlen input) mem -> short_aad (UPoly p) ->
  outcome (UPoly p) (ta_unwrap U (UPoly p) rights t curve w now input mem stack answer alloc).
Proof.
  intros R S. unfold ta_unwrap. cbn zeta. destruct p as [[[iv aad] tag]|]; [|apply refused; [discriminate|intros n []]].
  eapply checked; [status|iffs| |].
  - intros bytes (M & A & W & _). cbn in A, W. tauto.
  - intros (I & G & T & M & W). destruct I as (iv' & -> & Li). destruct T as (tag' & -> & Lt). unfold unwrap_poly.
    destruct (room_all _ R ltac:(discriminate)) as [E|(buf & E & Hb)]; rewrite E; [now apply no_memory|].
    rewrite (key_length_aes (proj1 W)). replace (k_size w <? 32) with false by lia. cbn [in_bytes].
    cbn in S. apply imports_all; auto.
    + intros q. rewrite aad_ok by exact S. apply HU.
    + intros bytes. rewrite aad_ok by exact S. reflexivity.
    + split; [now exists iv'|]. split; [exact G|now exists tag'].
    + reflexivity.
Qed.
Lemma rsa_outcome alg f label : unwrap_room alg w (zlen input) mem -> (forall p, alg <> UElgamal p) ->
  (label_missing alg <-> match label with Null m => m <> 0 | Bytes _ => False end) ->
  (forall l p, f l = Some p -> zlen p <= zlen l) ->
  (forall bytes, contains U alg (k_bytes w) (p_curve (k_params w)) input bytes <-> f input = Some bytes) ->
  (~ label_missing alg -> arguments_ok alg w (zlen input)) -> wrapping_ok alg w -> content_type_ok alg t curve ->
  t = 0 -> (k_type w = 2 /\ size_allowed 2 0 (k_size w)) -> may_unwrap w now -> zlen input = k_size w ->
  outcome alg (unwrap_rsa U rights w input mem answer alloc f label).
Proof.
  intros R N L Hf Hc A W CT T [Kt Ks] M E. unfold unwrap_rsa.
  destruct (room_all _ R N) as [Em|(buf & Em & Hb)]; rewrite Em; [now apply no_memory|].
  destruct (match label with Null n => negb (n =? 0) | Bytes _ => false end) eqn:El.
  { split; [discriminate|]. apply L. destruct label; [lia|discriminate]. }
  assert (NL : ~ label_missing alg). { rewrite L. destruct label; [lia|tauto]. }
  unfold outcome. destruct answer; cbn [negb]; [|split; [discriminate|intros X; discriminate X]].
  rewrite (proj2 Hw Kt). rewrite E.
  assert (0 < k_size w) by (inversion Ks; subst; cbn [In] in *; lia).
  replace (k_size w =? 0) with false by lia. replace (k_size w <? k_size w) with false by lia.
  rewrite Z.eqb_refl. cbn [negb].
  destruct (f input) as [p|] eqn:Ef.
  - rewrite put_exact; [|specialize (Hf _ _ Ef); unfold zlen in *; lia].
    rewrite firstn_app, Nat.sub_diag, firstn_O, app_nil_r, firstn_all.
    change KT_SYMMETRIC with 0. assert (I := import_ok U rights w 0 curve p alloc).
    assert (Ei : import_key U rights (k_rights w) 0 None p alloc = import_key U rights (k_rights w) 0 curve p alloc) by reflexivity.
    rewrite Ei. subst t. destruct (import_key _ _ _ _ _ _ _); try contradiction.
    + destruct I as (I1 & I2 & I3 & I4). exists p. split; [|exact I1].
      split; [exact M|]. split; [now apply A|]. split; [exact W|]. split; [exact CT|].
      split; [exact I4|]. split; [now apply Hc|exact I3].
    + destruct I as (I1 & I2). split; [exact I1|]. intros _ Hal _ bytes (_ & _ & _ & T & V & C & S).
      apply Hc in C. assert (X : Some bytes = Some p) by congruence. injection X as ->. auto.
  - split; [discriminate|]. intros _ _ _ bytes (_ & _ & _ & _ & V & C & S). apply Hc in C. congruence.
Qed.
Lemma pkcs1_outcome : unwrap_room UPkcs1 w (zlen input) mem ->
  outcome UPkcs1 (ta_unwrap U UPkcs1 rights t curve w now input mem stack answer alloc).
Proof.
  intros R. unfold ta_unwrap. cbn zeta. eapply checked; [status|iffs| |].
  - intros bytes (M & A & W & C & _). cbn in A, W, C. tauto.
  - intros (T & K & M & E). eapply rsa_outcome; eauto.
    + discriminate.
    + cbn. lia.
    + apply HU.
    + reflexivity.
Qed.
Lemma oaep_outcome p : unwrap_room (UOaep p) w (zlen input) mem ->
  outcome (UOaep p) (ta_unwrap U (UOaep p) rights t curve w now input mem stack answer alloc).
Proof.
  intros R. unfold ta_unwrap. cbn zeta. eapply checked; [status|iffs| |].
  - intros bytes (M & A & W & C & _). cbn in A, W, C. destruct p as [[[d m] l]|]; tauto.
  - intros (T & K & M & E). destruct p as [[[d m] label]|]; [|apply refused; [discriminate|intros n []]].
    eapply rsa_outcome; eauto.
    + discriminate.
    + destruct label; reflexivity.
    + apply HU.
    + reflexivity.
    + intros NL. split; [exact E|]. destruct label; [|exact Logic.I]. cbn in NL. lia.
Qed.
Lemma elgamal_outcome p : unwrap_room (UElgamal p) w (zlen input) mem -> wide_parameters (UElgamal p) ->
  outcome (UElgamal p) (ta_unwrap U (UElgamal p) rights t curve w now input mem stack answer alloc).
Proof.
  intros R Wide. unfold ta_unwrap. cbn zeta. eapply checked; [status|iffs| |].
  - intros bytes (M & A & W & C & _). exact C.
  - intros T. destruct p as [[offset n]|]; [|apply refused; [discriminate|intros k []]].
    eapply checked; [status|iffs| |].
    + intros bytes (M & A & W & C & _). cbn in W. tauto.
    + intros (M & Kt & Ks). destruct (ec_size_of _ _ Ks) as [Es Ep]. unfold unwrap_ec. rewrite Es. cbn zeta.
      cbn in Wide. unfold unwrap_room in R. rewrite Es in R.
      assert (Bound : k_size w < 2 ^ 64).
      { clear -Ks. inversion Ks as [| |c s H|]; subst. cbn [In] in H.
        repeat (destruct H as [H|H]; [injection H as _ <-; lia|]). contradiction. }
      replace (k_size w =? 0) with false by lia.
      destruct (n <? 16) eqn:E16.
      { split; [discriminate|]. intros _ _ _ bytes (_ & A & _). cbn in A. lia. }
      destruct (add_overflow offset n) as [o total] eqn:Ea.
      unfold add_overflow, wrap64 in Ea. injection Ea as Eo Et.
      destruct o.
      { split; [discriminate|]. intros _ _ _ bytes (_ & A & _). cbn in A. rewrite W64_val in Eo. lia. }
      assert (total = offset + n) by (subst total; apply Z.mod_small; rewrite W64_val in *; lia). clear Et. subst total.
      destruct (k_size w <? offset + n) eqn:El.
      { split; [discriminate|]. intros _ _ _ bytes (_ & A & _). cbn in A. lia. }
      destruct (zlen input =? k_size w * 4) eqn:E4; cbn [negb].
      2: { split; [discriminate|]. intros _ _ _ bytes (_ & A & _). cbn in A. lia. }
      destruct mem as [buf|] eqn:Em; [|split; [discriminate|intros _ _ X; now contradict X]].
      unfold outcome. destruct answer; cbn [negb]; [|split; [discriminate|intros X; discriminate X]].
      destruct (u_elgamal U (k_bytes w) (p_curve (k_params w)) input) as [point|] eqn:Eg.
      2: { split; [discriminate|]. intros _ _ _ bytes (_ & _ & _ & _ & _ & C & _). cbn in C. destruct C as (q & C & _). congruence. }
      assert (Lp : zlen point = k_size w).
      { destruct HU as (_ & _ & _ & _ & _ & _ & _ & _ & G & _). apply G in Eg. lia. }
      rewrite put_all by lia. rewrite Lp, Z.eqb_refl. cbn [negb]. replace (k_size w <? offset + n) with false by lia.
      change KT_SYMMETRIC with 0. set (key := firstn _ _).
      assert (I := import_ok U rights w 0 curve key alloc).
      assert (Ei : import_key U rights (k_rights w) 0 None key alloc = import_key U rights (k_rights w) 0 curve key alloc) by reflexivity.
      rewrite Ei. subst t. destruct (import_key _ _ _ _ _ _ _); try contradiction.
      * destruct I as (I1 & I2 & I3 & I4). exists key. split; [|exact I1].
        split; [exact M|]. split; [cbn; lia|]. split; [now split|]. split; [reflexivity|]. split; [exact I4|]. split; [|exact I3].
        exists point. split; [exact Eg|]. split; [lia|]. split; [lia|]. split; [lia|reflexivity].
      * destruct I as (I1 & I2). split; [exact I1|]. intros _ Hal _ bytes (_ & _ & _ & T & V & C & S).
        destruct C as (q & Cq & _ & _ & _ & ->). rewrite Eg in Cq. injection Cq as <-. apply I2; auto.
Qed.
End Outcome.

Lemma unwrap_outcome U alg rights t curve w now input mem stack answer alloc :
  good_ulib U -> honest U w -> zlen input < 2 ^ 31 -> zlen stack = 16 -> unwrap_room alg w (zlen input) mem ->
  wide_parameters alg -> short_aad alg -> some_block alg (zlen input) ->
  outcome U rights t curve w now input mem answer alloc alg (ta_unwrap U alg rights t curve w now input mem stack answer alloc).
Proof.
  intros HU Hw Hn Hs R W S B. destruct alg.
  - now apply ecb_outcome.
  - now apply cbc_outcome.
  - now apply ctr_outcome.
  - now apply gcm_outcome.
  - now apply chacha_outcome.
  - now apply poly_outcome.
  - now apply pkcs1_outcome.
  - now apply oaep_outcome.
  - now apply elgamal_outcome.
  - apply refused; [discriminate|intros n []].
Qed.

Lemma unwrap_value U alg rights t curve w now input mem stack answer alloc :
  good_ulib U -> honest U w -> zlen input < 2 ^ 31 -> zlen stack = 16 -> unwrap_room alg w (zlen input) mem ->
  wide_parameters alg -> short_aad alg -> some_block alg (zlen input) ->
  match ta_unwrap U alg rights t curve w now input mem stack answer alloc with
  | UKey k => exists bytes, unwrappable U alg rights t curve w now input bytes /\ key_made U rights w t curve bytes k
  | UFails s => s <> OK
  | ULeak s => s <> OK /\ label_missing alg
  | _ => False
  end.
Proof.
  intros HU Hw Hn Hs R W S B. assert (O := unwrap_outcome U alg rights t curve w now input mem stack answer alloc HU Hw Hn Hs R W S B).
  unfold outcome in O. destruct (ta_unwrap _ _ _ _ _ _ _ _ _ _ _ _); try contradiction; tauto.
Qed.
Lemma contains_one U alg key c input a b : contains U alg key c input a -> contains U alg key c input b -> a = b.
Proof.
  destruct alg as [p|p iv|ctr|g|g|g| |g|g|]; cbn; try tauto; try congruence.
  - destruct p; [intros A B; rewrite A in B; now apply pad_inj|congruence].
  - destruct p, iv as [[|]|]; try tauto; try congruence. intros A B. rewrite A in B. now apply pad_inj.
  - destruct ctr as [[|]|]; try tauto; congruence.
  - destruct g as [[[[|] ?] [|]]|]; try tauto; congruence.
  - destruct g as [[[|] [|]]|]; try tauto; congruence.
  - destruct g as [[[[|] ?] [|]]|]; try tauto; congruence.
  - destruct g as [[[? ?] ?]|]; try tauto; congruence.
  - destruct g as [[? ?]|]; try tauto. intros (p & A & _ & _ & _ & ->) (q & B & _ & _ & _ & ->). congruence.
Qed.
Lemma unwrap_accepted U alg rights t curve w now input mem stack bytes :
  good_ulib U -> honest U w -> zlen input < 2 ^ 31 -> zlen stack = 16 -> unwrap_room alg w (zlen input) mem -> mem <> None ->
  wide_parameters alg -> short_aad alg -> some_block alg (zlen input) ->
  unwrappable U alg rights t curve w now input bytes ->
  exists k, ta_unwrap U alg rights t curve w now input mem stack true true = UKey k /\ key_made U rights w t curve bytes k.
Proof.
  intros HU Hw Hn Hs R M W S B Hb. assert (O := unwrap_outcome U alg rights t curve w now input mem stack true true HU Hw Hn Hs R W S B).
  unfold outcome in O. destruct (ta_unwrap _ _ _ _ _ _ _ _ _ _ _ _); try contradiction.
  - destruct O as (b & Ub & K). exists k. split; [reflexivity|]. assert (b = bytes); [|now subst].
    destruct Ub as (_ & _ & _ & _ & _ & C & _). destruct Hb as (_ & _ & _ & _ & _ & C' & _). eapply contains_one; eassumption.
  - destruct O as [_ O]. now destruct (O eq_refl eq_refl M bytes).
  - destruct O as [_ L]. exfalso. destruct Hb as (_ & A & _). destruct alg as [| | | | | | |p| |]; try contradiction.
    destruct p as [[[d m] [n|l]]|]; try contradiction. cbn in L, A. lia.
Qed.

(** ** Padding *)
Lemma int_of_le n : 0 <= n -> int_of n <= n.
Proof.
  intros H. unfold int_of. cbn zeta. assert (n mod 2 ^ 32 <= n) by (apply Z.mod_le; lia).
  destruct (_ <? _); lia.
Qed.
Lemma evp_length buf input f answer : zlen buf = zlen input -> (forall l : list Z, zlen (f l : list Z) = zlen l) ->
  match evp_decrypt buf input (fun l => Some (f l)) answer with
  | Some (Some b) => zlen b = zlen input | Some None => False | None => True end.
Proof.
  intros Hb Hf. unfold evp_decrypt. cbn zeta. destruct ((int_of (zlen input) <? 0) || negb answer) eqn:E; [exact I|].
  assert (L := int_of_le (zlen input) ltac:(unfold zlen; lia)).
  assert (Lf := Hf (firstn (Z.to_nat (int_of (zlen input))) input)).
  unfold put. set (p := f _) in *. assert (length p <= length buf)%nat.
  { unfold zlen in *. rewrite firstn_length in Lf. lia. }
  rewrite (proj2 (Nat.leb_le _ _) H). unfold zlen in *. rewrite app_length, skipn_length. lia.
Qed.
Lemma import_no_crash U rights w t curve bytes alloc : import_key U rights (k_rights w) t curve bytes alloc <> UCrash.
Proof. assert (I := import_ok U rights w t curve bytes alloc). now destruct (import_key _ _ _ _ _ _ _). Qed.
Lemma blocks_bounds U rights t curve w input mem answer alloc pkcs7 f : match mem with None => True | Some m => zlen m = zlen input end ->
  (forall l : list Z, zlen (f l : list Z) = zlen l) -> 0 < zlen input ->
  unwrap_blocks U rights t curve w input mem answer alloc pkcs7 f <> UCrash.
Proof.
  intros R Hf Hp. unfold unwrap_blocks. destruct mem as [buf|]; [|discriminate].
  destruct (zlen input mod 16 =? 0) eqn:Em; cbn [negb]; [|discriminate].
  destruct ((zlen (k_bytes w) =? 16) || (zlen (k_bytes w) =? 32)); cbn [negb]; [|discriminate].
  assert (E := evp_length buf input f answer R Hf). destruct (evp_decrypt _ _ _ _) as [[b|]|]; try discriminate; [|contradiction].
  unfold import_padded. cbn zeta. rewrite E. destruct pkcs7; [|apply import_no_crash].
  assert (16 <= zlen input) by (assert (D := Z.div_mod (zlen input) 16 ltac:(lia)); lia).
  replace (zlen input - 16 <? 0) with false by lia.
  destruct (pad_check_pkcs7 _) as [q ok]. destruct ok; cbn [negb]; [|discriminate]. apply import_no_crash.
Qed.
Lemma padded_bounds U alg rights t curve w now input mem stack answer alloc :
  good_ulib U -> padded alg -> unwrap_room alg w (zlen input) mem -> 0 < zlen input ->
  ta_unwrap U alg rights t curve w now input mem stack answer alloc <> UCrash.
Proof.
  intros HU P R H. destruct alg as [p|p iv| | | | | | | |]; try contradiction; (destruct p; [|contradiction]).
  - unfold ta_unwrap. cbn zeta. destruct (then_ _ _); [discriminate|]. apply blocks_bounds; auto. apply HU.
  - unfold ta_unwrap. cbn zeta. destruct iv as [iv|]; [|discriminate]. destruct (then_ _ _); [discriminate|].
    apply blocks_bounds; auto. apply HU.
Qed.
Lemma padded_empty U alg rights t curve w now m stack : padded alg -> good_ulib U -> honest U w ->
  may_unwrap w now -> wrapping_ok alg w -> arguments_ok alg w 0 ->
  m = [] -> ta_unwrap U alg rights t curve w now [] (Some m) stack true true = UCrash.
Proof.
  intros P HU Hw M W A ->. destruct M as [M1 M2]. assert (M := proj2 (unwrap_allowed_iff w now) (conj M1 M2)).
  destruct alg as [p|p iv| | | | | | | |]; try contradiction; (destruct p; [|contradiction]); cbn in W.
  - assert (K := proj2 (aes_iff w) W). unfold ta_unwrap. cbn zeta. rewrite M, K. cbn [check then_ zlen length Z.of_nat Z.modulo Z.eqb Z.div_eucl].
    unfold unwrap_blocks. rewrite (proj1 Hw (proj1 W)). cbn [zlen length].
    replace ((k_size w =? 16) || (k_size w =? 32)) with true by lia. cbn [negb]. rewrite evp_ok; [|cbn; lia|reflexivity|].
    + replace (u_ecb U (k_bytes w) []) with ([] : list Z); [reflexivity|].
      assert (L := proj1 HU (k_bytes w) []). destruct (u_ecb U (k_bytes w) []); [reflexivity|discriminate].
    + intros p E. injection E as <-. apply HU.
  - destruct iv as [iv|]; [|contradiction]. destruct A as [(v & -> & Lv) _].
    assert (K := proj2 (aes_iff w) W). unfold ta_unwrap. cbn zeta. rewrite M, K. unfold exactly. rewrite Lv.
    cbn [check then_ zlen length Z.of_nat Z.modulo Z.eqb Z.div_eucl Pos.eqb in_bytes].
    unfold unwrap_blocks. rewrite (proj1 Hw (proj1 W)). cbn [zlen length].
    replace ((k_size w =? 16) || (k_size w =? 32)) with true by lia. cbn [negb]. rewrite evp_ok; [|cbn; lia|reflexivity|].
    + replace (u_cbc U (k_bytes w) v []) with ([] : list Z); [reflexivity|].
      assert (L := proj1 (proj2 HU) (k_bytes w) v []). destruct (u_cbc U (k_bytes w) v []); [reflexivity|discriminate].
    + intros p E. injection E as <-. apply HU.
Qed.

(** ** Toy ciphers *)
Definition toy_stream (k l : list Z) : list Z := map (fun x => Z.lxor x (Z.modulo (fold_right Z.add 0 k) 251)) l.
Definition toy_ulib : ulib := MkUlib toy_stream (fun k i => toy_stream (k ++ i)) (fun k i => toy_stream (k ++ 1 :: i))
  (fun k i a t l => if fold_right Z.add 0 (k ++ i ++ a ++ l) mod 251 =? hd 0 t then Some (toy_stream (k ++ i) l) else None)
  (fun k c n => toy_stream (k ++ c ++ n))
  (fun k i a t l => if fold_right Z.add 0 (k ++ i ++ a ++ l) mod 251 =? hd 0 t then Some (toy_stream (k ++ i) l) else None)
  (fun k l => if hd 0 l =? 2 then Some (toy_stream k (tl l)) else None)
  (fun k d m b l => if hd 0 l =? d + m then Some (toy_stream (k ++ b) (firstn 32 l)) else None)
  (fun k c l => if zlen l mod 4 =? 0 then Some (toy_stream k (firstn (length l / 4) l)) else None)
  (fun _ => 128) (fun c _ => ec_key_size_from_curve c).
Lemma toy_stream_length k l : zlen (toy_stream k l) = zlen l.
Proof. unfold zlen, toy_stream. now rewrite map_length. Qed.
Lemma toy_ugood : good_ulib toy_ulib.
Proof.
  unfold good_ulib. cbn [toy_ulib u_ecb u_cbc u_ctr u_gcm u_chacha u_poly u_pkcs1 u_oaep u_elgamal u_rsa_size].
  repeat apply conj; intros; try apply toy_stream_length; try lia.
  - destruct (_ =? _); [|discriminate]. injection H as <-. apply toy_stream_length.
  - destruct (_ =? _); [|discriminate]. injection H as <-. apply toy_stream_length.
  - destruct (_ =? _); [|discriminate]. injection H as <-. rewrite toy_stream_length. unfold zlen. destruct l; cbn [tl length]; lia.
  - destruct (_ =? _); [|discriminate]. assert (E : p = toy_stream (k ++ b) (firstn 32 l)) by congruence. rewrite E, toy_stream_length. unfold zlen. rewrite firstn_length. lia.
  - destruct (zlen l mod 4 =? 0) eqn:E; [|discriminate].
    assert (Ep : p = toy_stream k (firstn (length l / 4) l)) by congruence. rewrite Ep, toy_stream_length. clear Ep H.
    unfold zlen in *. rewrite firstn_length. apply Z.eqb_eq in E.
    assert (D := Z.div_mod (Z.of_nat (length l)) 4 ltac:(lia)). rewrite E in D. clear E.
    assert (Q : Z.of_nat (length l / 4) = Z.of_nat (length l) / 4) by (rewrite Nat2Z.inj_div; reflexivity).
    set (q := (length l / 4)%nat) in *. clearbody q. set (z := Z.of_nat (length l) / 4) in *. clearbody z. lia.
Qed.

Definition toy_wrapping (t n : Z) : stored_key := MkKey plain_rights t (MkParams 0 ([], [])) n (repeat 7 (Z.to_nat (if t =? 1 then 40 else n))).
Lemma toy_honest t n : In (t, n) [(0, 16); (0, 32); (1, 32); (2, 128)] -> honest toy_ulib (toy_wrapping t n).
Proof.
  intros H. split; cbn [toy_wrapping k_type k_bytes k_size toy_ulib u_rsa_size]; intros ->; cbn [In] in H.
  - destruct H as [H|[H|[H|[H|[]]]]]; injection H; intros; subst; try discriminate; reflexivity.
  - destruct H as [H|[H|[H|[H|[]]]]]; injection H; intros; subst; try discriminate; reflexivity.
Qed.

(** ** Lengths from 2 GiB *)
Definition huge : Z := 2 ^ 32 + 16.
Lemma int_of_huge : int_of huge = 16.
Proof. reflexivity. Qed.
Lemma huge_nat : exists n, Z.of_nat n = huge.
Proof. exists (Z.to_nat huge). apply Z2Nat.id. discriminate. Qed.
Lemma huge_repeat (x : Z) n : Z.of_nat n = huge -> zlen (repeat x n) = huge.
Proof. unfold zlen. now rewrite repeat_length. Qed.
Lemma repeat_more (x : Z) n m : (n <= m)%nat -> firstn n (repeat x m) = repeat x n.
Proof. intros H. replace m with (n + (m - n))%nat by lia. rewrite repeat_app, firstn_app, repeat_length, Nat.sub_diag, firstn_O, app_nil_r.
  apply firstn_all2. rewrite repeat_length. lia. Qed.
Definition id_lib : ulib := MkUlib (fun _ l => l) (fun _ _ l => l) (fun _ _ l => l)
  (fun _ _ a _ l => if zlen a =? 16 then Some l else None) (fun _ _ _ l => l)
  (fun _ _ a _ l => if zlen a =? 16 then Some l else None) (fun _ _ => None) (fun _ _ _ _ _ => None) (fun _ _ _ => None)
  (fun _ => 128) (fun _ _ => 0).
Lemma id_good : good_ulib id_lib.
Proof.
  unfold good_ulib. cbn [id_lib u_ecb u_cbc u_ctr u_gcm u_chacha u_poly u_pkcs1 u_oaep u_elgamal u_rsa_size].
  repeat apply conj; intros; try lia; try discriminate; destruct (_ =? _); try discriminate; now injection H as <-.
Qed.
Lemma nth_repeat_skip (l : list Z) x : (16 <= length l)%nat -> nth_error (firstn 16 l ++ repeat x 1) 16 = Some x.
Proof. intros H. rewrite nth_error_app2; rewrite firstn_length; [|lia]. replace (16 - Nat.min 16 (length l))%nat with 0%nat by lia. reflexivity. Qed.

Lemma huge_input : exists U w input m k,
  good_ulib U /\ honest U w /\ zlen input < 2 ^ 64 /\ zlen m = zlen input /\
  ta_unwrap U (UEcb false) plain_rights 2 None w 5 input (Some m) (repeat 0 16) true true = UKey k /\
  ~ contains U (UEcb false) (k_bytes w) 0 input (k_bytes k) /\ In 9 (k_bytes k) /\ ~ In 9 (u_ecb U (k_bytes w) input).
Proof.
  destruct huge_nat as [n Hn].
  assert (Li := huge_repeat 0 n Hn). assert (Lm := huge_repeat 9 n Hn).
  assert (Big : (16 <= n)%nat) by (unfold huge in Hn; lia).
  assert (In9 : In 9 (repeat 0 16 ++ skipn 16 (repeat 9 n))).
  { apply in_or_app. right. replace n with (16 + S (n - 17))%nat by (unfold huge in Hn; lia).
    rewrite repeat_app, skipn_app, repeat_length, Nat.sub_diag, skipn_O. apply in_or_app. right. now left. }
  assert (No9 : ~ In 9 (repeat 0 n)). { intros H. apply repeat_spec in H. discriminate. }
  assert (F := repeat_more 0 16 n Big). assert (Lr := repeat_length 9 n).
  generalize dependent (repeat 0 n). intros input Li No9 F. generalize dependent (repeat 9 n). intros m Lm In9 Lr.
  exists id_lib, (toy_wrapping 0 16), input, m.
  exists (MkKey (restrict_child_rights plain_rights (Some plain_rights)) 2 no_params 128 (repeat 0 16 ++ skipn 16 m)).
  split; [exact id_good|]. split; [split; [reflexivity|discriminate]|]. split; [rewrite Li; reflexivity|]. split; [congruence|].
  split.
  - unfold ta_unwrap. cbn zeta. rewrite Li. change (huge mod 16 =? 0) with true.
    change (rights_allowed_unwrap (k_rights (toy_wrapping 0 16)) 5) with true.
    change (key_type_supports_aes (k_type (toy_wrapping 0 16)) (k_size (toy_wrapping 0 16))) with true. cbn [check then_].
    unfold unwrap_blocks. rewrite Li. change (huge mod 16 =? 0) with true. change (zlen (k_bytes (toy_wrapping 0 16))) with 16. cbn [negb orb Z.eqb Pos.eqb].
    unfold evp_decrypt. rewrite Li, int_of_huge. cbn zeta. cbn [Z.ltb Z.compare orb negb]. change (Z.to_nat 16) with 16%nat.
    cbn [id_lib u_ecb]. rewrite F.
    rewrite put_exact by (rewrite repeat_length, Lr; exact Big).
    rewrite repeat_length. reflexivity.
  - split; [|split; [exact In9|exact No9]]. cbn [contains id_lib u_ecb k_bytes]. intros E. rewrite E in In9. now apply No9.
Qed.
Lemma huge_aad : exists U w iv aad tag input m k,
  good_ulib U /\ honest U w /\ zlen input < 2 ^ 31 /\ zlen aad < 2 ^ 64 /\ zlen m = zlen input /\
  ta_unwrap U (UGcm (Some (Bytes iv, Bytes aad, Bytes tag))) plain_rights 0 None w 5 input (Some m) (repeat 0 16) true true = UKey k /\
  u_gcm U (k_bytes w) iv aad tag input = None.
Proof.
  destruct huge_nat as [n Hn]. assert (La := huge_repeat 0 n Hn).
  assert (Big : (16 <= n)%nat) by (unfold huge in Hn; lia). assert (F := repeat_more 0 16 n Big).
  generalize dependent (repeat 0 n). intros aad La F.
  exists id_lib, (toy_wrapping 0 16), (repeat 1 12), aad, (repeat 2 16), (repeat 3 16), (repeat 9 16).
  exists (MkKey (restrict_child_rights plain_rights (Some plain_rights)) 0 no_params 16 (repeat 3 16)).
  split; [exact id_good|]. split; [split; [reflexivity|discriminate]|]. split; [reflexivity|]. split; [rewrite La; reflexivity|]. split; [reflexivity|].
  split.
  - unfold ta_unwrap. cbn zeta.
    change (rights_allowed_unwrap (k_rights (toy_wrapping 0 16)) 5) with true.
    change (key_type_supports_aes (k_type (toy_wrapping 0 16)) (k_size (toy_wrapping 0 16))) with true.
    change (exactly (Bytes (repeat 1 12)) 12) with (@None status). change (zlen (repeat 2 16) <=? 16) with true. cbn [bad_input negb check then_].
    unfold unwrap_gcm. change (in_length (Bytes (repeat 1 12)) =? 12) with true. change (16 <? in_length (Bytes (repeat 2 16))) with false.
    change (zlen (k_bytes (toy_wrapping 0 16))) with 16. cbn [bad_input negb orb Z.eqb Pos.eqb in_bytes].
    unfold evp_decrypt. change (int_of (zlen (repeat 3 16))) with 16. cbn zeta. cbn [Z.ltb Z.compare orb negb].
    change (firstn (Z.to_nat 16) (repeat 3 16)) with (repeat 3 16).
    unfold evp_aad. rewrite La, int_of_huge. cbn zeta. cbn [Z.ltb Z.compare]. change (Z.to_nat 16) with 16%nat.
    rewrite F. reflexivity.
  - cbn [id_lib u_gcm]. rewrite La. reflexivity.
Qed.

Lemma padding_removed U alg rights t curve w now input mem stack answer alloc k :
  good_ulib U -> honest U w -> padded alg -> 0 < zlen input < 2 ^ 31 -> zlen stack = 16 -> unwrap_room alg w (zlen input) mem ->
  ta_unwrap U alg rights t curve w now input mem stack answer alloc = UKey k ->
  match alg with
  | UEcb _ => u_ecb U (k_bytes w) input = pkcs7_pad (k_bytes k)
  | UCbc _ (Some (Bytes iv)) => u_cbc U (k_bytes w) iv input = pkcs7_pad (k_bytes k)
  | _ => False
  end.
Proof.
  intros HU Hw P Hn Hs R E.
  assert (V := unwrap_value U alg rights t curve w now input mem stack answer alloc HU Hw ltac:(lia) Hs R).
  rewrite E in V. destruct V as (bytes & Ub & K).
  - destruct alg; try exact I. contradiction.
  - destruct alg; try exact I; contradiction.
  - destruct alg as [p|p iv| | | | | | | |]; try contradiction; destruct p; try contradiction; apply Hn.
  - destruct Ub as (_ & _ & _ & _ & _ & C & _). unfold key_made in K. subst k. cbn [k_bytes].
    destruct alg as [p|p iv| | | | | | | |]; try contradiction; destruct p; try contradiction; exact C.
Qed.
Lemma oaep_leak U rights curve w now input m stack answer alloc d mgf n : n <> 0 ->
  may_unwrap w now -> wrapping_ok (UOaep None) w -> zlen input = k_size w ->
  ta_unwrap U (UOaep (Some (d, mgf, Null n))) rights 0 curve w now input (Some m) stack answer alloc = ULeak INVALID_PARAMETER.
Proof.
  intros Hn M W E. unfold ta_unwrap. cbn zeta.
  rewrite (proj2 (unwrap_allowed_iff w now) M), (proj2 (rsa_iff w) W), (proj2 (Z.eqb_eq _ _) E).
  cbn [check then_ Z.eqb]. change (0 =? KT_SYMMETRIC) with true. cbn [check then_].
  unfold unwrap_rsa. replace (n =? 0) with false by lia. reflexivity.
Qed.
