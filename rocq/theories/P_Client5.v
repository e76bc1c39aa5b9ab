(** Proofs for S_Client: calls that are refused. *)
From Verif Require Import Base M_KeyStore P_KeyStore M_Marshal S_Marshal P_Marshal M_Client S_Client P_Client P_Client2.

Section All.
Variable imp : app -> reply.
Variable junk : nat -> nat -> bytes.
Variable initial : Z.
Hypothesis Himp : word_sized imp.
Hypothesis Hjunk : allocator junk.
Hypothesis Hinit : is_u64 initial.

(** ** Refused calls *)
Ltac denied := eapply refuse_client; [reflexivity|auto].
(** Decide the client's own tests one by one; what it refuses is refused. *)
Ltac tried := cbn [client in_buf out_buf import_params unwrap_params derive_params cipher_params]; unfold refuse_if.
Ltac ta := begin; split; [lia|]; eexists; split; [walk; reflexivity|auto].
Ltac ta_inout := eapply refuse_inout; [reflexivity|]; ta.
Ltac ta_in := eapply refuse_in; [reflexivity|]; ta.

Lemma client_refused a : (exists st, client junk initial a = Refuse st /\ (st = NULL_PARAMETER \/ st = INVALID_PARAMETER)) -> refused imp junk initial a.
Proof. intros (st & E & H). eapply refuse_client; eauto. Qed.
Ltac locally := apply client_refused; exists NULL_PARAMETER; split; [|auto].
Lemma in_bad_null n : is_u64 n -> n <> 0 -> in_bad (InNull n) = true.
Proof. unfold is_u64. cbn. lia. Qed.
Lemma not_optional x : wf_in x -> optional x = false -> in_bad x = true.
Proof. destruct x; cbn; [unfold is_u64|discriminate]. lia. Qed.

Lemma refuse_generate r type p : proper (KeyGenerate r type p) -> complete (KeyGenerate r type p) = false ->
  refused imp junk initial (KeyGenerate r type p).
Proof. start. destruct p as [| | | |[|] [|]]; try discriminate; denied. Qed.
Lemma refuse_export o m k : proper (KeyExport o m k) -> complete (KeyExport o m k) = false -> refused imp junk initial (KeyExport o m k).
Proof.
  start; split_all. apply andb_false_iff in H0. destruct (match o with OutNull n => 0 <? n | Out _ _ _ => false end) eqn:E.
  - locally. tried. rewrite E. reflexivity.
  - destruct H0 as [H0|H0].
    + destruct o; [|discriminate]. cbn in H. unfold is_u64 in H. lia.
    + locally. tried. rewrite E, not_optional by auto. reflexivity.
Qed.
Lemma refuse_import f d p : proper (KeyImport f d p) -> complete (KeyImport f d p) = false -> refused imp junk initial (KeyImport f d p).
Proof.
  start; split_all. destruct (in_bad d) eqn:E; [locally; tried; rewrite E; reflexivity|].
  assert (D : filled d = true \/ d = InNull 0 \/ d = In []).
  { destruct d as [n|[|]]; auto. cbn in H1, E. unfold is_u64 in H1. right. left. f_equal. lia. }
  destruct p.
  - destruct ((f =? 3) || (f =? 4)) eqn:F.
    + rewrite andb_true_r in H0. destruct D as [D|D]; [congruence|].
      assert (f = 3 \/ f = 4) as [-> | ->] by lia; destruct D as [-> | ->]; ta_inout.
    + apply orb_false_iff in F. destruct F as [F1 F2].
      destruct ((0 <=? f) && (f <=? 5)) eqn:G.
      * locally. tried. rewrite E. unfold FORMAT_EXPORTED, FORMAT_SOC. rewrite F1, F2. cbn [orb]. rewrite G. reflexivity.
      * apply client_refused. eexists. split; [|right; reflexivity]. tried. rewrite E. unfold FORMAT_EXPORTED, FORMAT_SOC.
        rewrite F1, F2. cbn [orb]. rewrite G. reflexivity.
  - rewrite andb_true_r in H0. split_all; subst. destruct D as [D|[-> | ->]]; [congruence| |]; ta_inout.
  - rewrite andb_true_r in H0. split_all; subst. destruct D as [D|[-> | ->]]; [congruence| |]; ta_inout.
  - rewrite andb_true_r in H0. split_all; subst. destruct D as [D|[-> | ->]]; [congruence| |]; ta_inout.
  - rewrite andb_true_r in H0. split_all; subst. destruct D as [D|[-> | ->]]; [congruence| |]; ta_inout.
  - rewrite andb_true_r in H0. split_all; subst. destruct D as [D|[-> | ->]]; [congruence| |];
      (eapply refuse_inout; [cbn [client refuse_if in_bad import_params]; rewrite H4; reflexivity|]; ta).
Qed.
Ltac case_if := match goal with |- context [if ?b then _ else _] => destruct b eqn:? end.
Ltac by_cases := tried; unfold EXCHANGE_NETFLIX, HMAC, RSA_PSS, RSA_PKCS1V15, ECDSA, EC;
  try (eexists; split; [reflexivity|auto]; fail); repeat (case_if; try (eexists; split; [reflexivity|auto]; fail)).
Lemma refuse_derive r alg p : proper (KeyDerive r alg p) -> complete (KeyDerive r alg p) = false -> refused imp junk initial (KeyDerive r alg p).
Proof.
  start; split_all. apply client_refused. destruct p; split_all; by_cases; exfalso;
  repeat match goal with H : (optional ?x && optional ?y) = false |- _ => destruct (optional x) eqn:?; cbn [andb] in H end;
  repeat match goal with H : optional _ = false |- _ => apply not_optional in H; [|assumption] end;
  repeat match goal with H : in_bad _ = true |- _ => rewrite H in * end; try discriminate; try lia.
  all: rewrite ?orb_true_r in *; discriminate.
Qed.
Lemma refuse_exchange r alg k o p : proper (KeyExchange r alg k o p) -> complete (KeyExchange r alg k o p) = false ->
  refused imp junk initial (KeyExchange r alg k o p).
Proof.
  start; split_all. destruct o as [|[|x b]]; [denied| |].
  - destruct p.
    + destruct (alg =? 2) eqn:E.
      * locally. tried. unfold EXCHANGE_NETFLIX. rewrite E. reflexivity.
      * eapply refuse_inout; [cbn [client]; unfold EXCHANGE_NETFLIX; rewrite E; reflexivity|]. ta.
    + split_all; subst. ta_inout.
  - cbn [filled andb] in H0. destruct p; [|discriminate]. locally. tried. unfold EXCHANGE_NETFLIX. apply negb_false_iff in H0. rewrite H0. reflexivity.
Qed.
Lemma refuse_random o : proper (CryptoRandom o) -> complete (CryptoRandom o) = false -> refused imp junk initial (CryptoRandom o).
Proof. start. destruct o; [denied|]. assert (len = 0) by lia. subst. ta_in. Qed.
Lemma refuse_cipher_init alg mode k p : proper (CipherInit alg mode k p) -> complete (CipherInit alg mode k p) = false ->
  refused imp junk initial (CipherInit alg mode k p).
Proof.
  start; split_all. apply client_refused. destruct p; split_all;
  repeat match goal with x : inb |- _ => destruct x; try discriminate end;
  by_cases; exfalso; cbn in *; unfold is_u64 in *; try congruence; lia.
Qed.
Lemma refuse_update_iv x i : proper (CipherUpdateIv x i) -> complete (CipherUpdateIv x i) = false -> refused imp junk initial (CipherUpdateIv x i).
Proof. start; split_all. destruct i as [|[|]]; try discriminate; [denied|ta_in]. Qed.
Lemma refuse_mac_init alg k d : proper (MacInit alg k d) -> complete (MacInit alg k d) = false -> refused imp junk initial (MacInit alg k d).
Proof.
  start; split_all. apply orb_false_iff in H0. destruct H0 as [H0 H4]. apply negb_false_iff in H0. destruct d; [discriminate|].
  locally. tried. unfold HMAC. rewrite H0. reflexivity.
Qed.
Lemma refuse_mac_process x d : proper (MacProcess x d) -> complete (MacProcess x d) = false -> refused imp junk initial (MacProcess x d).
Proof. start; split_all. locally. tried. rewrite not_optional by auto. reflexivity. Qed.
Lemma refuse_sign o alg k d p : proper (CryptoSign o alg k d p) -> complete (CryptoSign o alg k d p) = false ->
  refused imp junk initial (CryptoSign o alg k d p).
Proof.
  start; split_all. destruct (optional d) eqn:E.
  - destruct p; try discriminate. cbn [andb] in H0.
    assert ((alg =? 1) || (alg =? 0) || (alg =? 2) = true) by (unfold u32 in *; lia).
    assert (in_bad d = false) by (destruct d; cbn in *; [lia|reflexivity]).
    locally. tried. unfold RSA_PSS, RSA_PKCS1V15, ECDSA. rewrite H5, H6. reflexivity.
  - locally. tried. rewrite not_optional by auto. reflexivity.
Qed.
Lemma refuse_svp_create m s : proper (SvpCreate m s) -> complete (SvpCreate m s) = false -> refused imp junk initial (SvpCreate m s).
Proof. start; split_all. apply negb_false_iff in H0. locally. tried. rewrite H0. reflexivity. Qed.
Lemma refuse_svp_write o d l : proper (SvpWrite o d l) -> complete (SvpWrite o d l) = false -> refused imp junk initial (SvpWrite o d l).
Proof. start; split_all. destruct d as [|[|x b]]; [denied|denied|]. destruct l; [|discriminate]. ta_inout. Qed.
Lemma refuse_svp_copy o i l : proper (SvpCopy o i l) -> complete (SvpCopy o i l) = false -> refused imp junk initial (SvpCopy o i l).
Proof. start; split_all. destruct l; [|discriminate]. ta_inout. Qed.
Lemma refuse_buffer_check b o l d h : proper (SvpBufferCheck b o l d h) -> complete (SvpBufferCheck b o l d h) = false ->
  refused imp junk initial (SvpBufferCheck b o l d h).
Proof. start; split_all. destruct h as [|[|]]; try discriminate; [denied|ta_in]. Qed.
Lemma refuse_key_check k i n e : proper (SvpKeyCheck k i n e) -> complete (SvpKeyCheck k i n e) = false ->
  refused imp junk initial (SvpKeyCheck k i n e).
Proof.
  start; split_all. assert (Z1 : u32 0) by (split; reflexivity || discriminate).
  destruct e as [|e]; [denied|]. destruct i as [[|b] off|ty h off]; [denied| |].
  - unplace. destruct b; [eapply refuse_inout; [reflexivity|]; unfold CLEAR; ta|].
    destruct e; [|discriminate]. eapply refuse_inout; [reflexivity|]; unfold CLEAR; ta.
  - unplace. destruct e; [|discriminate]. ta_inout.
Qed.
Ltac unplaced := repeat match goal with
  | o : option _ |- _ => destruct o
  | o : abuf _ |- _ => destruct o
  | o : outb |- _ => destruct o
  | o : inb |- _ => destruct o
  end.
Lemma refuse_process o x i n : proper (CipherProcess o x i n) -> complete (CipherProcess o x i n) = false ->
  refused imp junk initial (CipherProcess o x i n).
Proof. start; split_all. apply client_refused. unplaced; try discriminate; by_cases; exfalso; cbn in *; lia. Qed.
Lemma refuse_process_last o x i n t : proper (CipherProcessLast o x i n t) -> complete (CipherProcessLast o x i n t) = false ->
  refused imp junk initial (CipherProcessLast o x i n t).
Proof.
  start; split_all. apply client_refused. unplaced; try discriminate; by_cases; try (eexists; split; [reflexivity|auto]; fail); exfalso; cbn in *; lia.
Qed.
Lemma refuse_unwrap r type cv alg p k d : proper (KeyUnwrap r type cv alg p k d) -> complete (KeyUnwrap r type cv alg p k d) = false ->
  refused imp junk initial (KeyUnwrap r type cv alg p k d).
Proof.
  start; split_all. destruct (optional d) eqn:D; [|locally; tried; rewrite not_optional by auto; reflexivity].
  assert (Hd : in_bad d = false) by (destruct d; cbn in *; [lia|reflexivity]).
  assert (Hty : ((type =? 1) && match cv with None => true | Some _ => false end) = true \/
    exists t1, ((type = 1 /\ cv = Some t1) \/ ((type =? 1) = false /\ cv = None)) /\ u32 t1).
  { destruct (type =? 1) eqn:E.
    - destruct cv as [t1|]; [|left; reflexivity]. cbn in H6. right. exists t1. split; [left; split; [lia|reflexivity]|exact H6].
    - right. exists 0. split; [right; split; [reflexivity|apply H5; lia]|split; reflexivity || discriminate]. }
  destruct Hty as [Hty | (t1 & Hty & Ht1)]; [locally; tried; unfold EC; rewrite Hd, Hty; reflexivity|].
  assert (Hc : (type =? 1) && match cv with None => true | Some _ => false end = false).
  { destruct Hty as [[-> ->] | [-> ->]]; reflexivity. }
  assert (Hs : negb (type =? 1) || is_some cv = true).
  { destruct Hty as [[-> ->] | [-> ->]]; reflexivity. }
  rewrite Hs in H0. cbn [andb] in H0.
  assert (Haad : forall (q : unw_params inb) i t n,
            q = UnwGcm (In i) (InNull 0) (In t) /\ alg = 5 /\ zlen i = 12 /\ zlen t = n /\ n <= 16 \/
            q = UnwPoly (In i) (InNull 0) (In t) /\ alg = 10 /\ zlen i = 12 /\ zlen t = 16 /\ n = 16 ->
            refused imp junk initial (KeyUnwrap r type cv alg q k d)).
  { intros q i t n Hq. apply optional_null in D.
    destruct Hq as [(-> & -> & Hi & Ht & Hn) | (-> & -> & Hi & Ht & ->)];
    (assert (Hn' : (16 <? zlen t) = false) by lia;
     destruct Hty as [[-> ->] | [Et ->]]; destruct D as [-> | [? ->]];
     (eapply refuse_inout; [cbn [client refuse_if in_bad unwrap_params]; unfold EC; rewrite ?Et, ?Hn', ?Hi, ?Ht; reflexivity|])).
    all: match goal with |- context [par_s junk 48 [(0%nat, ?i); _; (24%nat, ?t); (_, w _ ?n)]] =>
      destruct (tagged_facts junk Hjunk i t n ltac:(assumption) ltac:(first [assumption | reflexivity]) ltac:(lia)) as (? & ? & ? & ? & ?);
      set (par_s junk 48 _) in *; match goal with b := par_s _ _ _ |- _ => clearbody b end end.
    all: ta. }
  destruct p; split_all;
    repeat match goal with
    | x : inb |- _ => lazymatch x with d => fail | _ => destruct x; try discriminate H0 end
    end.
  all: cbn [given sized_in optional andb] in H0; rewrite ?andb_false_r in H0.
  all: try match goal with H : wf_in (InNull ?n) |- _ => destruct (n =? 0) eqn:? ; [replace n with 0 in * by lia|] end.
  all: try (match goal with |- refused _ _ _ (KeyUnwrap _ _ _ _ ?q _ _) =>
     match q with context [UnwGcm (In ?i) (InNull 0) (In ?t)] =>
       destruct (zlen i =? 12) eqn:?; [destruct (16 <? zlen t) eqn:?; [|apply (Haad _ i t (zlen t)); left; repeat split; auto; lia]|]
     | context [UnwPoly (In ?i) (InNull 0) (In ?t)] =>
       destruct (zlen i =? 12) eqn:?; [destruct (zlen t =? 16) eqn:?; [apply (Haad _ i t 16); right; repeat split; auto; lia|]|]
     end end).
  all: apply client_refused; tried; unfold EC; rewrite Hd, Hc.
  all: cbn [in_bad]; try (eexists; split; [reflexivity|auto]; fail).
  all: repeat (case_if; try (eexists; split; [reflexivity|auto]; fail)).
  all: exfalso; cbn in *; unfold is_u64 in *; try lia.
Qed.
Lemma refuse_cenc s : proper (CommonEncryption s) -> complete (CommonEncryption s) = false -> refused imp junk initial (CommonEncryption s).
Proof.
  destruct s as [iv cb sb ls cx o i]. cbn [proper complete sm_iv sm_crypt sm_skip sm_lengths sm_context sm_out sm_in]. intros; split_all.
  assert (Z0 : is_u64 0) by (split; reflexivity || discriminate). assert (Z1 : u32 0) by (split; reflexivity || discriminate).
  destruct (zlen iv =? 16) eqn:Hiv; [|apply client_refused; eexists; split; [|right; reflexivity]; tried; cbn [sm_iv]; rewrite Hiv; reflexivity].
  cbn [andb] in H0.
  destruct (out_place o) eqn:Ho.
  2:{ apply client_refused. tried. cbn [sm_iv sm_out sm_in]. rewrite Hiv. cbn [negb]. destruct o as [[|]|]; try discriminate; by_cases; exfalso; cbn in *; lia. }
  destruct (in_place i) eqn:Hi.
  2:{ apply client_refused. tried. cbn [sm_iv sm_out sm_in]. rewrite Hiv. cbn [negb]. destruct o as [[|]|]; destruct i as [[|]|]; try discriminate; by_cases; exfalso; cbn in *; lia. }
  assert (Hn : is_u64 (Z.of_nat (length ls))) by (unfold is_u64, W64 in *; lia).
  assert (Hiv' : zlen iv = 16) by lia.
  pose proof (zlen_pairs ls) as Hz.
  assert (B : (16 * Z.of_nat (length ls) =? 0) = true \/
    ((16 * Z.of_nat (length ls) =? 0) = false /\ out_room o = false) \/
    ((16 * Z.of_nat (length ls) =? 0) = false /\ out_room o = true /\ in_room i = false)).
  { destruct ls; [left; reflexivity|right]. cbn [nonempty andb] in H0. cbn [length]. destruct (out_room o); [right|left]; repeat split; auto; lia. }
  destruct o as [? ?|? ? ?]; destruct i as [? ?|? ? ?]; unplace;
    destruct B as [B | [[B1 B2] | (B1 & B2 & B3)]]; try discriminate;
    try match goal with H : out_room (Clear (Out _ _ ?n) ?off) = false |- _ => assert ((n - off =? 0) = true) by (cbn [out_room] in H; unfold is_u64 in *; lia) end;
    try match goal with H : out_room (Clear (Out _ _ ?n) ?off) = true |- _ => assert ((n - off =? 0) = false) by (cbn [out_room] in H; unfold is_u64 in *; lia) end;
    try match goal with H : in_room (Clear (In ?b) ?off) = false |- _ =>
       assert ((zlen (skipn (Z.to_nat off) b) =? 0) = true)
         by (cbn [in_room] in H; unfold zlen in *; rewrite skipn_length; unfold is_u64 in *; lia) end.
  all: eapply refuse_inout; [cbn [client in_buf out_buf sm_iv sm_crypt sm_skip sm_lengths sm_context sm_out sm_in];
      unfold refuse_if; rewrite Hiv'; change (negb (16 =? 16)) with false; cbv iota;
      repeat match goal with H : (?a <? ?b) = false |- context [?a <? ?b] => rewrite H end; reflexivity|].
  all: unfold CLEAR; ta.
Qed.

End All.
