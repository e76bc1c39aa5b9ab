(** Proofs about key derivation with the provider: values, acceptance, lifetimes. *)
From Verif Require Import Base M_Rights M_Mac M_Kdf S_Rights S_Mac S_Kdf P_Mac P_Kdf M_ProvKdf S_ProvKdf P_ProvKdf.
From Coq Require Import String.
Local Open Scope Z_scope.
Local Open Scope list_scope.

Lemma le_value_bytes : forall n z, 0 <= z < 256 ^ Z.of_nat n -> le_value (le_bytes n z) = z.
Proof.
  induction n as [|n IH]; intros z H; [change (256 ^ Z.of_nat 0) with 1 in H; cbn; lia|].
  rewrite Nat2Z.inj_succ, Z.pow_succ_r in H by lia. cbn [le_bytes le_value].
  rewrite IH by (pose proof (Z.div_mod z 256); pose proof (Z.mod_pos_bound z 256); nia).
  pose proof (Z.div_mod z 256). lia.
Qed.
Lemma le_bytes_length : forall n z, List.length (le_bytes n z) = n.
Proof. induction n as [|n IH]; intros z; [reflexivity|cbn; rewrite IH; reflexivity]. Qed.

Lemma allow_all_fine : unrestricted allow_all.
Proof.
  split.
  - intros f F. unfold has_flag. assert (C : f = 0 \/ f = 1 \/ f = 2 \/ f = 3 \/ f = 4 \/ f = 5 \/ f = 6 \/ f = 7 \/ f = 8 \/ f = 9 \/ f = 10 \/ f = 11 \/ f = 12 \/ f = 13) by lia.
    repeat (destruct C as [C|C]; [subst; reflexivity|]). subst. reflexivity.
  - split; [reflexivity|]. split; [reflexivity|]. split; [intros u; reflexivity|].
    exists 0%nat. split; [lia|reflexivity].
Qed.

Lemma be32_same : forall n, be32_of (Z.of_nat n) = be32 n. Proof. reflexivity. Qed.
Lemma one_block : forall L key other, good_lib L -> ctr_cmac L key other 1 16 = l_cmac L key ([1] ++ other).
Proof.
  intros L key other (_ & _ & _ & _ & G). unfold ctr_cmac. change (16 * (1 - 1))%nat with 0%nat. cbn [skipn map List.concat].
  rewrite firstn_app, (G key ([Z.of_nat 1] ++ other)). cbn [Nat.sub]. rewrite firstn_O, List.app_nil_r.
  rewrite firstn_all2; [reflexivity|]. rewrite G. reflexivity.
Qed.
Lemma one_block_std : forall L key label context sep, good_lib L ->
  sp800_108 L key label context sep false 16 = l_cmac L key ([1] ++ label ++ (if sep then [0] else []) ++ context ++ []).
Proof.
  intros L key label context sep (_ & _ & _ & _ & G). unfold sp800_108. change (seq 1 (blocks 16 16)) with [1%nat].
  cbn [map List.concat]. rewrite List.app_nil_r. rewrite firstn_all2; [reflexivity|]. rewrite G. reflexivity.
Qed.

(** The derivation on a context that holds what was asked. *)
Lemma derive_does : forall alg c t s fresh n e, agrees alg c s fresh -> t NO_HANDLE = None -> sound t -> surroundings e t n -> 0 <= n ->
  match do_derive c t n e with
  | Some (KdfKey k) => 16 <= n /\ exists h parent, a_key s = Some h /\ t h = Some parent /\
      derived_key k allow_all parent n (k_bytes k) /\
      (forall v, standard (e_lib e) alg s (k_bytes parent) (Z.to_nat n) = Some v -> limits alg s n -> k_bytes k = v)
  | Some (KdfFails _) => True
  | _ => False
  end.
Proof.
  intros alg c t s fresh n e A NH SD (G & M & B1 & B2 & _) N. unfold do_derive.
  pose proof A as A0. destruct A0 as (AA & AK & AD & AN & AS & AI & AP & AL & AR). rewrite AA.
  assert (HI : bad_input (x_info c) = false -> in_bytes (x_info c) = bytes_of (a_info s))
    by (unfold holds in AI; destruct (a_info s); [rewrite AI; reflexivity|destruct AI as (m & E & _); rewrite E; reflexivity]).
  assert (HV : forall d, bad_input (x_salt c) = false -> salt_value d (x_salt c) = salt_value d (input_of (a_salt s)))
    by (intros d; unfold holds in AS; destruct (a_salt s); [rewrite AS; reflexivity|destruct AS as (m & E & _); rewrite E; reflexivity]).
  assert (KEY : forall parent, t (x_key c) = Some parent -> exists h, a_key s = Some h /\ t h = Some parent)
    by (intros parent TP; rewrite AK in TP; destruct (a_key s) as [h|]; [exists h; split; [reflexivity|exact TP]|rewrite NH in TP; discriminate]).
  assert (STD : forall d, digest_of s = Some d -> x_digest c = d).
  { intros d D. unfold digest_of in D. destruct (a_digest s) as [name|] eqn:AG; [|discriminate]. rewrite (AN name eq_refl). apply named, D. }
  unfold KDF_HKDF, KDF_CONCAT, KDF_ANSI_X963, KDF_CMAC.
  destruct (Z.eqb_spec alg 1) as [Q|Q].
  { destruct (t (x_key c)) as [parent|] eqn:TP; [|exact Logic.I].
    pose proof (hkdf_does (e_lib e) allow_all (x_digest c) n (x_salt c) (x_info c) parent (e_now e) (e_mem e) (e_buf1 e) (e_buf2 e) (e_answers e) (e_alloc e) G N M B1 B2) as H.
    unfold call_does in H. destruct (derive_hkdf _ _ _ _ _ _ _ _ _ _ _ _ _) as [k|st| |]; [|exact Logic.I|exact H|exact H].
    destruct H as ((_ & _ & BS & BI & _) & N16 & _ & D). split; [lia|]. destruct (KEY _ eq_refl) as (h & K1 & K2). exists h, parent.
    split; [exact K1|]. split; [exact K2|]. assert (EB : k_bytes k = rfc5869 (e_lib e) (x_digest c) (x_salt c) (k_bytes parent) (in_bytes (x_info c)) (Z.to_nat n)) by (destruct D as [D _]; rewrite D; reflexivity).
    split; [rewrite EB; exact D|]. intros v SV _. unfold standard in SV. rewrite Q in SV. cbn [Z.eqb Pos.eqb] in SV.
    destruct (digest_of s) as [d|] eqn:DS; [|discriminate]. rewrite (STD d eq_refl), (HI BI) in EB. injection SV as SV. rewrite <- SV, EB.
    unfold rfc5869. rewrite (HV d BS). reflexivity. }
  destruct (Z.eqb_spec alg 2) as [Q2|Q2].
  { destruct (t (x_key c)) as [parent|] eqn:TP; [|exact Logic.I].
    pose proof (concat_does (e_lib e) allow_all (x_digest c) n (x_info c) parent (e_now e) (e_mem e) (e_buf1 e) (e_answers e) (e_alloc e) G N M B1) as H.
    unfold call_does in H. destruct (derive_concat _ _ _ _ _ _ _ _ _ _ _) as [k|st| |]; [|exact Logic.I|exact H|exact H].
    destruct H as ((_ & _ & BI & _) & N16 & _ & D). split; [lia|]. destruct (KEY _ eq_refl) as (h & K1 & K2). exists h, parent.
    split; [exact K1|]. split; [exact K2|]. assert (EB : k_bytes k = sp800_56a (e_lib e) (x_digest c) (k_bytes parent) (in_bytes (x_info c)) (Z.to_nat n)) by (destruct D as [D _]; rewrite D; reflexivity).
    split; [rewrite EB; exact D|]. intros v SV _. unfold standard in SV. rewrite Q2 in SV. cbn [Z.eqb Pos.eqb] in SV.
    destruct (digest_of s) as [d|] eqn:DS; [|discriminate]. rewrite (STD d eq_refl), (HI BI) in EB. injection SV as SV. rewrite <- SV, EB. reflexivity. }
  destruct (Z.eqb_spec alg 3) as [Q3|Q3].
  { destruct (t (x_key c)) as [parent|] eqn:TP; [|exact Logic.I].
    pose proof (x963_does (e_lib e) allow_all (x_digest c) n (x_info c) parent (e_now e) (e_mem e) (e_buf1 e) (e_answers e) (e_alloc e) G N M B1) as H.
    unfold call_does in H. destruct (derive_x963 _ _ _ _ _ _ _ _ _ _ _) as [k|st| |]; [|exact Logic.I|exact H|exact H].
    destruct H as ((_ & _ & BI & _) & N16 & _ & D). split; [lia|]. destruct (KEY _ eq_refl) as (h & K1 & K2). exists h, parent.
    split; [exact K1|]. split; [exact K2|]. assert (EB : k_bytes k = x963 (e_lib e) (x_digest c) (k_bytes parent) (in_bytes (x_info c)) (Z.to_nat n)) by (destruct D as [D _]; rewrite D; reflexivity).
    split; [rewrite EB; exact D|]. intros v SV _. unfold standard in SV. rewrite Q3 in SV. cbn [Z.eqb Pos.eqb] in SV.
    destruct (digest_of s) as [d|] eqn:DS; [|discriminate]. rewrite (STD d eq_refl), (HI BI) in EB. injection SV as SV. rewrite <- SV, EB. reflexivity. }
  destruct (Z.eqb_spec alg 4) as [Q4|Q4]; [|exact Logic.I].
  destruct (MAX_CMAC <? n); [exact Logic.I|].
  pose proof (other_fine alg c s fresh n (e_malloc e) A) as O.
  destruct (other_data c n (e_malloc e)) as [[other|]|]; [|exact Logic.I|exact O].
  destruct (t (x_key c)) as [parent|] eqn:TP; [|exact Logic.I].
  pose proof (cmac_does (e_lib e) allow_all n (n / 16 + (if n mod 16 =? 0 then 0 else 1)) (Bytes other) parent (e_now e) (e_mem e) (e_buf1 e) (e_answers e) (e_alloc e) G N M B1 (SD _ _ TP)) as H.
  unfold call_does in H. destruct (derive_cmac _ _ _ _ _ _ _ _ _ _ _) as [k|st| |]; [|exact Logic.I|exact H|exact H].
  destruct H as (_ & N16 & _ & D). split; [lia|]. destruct (KEY _ eq_refl) as (h & K1 & K2). exists h, parent.
  split; [exact K1|]. split; [exact K2|].
  set (cnt := n / 16 + (if n mod 16 =? 0 then 0 else 1)) in *.
  assert (EB : k_bytes k = ctr_cmac (e_lib e) (k_bytes parent) other (Z.to_nat cnt) (Z.to_nat n)) by (destruct D as [D _]; rewrite D; reflexivity).
  split; [rewrite EB; exact D|]. intros v SV LIM. destruct (LIM Q4) as [L0 N0]. assert (n = 16) by lia. subst n.
  unfold standard in SV. rewrite Q4 in SV. cbn [Z.eqb Pos.eqb] in SV. injection SV as SV. rewrite <- SV, EB, O, L0.
  change (Z.to_nat cnt) with 1%nat. change (Z.to_nat 16) with 16%nat. cbn [Z.eqb].
  rewrite one_block, one_block_std by exact G. reflexivity.
Qed.

(** Values. *)
Lemma derives : forall alg t l c t1 out n p e,
  life (kdf_newctx alg, t) l = Some (c, t1) -> all_proper l -> proper p -> t1 (2 ^ 64 - 1) = None -> sound t1 -> surroundings e t1 n -> 0 <= n <= zlen out ->
  match kdf_derive c t1 out n (Some p) e with
  | Answer true _ t' out' => exists h parent k r, a_key (ask (settings l) p) = Some h /\ t' h = Some parent /\ t' (e_handle e) = Some k /\
      le_value (firstn 8 out') = e_handle e /\ skipn 8 out' = skipn 8 out /\ unrestricted r /\ derived_key k r parent n (k_bytes k) /\
      (forall v, standard (e_lib e) alg (ask (settings l) p) (k_bytes parent) (Z.to_nat n) = Some v -> limits alg (ask (settings l) p) n -> k_bytes k = v)
  | Answer false _ _ out' => out' = out
  | Overrun => False
  end.
Proof.
  intros alg t l c t1 out n p e LF AP P NH SD SU N.
  pose proof (agrees_after alg c (settings l) p _ P (life_agrees alg l _ _ _ _ _ _ (agrees_new alg) AP LF)) as A.
  unfold kdf_derive. destruct (kdf_set_ctx_params (Some p) (e_junk e) c t1) as [[[|] c2] t2] eqn:S; [|reflexivity].
  destruct (set_inv _ _ _ _ _ _ P S) as (E & SM & _). subst c2.
  assert (NH2 : t2 NO_HANDLE = None) by (destruct (SM NO_HANDLE) as [X|X]; [rewrite X; exact NH|exact X]).
  assert (SD2 : sound t2) by (intros h k HK; destruct (SM h) as [X|X]; [apply (SD h); rewrite <- X; exact HK|congruence]).
  assert (SU2 : surroundings e t2 n).
  { destruct SU as (S1 & S2 & S3 & S4 & S5 & S6). repeat (split; [assumption|]). split; [destruct (SM (e_handle e)) as [X|X]; [rewrite X; exact S5|exact X]|exact S6]. }
  pose proof (derive_does alg _ t2 _ _ n e A NH2 SD2 SU2 (proj1 N)) as D.
  destruct (do_derive (after p c) t2 n e) as [[k|st| |]|]; [|reflexivity|exact D|exact D|exact D].
  destruct D as (N16 & h & parent & K1 & K2 & K3 & K4).
  destruct SU2 as (_ & _ & _ & _ & FR & HB).
  unfold put. rewrite le_bytes_length. destruct (Nat.leb_spec 8 (List.length out)) as [LO|LO]; [|unfold zlen in N; lia].
  exists h, parent, k, allow_all. split; [exact K1|].
  split; [unfold upd; destruct (Z.eqb_spec h (e_handle e)) as [X|X]; [congruence|exact K2]|].
  split; [unfold upd; rewrite Z.eqb_refl; reflexivity|].
  split; [rewrite firstn_app, le_bytes_length; cbn [Nat.sub]; rewrite firstn_O, List.app_nil_r, firstn_all2 by (rewrite le_bytes_length; reflexivity); apply le_value_bytes; change (256 ^ Z.of_nat 8) with (2 ^ 64); lia|].
  split; [rewrite skipn_app, le_bytes_length; cbn [Nat.sub]; rewrite skipn_all2 by (rewrite le_bytes_length; reflexivity); reflexivity|].
  split; [exact allow_all_fine|]. split; [exact K3|exact K4].
Qed.

(** Acceptance. *)
Lemma set_ok : forall p junk c t, proper p -> readable p t -> (gives_key p = true -> x_key c = NO_HANDLE) -> (q_key p = None \/ q_sa_key p = None) ->
  kdf_set_ctx_params (Some p) junk c t = (true, after p c, t).
Proof.
  intros p junk c t (PK & _ & _) (R1 & R2 & R3 & R4 & R5 & R6 & R7 & R8 & R9) OK1 OK2.
  destruct p as [qk qs qd qg qa qi qp ql]. cbn in *.
  assert (S1 : set_key qk junk c t = (true, with_key c (key8 qk), t)).
  { destruct qk as [[b|]|]; [|congruence|cbn; rewrite with_none; reflexivity].
    destruct OK2 as [?|OK2]; [discriminate|]. subst qs.
    unfold set_key. pose proof (PK b eq_refl) as LB. rewrite firstn_app, LB. cbn [Nat.sub]. rewrite firstn_O, List.app_nil_r, <- LB, firstn_all.
    unfold take_key. specialize (R9 _ eq_refl). destruct (t (le_value b)); [|congruence]. rewrite OK1 by reflexivity. rewrite Z.eqb_refl. reflexivity. }
  assert (S2 : set_sa_key qs (with_key c (key8 qk)) t = (true, with_key (with_key c (key8 qk)) (opt qs), t)).
  { destruct qs as [[b|]|]; [|congruence|cbn; rewrite with_none; reflexivity].
    destruct OK2 as [OK2|?]; [|discriminate]. subst qk.
    unfold set_sa_key, take_key. specialize (R9 _ eq_refl). destruct (t b); [|congruence]. cbn [key8]. rewrite with_none, OK1 by reflexivity. rewrite Z.eqb_refl. reflexivity. }
  unfold kdf_set_ctx_params. cbn [q_key q_sa_key q_delete q_digest q_salt q_info q_sep q_l].
  unfold then_ at 1. rewrite S1. unfold then_ at 1. rewrite S2. unfold after, key_asked. cbn [q_key q_sa_key q_delete q_digest q_salt q_info q_sep q_l].
  replace (with_key (with_key c (key8 qk)) (opt qs)) with (MkCtx (x_alg c) (match (match qs with Some (Some h) => Some h | _ => match qk with Some (Some b) => Some (le_value b) | _ => None end end) with Some h => h | None => x_key c end) (x_delete c) (x_digest c) (x_salt c) (x_info c) (x_sep c) (x_l c))
    by (destruct qs as [[|]|]; [reflexivity|congruence|]; destruct qk as [[|]|]; [reflexivity|congruence|reflexivity]).
  set (key := match _ with Some h => h | None => _ end).
  assert (S3 : forall c t, set_delete qd c t = (true, MkCtx (x_alg c) (x_key c) (match qd with Some (Some d) => negb (d =? 0) | _ => x_delete c end) (x_digest c) (x_salt c) (x_info c) (x_sep c) (x_l c), t))
    by (intros [] t0; destruct qd as [[|]|]; [reflexivity|congruence|reflexivity]).
  assert (S4 : forall c t, set_digest qg c t = (true, MkCtx (x_alg c) (x_key c) (x_delete c) (match qg with Some (Some n) => digest_from_name n | _ => x_digest c end) (x_salt c) (x_info c) (x_sep c) (x_l c), t))
    by (intros [] t0; destruct qg as [[|]|]; [reflexivity|congruence|reflexivity]).
  assert (S5 : forall c t, set_salt qa c t = (true, MkCtx (x_alg c) (x_key c) (x_delete c) (x_digest c) (match qa with Some (Copied b) => Bytes b | _ => x_salt c end) (x_info c) (x_sep c) (x_l c), t))
    by (intros [] t0; destruct qa as [[|n]|]; [reflexivity|destruct (R5 n); reflexivity|reflexivity]).
  assert (S6 : forall c t, set_info qi c t = (true, MkCtx (x_alg c) (x_key c) (x_delete c) (x_digest c) (x_salt c) (match qi with Some (Copied b) => Bytes b | _ => x_info c end) (x_sep c) (x_l c), t))
    by (intros [] t0; destruct qi as [[|n]|]; [reflexivity|destruct (R6 n); reflexivity|reflexivity]).
  assert (S7 : forall c t, set_sep qp c t = (true, MkCtx (x_alg c) (x_key c) (x_delete c) (x_digest c) (x_salt c) (x_info c) (match qp with Some (Some n) => n | _ => x_sep c end) (x_l c), t))
    by (intros [] t0; destruct qp as [[|]|]; [reflexivity|congruence|reflexivity]).
  assert (S8 : forall c t, set_l ql c t = (true, MkCtx (x_alg c) (x_key c) (x_delete c) (x_digest c) (x_salt c) (x_info c) (x_sep c) (match ql with Some (Some n) => n | _ => x_l c end), t))
    by (intros [] t0; destruct ql as [[|]|]; [reflexivity|congruence|reflexivity]).
  unfold then_. rewrite S3. cbn [x_alg x_key x_delete x_digest x_salt x_info x_sep x_l]. rewrite S4. cbn [x_alg x_key x_delete x_digest x_salt x_info x_sep x_l].
  rewrite S5. cbn [x_alg x_key x_delete x_digest x_salt x_info x_sep x_l]. rewrite S6. cbn [x_alg x_key x_delete x_digest x_salt x_info x_sep x_l].
  rewrite S7. cbn [x_alg x_key x_delete x_digest x_salt x_info x_sep x_l]. rewrite S8. cbn [x_alg x_key x_delete x_digest x_salt x_info x_sep x_l].
  reflexivity.
Qed.
