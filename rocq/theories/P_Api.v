(** From all paths of the call programs to statements about single steps and results. *)
From Verif Require Import Base M_ObjectStore M_Rights S_Rights P_Rights M_Svp M_Prog M_ApiKey M_ApiCipher M_ApiMac M_ApiSvp
  M_Api S_Api M_World S_World P_Prog P_ApiGuard P_ApiAccount P_ApiAccountE.


Lemma is_cenc_dec k : is_cenc k \/ forall l, k <> KCenc l.
Proof. destruct k; try (right; intros; discriminate). left. eexists. reflexivity. Qed.

Lemma guard_uses k slot u p key r src dst h : issues k slot u (CUse p key r src dst) h ->
  not_raced k h -> guard_use u h p key r src dst.
Proof.
  intros [cont H] U. destruct (is_cenc_dec k) as [[l E]|N].
  - pose proof (reach_pre _ _ _ _ _ _ _ H (cenc_all k slot u l E)) as [_ G].
    apply G. apply U. now exists l.
  - exact (reach_pre _ _ _ _ _ _ _ H (guard_all k slot u N)).
Qed.
Lemma guard_cenc_uses k slot u p key r src dst h : issues k slot u (CUse p key r src dst) h ->
  is_cenc k -> r = RDecrypt /\ decrypting u h p key.
Proof.
  intros [cont H] [l E].
  pose proof (reach_pre _ _ _ _ _ _ _ H (cenc_all k slot u l E)) as [G _]. exact G.
Qed.
Lemma guard_steps k slot u c h : issues k slot u c h ->
  match c with CUse _ _ _ _ _ => True | _ => guard k slot u h c end.
Proof.
  intros [cont H]. destruct (is_cenc_dec k) as [[l E]|N].
  - pose proof (reach_pre _ _ _ _ _ _ _ H (cenc_all k slot u l E)) as G. destruct c; auto.
  - pose proof (reach_pre _ _ _ _ _ _ _ H (guard_all k slot u N)) as G. destruct c; auto.
Qed.
Lemma order_steps k slot u c h : issues k slot u c h -> calm k h -> in_order h c.
Proof. intros [cont H] C. exact (proj1 (reach_pre _ _ _ _ _ _ _ H (account_all k slot u) C)). Qed.
Lemma wait_steps k slot u c h : issues k slot u c h -> calm k h -> waits h c.
Proof. intros [cont H] C. exact (proj2 (reach_pre _ _ _ _ _ _ _ H (account_all k slot u) C)). Qed.
Lemma final_state k slot u h s : returns k slot u h s -> calm k h -> settled h /\ handles_ok k h s.
Proof. intros H. exact (reach_post _ _ _ _ _ _ H (account_all k slot u)). Qed.

(** ** Uses *)
Lemma use_flag k slot u p key r src dst h : issues k slot u (CUse p key r src dst) h ->
  not_raced k h -> flag_ok key r.
Proof. intros H U. apply (guard_uses _ _ _ _ _ _ _ _ _ H U). Qed.
Lemma use_time k slot u p key r src dst h : issues k slot u (CUse p key r src dst) h ->
  not_raced k h -> timed r -> time_ok h key.
Proof. intros H U. apply (guard_uses _ _ _ _ _ _ _ _ _ H U). Qed.
Lemma use_outputs k slot u p key r src dst h : issues k slot u (CUse p key r src dst) h ->
  not_raced k h -> output_bound r -> outputs_ok h key.
Proof. intros H U. apply (guard_uses _ _ _ _ _ _ _ _ _ H U). Qed.
Lemma use_origin k slot u p key r src dst h : issues k slot u (CUse p key r src dst) h -> r <> RInner ->
  (by_handle h p key /\ (r <> RExport -> listed (k_rights key) u)) \/
  (exists alg, by_context h p key alg) \/ by_mac h p key.
Proof.
  intros H N. destruct (is_cenc_dec k) as [C|C].
  - destruct (guard_cenc_uses _ _ _ _ _ _ _ _ _ H C) as (_&c&ch&q&ci&H1&H2&H3&_&_&H4).
    right. left. exists (ci_alg ci), c, ch, q, u, ci. auto.
  - destruct (guard_uses _ _ _ _ _ _ _ _ _ H) as (_&_&_&G&_); [intros [l E]; now apply C in E|].
    destruct G as [G|G]; [contradiction|exact G].
Qed.
Lemma use_clear k slot u p key r src h : issues k slot u (CUse p key r src PClear) h ->
  not_raced k h -> is_crypt r -> has_flag (k_rights key) F_SVP_OPTIONAL /\ src <> PSvp.
Proof.
  intros H U C. destruct (guard_uses _ _ _ _ _ _ _ _ _ H U) as (_&_&_&_&G&_). exact (G C eq_refl).
Qed.
Lemma use_svp k slot u p key r src dst h : issues k slot u (CUse p key r src dst) h ->
  is_crypt r -> dst = PSvp ->
  r <> RDecryptAsym /\ exists alg, by_context h p key alg /\ svp_algorithm alg.
Proof.
  intros H C ->. destruct (is_cenc_dec k) as [K|K].
  - destruct (guard_cenc_uses _ _ _ _ _ _ _ _ _ H K) as (->&c&ch&q&ci&H1&H2&H3&_&H5&H4).
    split; [discriminate|]. exists (ci_alg ci). split; [|exact H5]. exists c, ch, q, u, ci. auto.
  - destruct (guard_uses _ _ _ _ _ _ _ _ _ H) as (_&_&_&_&_&G); [intros [l E]; now apply K in E|].
    destruct (G C) as [G1 [G2|G2]]; auto; discriminate.
Qed.

(** ** Stored objects *)
Lemma add_cipher k slot u s p ci v h : issues k slot u (CAdd s p (OCipher ci) v) h ->
  exists key, by_handle h (ci_key ci) key /\ listed (k_rights key) u /\ time_ok h key /\ outputs_ok h key /\
  ((ci_mode ci = ENCRYPT /\ has_flag (k_rights key) F_ENCRYPT) \/
   (ci_mode ci = DECRYPT /\ has_flag (k_rights key) F_DECRYPT)).
Proof.
  intros H. apply guard_steps in H as (_&_&_&key&H). exists key. intuition.
Qed.
Lemma fits_key alg k : fits alg k -> cipher_key alg k.
Proof.
  unfold fits, alg_known, init_type_ok, cipher_key, is_aes, is_chacha. intros [A H].
  unfold A_ECB, A_ECB_PKCS7, A_CBC, A_CBC_PKCS7, A_CTR, A_GCM, A_RSA_OAEP, A_RSA_PKCS1V15, A_EC_ELGAMAL,
    A_CHACHA20, A_CHACHA20_POLY1305 in *.
  repeat match goal with HH : context [if ?c then _ else _] |- _ => destruct c eqn:? end;
  repeat match goal with
  | HH : key_type_supports_aes _ _ = true |- _ => apply andb_true_iff in HH as [? HH]; unfold valid_aes_size in HH
  | HH : key_type_supports_chacha20 _ _ = true |- _ => apply andb_true_iff in HH as [? HH]
  | HH : key_type_supports_rsa _ _ = true |- _ => apply andb_true_iff in HH as [? HH]; unfold valid_rsa_size in HH
  | HH : key_type_supports_ec _ _ _ = true |- _ => apply andb_true_iff in HH as [? HH]; apply valid_ec_iff in HH
  end; unfold KT_SYMMETRIC, KT_RSA, KT_EC in *.
  - left. lia.
  - right; right; right. lia.
  - right; left. cbn [In]. lia.
  - right; right; left. split; [lia|split; [lia|assumption]].
Qed.
Lemma mac_fits_key alg k : mac_fits alg k -> mac_key alg k.
Proof.
  unfold mac_fits, mac_key, key_type_supports_aes, key_type_supports_hmac, valid_aes_size, valid_hmac_size,
    MAC_CMAC, MAC_HMAC, KT_SYMMETRIC. lia.
Qed.
Lemma add_cipher_fits k slot u s p ci v h : issues k slot u (CAdd s p (OCipher ci) v) h ->
  exists key, by_handle h (ci_key ci) key /\ cipher_key (ci_alg ci) key.
Proof.
  intros H. apply guard_steps in H as (_&_&_&key&H). exists key. split; [tauto|]. apply fits_key. tauto.
Qed.
Lemma add_mac_fits k slot u s p m v h : issues k slot u (CAdd s p (OMac m) v) h ->
  exists key q, In (ENew (OMacState (MkMacState key false)) (Some (mc_ctx m))) h /\ by_handle h q key /\
    mac_key (mc_alg m) key.
Proof.
  intros H. apply guard_steps in H as (_&_&_&key&H1&(q&H2)&H). exists key, q. split; [exact H1|].
  split; [exact H2|]. apply mac_fits_key. tauto.
Qed.
Lemma add_mac k slot u s p m v h : issues k slot u (CAdd s p (OMac m) v) h ->
  exists key q, In (ENew (OMacState (MkMacState key false)) (Some (mc_ctx m))) h /\ by_handle h q key /\
    listed (k_rights key) u /\ time_ok h key /\ outputs_ok h key /\ has_flag (k_rights key) F_SIGN.
Proof.
  intros H. apply guard_steps in H as (_&_&_&key&H1&(q&H2)&H). exists key, q. intuition.
Qed.
Lemma add_key_size k slot u s p key v h : issues k slot u (CAdd s p (OWrapped key) v) h ->
  size_allowed (k_type key) (p_curve (k_params key)) (k_size key) /\
  (length (r_id (k_rights key)) = 64%nat -> id_terminated (k_rights key)).
Proof. intros H. apply guard_steps in H as (_&_&_&H1&H2&_). auto. Qed.
Lemma add_child k slot u s p key v h : issues k slot u (CAdd s p (OWrapped key) v) h -> has_parent k ->
  exists r q kp, requests k r /\ parent_of h q kp /\ child_rights (k_rights key) r (k_rights kp).
Proof.
  intros H P. apply guard_steps in H as (_&_&_&_&_&r&H1&H2).
  assert (exists q kp, parent_of h q kp /\ k_rights key = restrict_child_rights r (Some (k_rights kp))) as (q&kp&H3&H4).
  { destruct k; try contradiction P; cbn [has_parent if_parent] in *; try exact H2.
    - destruct ip; try contradiction P. exact H2.
    - destruct alg as [[]|]; try contradiction P; exact H2. }
  exists r, q, kp. split; [exact H1|]. split; [exact H3|]. rewrite H4. split; [apply restrict_rest|].
  split; [intros f; apply restrict_never_adds|]. split.
  - intros N f Hf Hh. apply restrict_outputs in Hh; [|exact N|unfold is_output_flag in Hf; lia]. tauto.
  - intros U C f Hf Hh. apply restrict_children in Hh; [|exact U|exact C|unfold is_usage_flag in Hf; lia]. tauto.
Qed.
Lemma add_root k slot u s p key v h : issues k slot u (CAdd s p (OWrapped key) v) h -> ~ has_parent k ->
  requests k (k_rights key).
Proof.
  intros H P. apply guard_steps in H as (_&_&_&_&_&r&H1&H2).
  assert (k_rights key = r) as ->; [|exact H1].
  destruct k; cbn [has_parent if_parent] in *; try exact H2; try contradiction (P I).
  - destruct ip; try exact H2. contradiction (P I).
  - destruct alg as [[]|]; try exact H2; contradiction (P I).
Qed.
(** ** Whose objects *)
Lemma own_objects k slot u c h : issues k slot u c h ->
  match c with
  | CAcquire s x v | CRelease s x _ v | CRemove s x v =>
      v = u /\ (s = SClients -> x = slot) /\
      forall cl, client_of s = Some cl -> In (EAcquire SClients slot u (Got cl)) h
  | CAdd s _ _ v => v = u /\ forall cl, client_of s = Some cl -> In (EAcquire SClients slot u (Got cl)) h
  | _ => True
  end.
Proof.
  intros H. apply guard_steps in H. destruct c; auto; destruct H as (->&H1&H2).
  all: repeat split; auto.
  all: intros cl E; destruct s; cbn in *; try discriminate; injection E as <-; exact H1.
Qed.

(** ** A release that succeeds has destroyed its object *)
Ltac in_hist := multimatch goal with
  | |- In _ (_ :: _) => (left; reflexivity) + (right; in_hist)
  end.
Lemma status_eqb_ok s : status_eqb s OK = true -> s = OK.
Proof. destruct s; discriminate || reflexivity. Qed.
Lemma svp_release_removes x slot u h : returns (KSvpRelease x) slot u h OK -> (forall p, ~ In (ESvp p None) h) ->
  exists c p b, In (EAcquire SClients slot u (Got c)) h /\ In (EAcquire (SSvps c) x u (Got p)) h /\
    In (ESvp p (Some b)) h /\ out_value h VMemory = Some (sb_memory b) /\ out_value h VSize = Some (sb_size b) /\
    In (ERemove (SSvps c) x u OK) h.
Proof.
  intros H.
  assert (W : wp (fun _ _ => True) (api (KSvpRelease x) slot u) [] (fun s h => s = OK -> (forall p, ~ In (ESvp p None) h) ->
     exists c p b, In (EAcquire SClients slot u (Got c)) h /\ In (EAcquire (SSvps c) x u (Got p)) h /\
    In (ESvp p (Some b)) h /\ out_value h VMemory = Some (sb_memory b) /\ out_value h VSize = Some (sb_size b) /\
    In (ERemove (SSvps c) x u OK) h)).
  { unfold api, api_m, svp_buffer_release. wp_run ltac:(exact I). all: intros EE N; try discriminate; try congruence.
    all: try (match goal with HH : status_eqb ?r OK = true |- _ => apply status_eqb_ok in HH; subst r end;
              match goal with HH : svp_release_buffer ?r = Some _ |- _ => destruct r; [injection HH as <- <-|discriminate HH] end;
              do 3 eexists; split; [in_hist|split; [in_hist|split; [in_hist|split; [reflexivity|split; [reflexivity|in_hist]]]]]).
    all: try (match goal with HH : status_eqb ?r OK = false |- _ => subst r; discriminate HH end).
    all: exfalso; match goal with HH : svp_release_buffer ?r = None |- _ => destruct r; [discriminate HH|] end; eapply N; in_hist. }
  exact (reach_post _ _ _ _ _ _ H W eq_refl).
Qed.
(** Releasing keys and contexts is the removal itself. *)
Lemma release_removes k slot u h : returns k slot u h OK -> released k 0 <> None ->
  exists c s x, In (EAcquire SClients slot u (Got c)) h /\ released k c = Some (s, x) /\ In (ERemove s x u OK) h.
Proof.
  intros H E.
  assert (W : wp (fun _ _ => True) (api k slot u) [] (fun s h => s = OK ->
     exists c s x, In (EAcquire SClients slot u (Got c)) h /\ released k c = Some (s, x) /\ In (ERemove s x u OK) h)).
  { destruct k; try contradiction (E eq_refl).
    all: unfold api, api_m, key_release, cipher_release, mac_release; wp_run ltac:(exact I); intros Q; try discriminate; try congruence.
    all: match goal with HH : status_eqb ?r OK = _ |- _ => (apply status_eqb_ok in HH; subst r) || (subst r; discriminate HH) end.
    all: do 3 eexists; (split; [in_hist|]); (split; [reflexivity|]); in_hist. }
  exact (reach_post _ _ _ _ _ _ H W eq_refl).
Qed.

(** ** Handles made by single calls *)
Lemma created_handle k slot u h s v : returns k slot u h s -> creates k = Some v -> v = VKey -> one_handle h s v.
Proof.
  intros H E ->. assert (C : calm k h) by (destruct k; try discriminate E; exact I).
  destruct (final_state _ _ _ _ _ H C) as [_ G]. unfold handles_ok in G.
  destruct k; try discriminate E; try (rewrite E in G; exact G).
  destruct alg; try discriminate E; rewrite E in G; exact G.
Qed.
Lemma exchange_handles r x rke rkh priv pub slot u h s :
  returns (KKeyExchange r (ExNetflix x rke rkh) priv pub) slot u h s -> settled h /\ three_handles h s.
Proof. intros H. exact (final_state _ _ _ _ _ H I). Qed.
Lemma init_handles alg mode key s1 s2 slot u h s :
  returns (KCipherInit alg mode key s1 s2) slot u h s -> calm (KCipherInit alg mode key s1 s2) h ->
  settled h /\ one_handle h s VContext.
Proof. intros H C. exact (final_state _ _ _ _ _ H C). Qed.
