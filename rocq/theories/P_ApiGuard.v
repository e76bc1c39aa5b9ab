(** Every use of a key and every new object comes after the checks it needs. *)
From Verif Require Import Base M_ObjectStore M_Rights S_Rights P_Rights M_Svp M_Prog M_ApiKey M_ApiCipher M_ApiMac M_ApiSvp M_Api S_Api P_Prog.

Section Guard.
Variables (the : call) (slot : Z) (u : uuid).

(** The store belongs to the client this call has acquired. *)
Definition own_store (h : list ev) (s : sid) : Prop :=
  match s with
  | SClients => True
  | SKeys c | SCiphers c | SMacs c | SSvps c => In (EAcquire SClients slot u (Got c)) h
  end.

Definition guard_use (h : list ev) (p : Z) (k : stored_key) (r : role) (src dst : place) : Prop :=
  flag_ok k r /\ (timed r -> time_ok h k) /\ (output_bound r -> outputs_ok h k) /\
  (r = RInner \/ (by_handle h p k /\ (r <> RExport -> listed (k_rights k) u)) \/ (exists alg, by_context h p k alg) \/ by_mac h p k) /\
  (is_crypt r -> dst = PClear -> has_flag (k_rights k) F_SVP_OPTIONAL /\ src <> PSvp) /\
  (is_crypt r -> src = PSvp \/ dst = PSvp ->
     r <> RDecryptAsym /\ (dst = PNone \/ exists alg, by_context h p k alg /\ svp_algorithm alg)).

Definition fits (alg : Z) (k : stored_key) : Prop := alg_known alg = true /\ init_type_ok alg k = true.
Definition mac_fits (alg : Z) (k : stored_key) : Prop :=
  (alg = MAC_CMAC /\ key_type_supports_aes (k_type k) (k_size k) = true) \/
  (alg = MAC_HMAC /\ key_type_supports_hmac (k_type k) (k_size k) = true).

Definition if_parent (k : call) (A B : Prop) : Prop :=
  match k with
  | KKeyImport (ImpTypeJ _) _ _ => A
  | KKeyUnwrap _ _ _ _ _ _ | KKeyExchange _ _ _ _ => A
  | KKeyDerive _ (Some (DvLadder _)) => B
  | KKeyDerive _ _ => A
  | _ => B
  end.

Definition guard_add (h : list ev) (s : sid) (o : obj) : Prop :=
  match o with
  | OWrapped k => (exists c, s = SKeys c) /\ size_allowed (k_type k) (p_curve (k_params k)) (k_size k) /\
                  (length (r_id (k_rights k)) = 64%nat -> id_terminated (k_rights k)) /\
                  exists r, requests the r /\
                  (if_parent the (exists p kp, parent_of h p kp /\ k_rights k = restrict_child_rights r (Some (k_rights kp)))
                     (k_rights k = r))
  | OCipher ci => (exists c, s = SCiphers c) /\ exists k, by_handle h (ci_key ci) k /\
      listed (k_rights k) u /\ time_ok h k /\ outputs_ok h k /\
      ((ci_mode ci = ENCRYPT /\ has_flag (k_rights k) F_ENCRYPT) \/
       (ci_mode ci = DECRYPT /\ has_flag (k_rights k) F_DECRYPT)) /\ fits (ci_alg ci) k
  | OMac m => (exists c, s = SMacs c) /\ exists k, In (ENew (OMacState (MkMacState k false)) (Some (mc_ctx m))) h /\
      (exists p, by_handle h p k) /\
      listed (k_rights k) u /\ time_ok h k /\ outputs_ok h k /\ has_flag (k_rights k) F_SIGN /\ mac_fits (mc_alg m) k
  | OSvp _ => exists c, s = SSvps c
  | OClient => s = SClients
  | _ => False
  end.

Definition guard (h : list ev) (c : cmd) : Prop :=
  match c with
  | CUse p k r src dst => guard_use h p k r src dst
  | CAdd s p o v => v = u /\ own_store h s /\ guard_add h s o
  | CAcquire s x v | CRelease s x _ v | CRemove s x v => v = u /\ own_store h s /\ (s = SClients -> x = slot)
  | _ => True
  end.

Lemma validated_size k : validate_header k = true ->
  size_allowed (k_type k) (p_curve (k_params k)) (k_size k) /\
  (length (r_id (k_rights k)) = 64%nat -> id_terminated (k_rights k)).
Proof.
  unfold validate_header. intros H. apply andb_true_iff in H as [H1 H2].
  split; [now apply supports_any_iff|]. intros. now apply validate_format_iff.
Qed.
Lemma created r parent t ps s b st k :
  stored_key_create (Some r) parent t ps s (Some b) true = (st, Some k) ->
  k_rights k = restrict_child_rights r parent /\ k_type k = t /\ k_params k = ps /\ k_size k = s /\ k_bytes k = b.
Proof.
  unfold stored_key_create.
  destruct (key_type_supports_any t (p_curve ps) s) eqn:A; cbn [negb]; [|discriminate].
  destruct (rights_validate_format r) eqn:B; cbn [negb]; [|discriminate].
  intros E. injection E as <- <-. auto.
Qed.
Lemma svp_alg1 alg : clear_only alg = false -> is_symmetric alg = true -> svp_algorithm alg.
Proof.
  unfold clear_only, is_symmetric, is_aes, is_chacha, svp_algorithm, A_ECB, A_ECB_PKCS7, A_CBC, A_CBC_PKCS7, A_CTR,
    A_GCM, A_RSA_OAEP, A_RSA_PKCS1V15, A_EC_ELGAMAL, A_CHACHA20, A_CHACHA20_POLY1305.
  rewrite !orb_false_iff, !orb_true_iff, andb_true_iff, !Z.eqb_eq, !Z.eqb_neq, !Z.leb_le. cbn [In]. lia.
Qed.
Lemma svp_alg2 alg : is_pkcs7 alg = true -> svp_algorithm alg.
Proof.
  unfold is_pkcs7, svp_algorithm, A_ECB, A_ECB_PKCS7, A_CBC, A_CBC_PKCS7, A_CTR, A_CHACHA20.
  rewrite !orb_true_iff, !Z.eqb_eq. cbn [In]. lia.
Qed.
Lemma svp_alg3 alg : (alg =? A_CTR) || (alg =? A_CHACHA20) = true -> svp_algorithm alg.
Proof.
  unfold svp_algorithm, A_ECB, A_ECB_PKCS7, A_CBC, A_CBC_PKCS7, A_CTR, A_CHACHA20.
  rewrite !orb_true_iff, !Z.eqb_eq. cbn [In]. lia.
Qed.
Lemma svp_alg4 alg : clear_only alg = false -> alg = A_GCM -> svp_algorithm alg.
Proof. intros H ->. discriminate H. Qed.
Lemma svp_alg5 alg : clear_only alg = false -> alg = A_CHACHA20_POLY1305 -> svp_algorithm alg.
Proof. intros H ->. discriminate H. Qed.
Lemma asym1 (P : Prop) alg : clear_only alg = false -> (alg =? A_RSA_PKCS1V15) || (alg =? A_RSA_OAEP) = true -> P.
Proof. rewrite orb_true_iff, !Z.eqb_eq. intros H [->| ->]; discriminate H. Qed.
Lemma asym2 (P : Prop) alg : clear_only alg = false -> alg = A_EC_ELGAMAL -> P.
Proof. intros H ->. discriminate H. Qed.

Ltac in_tac := multimatch goal with
  | |- In _ (_ :: _) => (left; reflexivity) + (right; in_tac)
  end.
Ltac from_handle := do 4 eexists; once (split; [in_tac|split; [in_tac|in_tac]]).
Ltac from_context := do 5 eexists; once (split; [in_tac|split; [in_tac|split;[reflexivity|split;[reflexivity|in_tac]]]]).
Ltac from_mac := do 6 eexists; once (split; [in_tac|split; [in_tac|split;[reflexivity|split;[in_tac|reflexivity]]]]).
Ltac svp_alg := first [ apply svp_alg1; assumption | apply svp_alg2; assumption | apply svp_alg3; assumption
                       | eapply asym1; eassumption | eapply asym2; eassumption
                       | apply svp_alg4; assumption | apply svp_alg5; assumption ].
Ltac place_part :=
  intros _; cbn [is_clear is_svp known_type place_of negb andb orb] in *;
  repeat match goal with
  | H : rights_allowed_clear _ = true |- _ => apply clear_iff in H
  | H : negb ?b = true |- _ => apply negb_true_iff in H
  end;
  lazymatch goal with
  | |- _ = PClear -> _ => intros; first [discriminate | split; [assumption|discriminate]]
  | |- _ \/ _ -> _ =>
      let X := fresh in
      first [ intros [X|X]; discriminate X
            | intros _; split;
              [ first [discriminate | eapply asym1; eassumption | eapply asym2; eassumption ]
              | first [left; reflexivity | right; eexists; split; [from_context|svp_alg]] ] ]
  end.
Ltac use_parts :=
  lazymatch goal with
  | |- flag_ok _ _ => let f := fresh in let H := fresh in intros f H; cbn in H; first [discriminate H | injection H as <-; assumption]
  | |- timed _ -> _ => first [intros []; fail | intros _; once (eexists; split; [in_tac | eassumption])]
  | |- output_bound _ -> _ => first [intros []; fail | intros _; once (eexists; split; [in_tac | eassumption])]
  | |- is_crypt _ -> _ => first [intros []; fail | place_part]
  | |- _ => idtac
  end.
Ltac origin := first
  [ left; reflexivity
  | right; left; split; [from_handle | intros; first [assumption|congruence]]
  | right; right; left; eexists; from_context
  | right; right; right; from_mac ].
Ltac found := once (eexists; split; [in_tac | eassumption]).
Ltac the_call := try (match goal with H : the = _ |- _ => rewrite H end).
Ltac requested := the_call; cbn [requests];
  first [assumption | reflexivity | left; reflexivity | right; left; reflexivity | right; right; reflexivity].
Ltac key_part :=
  split; [now eexists|];
  let V := fresh in match goal with H : validate_header _ = true |- _ => pose proof (validated_size _ H) as V end;
  split; [apply V | split; [apply V | clear V]];
  repeat match goal with H : stored_key_create _ _ _ _ _ _ _ = (_, Some _) |- _ => apply created in H; destruct H as (H&_) end;
  lazymatch goal with
  | |- exists r, _ /\ if_parent _ (exists p kp, _ /\ k_rights ?k = _) _ =>
      lazymatch goal with
      | H : k_rights k = restrict_child_rights ?r (Some (k_rights ?kp)) |- _ =>
          exists r; split; [requested|]; the_call; cbn [if_parent]; eexists; exists kp; split; [|exact H];
          split; [from_handle | do 4 eexists; split; [in_tac | cbn [In]; tauto] ]
      | H : k_rights k = restrict_child_rights ?r None |- _ =>
          exists r; split; [requested|]; the_call; cbn [if_parent]; exact H
      end
  end.
Lemma mode_decrypt mode : (mode =? DECRYPT) || false = true -> mode = DECRYPT.
Proof. rewrite orb_false_r. apply Z.eqb_eq. Qed.
Ltac cipher_part :=
  split; [now eexists|]; eexists; cbn [ci_key ci_mode ci_alg];
  split; [from_handle|split; [eassumption|split; [found|split; [found|split;
    [first [left; split; [first [assumption|eassumption]|assumption] | right; split; [first [assumption|apply mode_decrypt; assumption]|assumption] ] | split; [first [assumption|reflexivity]|assumption] ]]]]].
Ltac mac_part :=
  split; [now eexists|]; eexists; cbn [mc_ctx mc_alg];
  split; [in_tac|split; [eexists; from_handle|split; [eassumption|split; [found|split; [found|split; [assumption|first [left; split; assumption|right; split; assumption]]]]]]].
Ltac easy_side := idtac;
  lazymatch goal with
  | |- guard _ (CUse _ _ _ _ _) =>
      cbn [guard]; unfold guard_use; split; [use_parts|split; [use_parts|split; [use_parts|split;[try origin|split; use_parts]]]]
  | |- guard _ (CAdd _ _ ?o _) =>
      cbn [guard own_store guard_add]; split; [reflexivity|split; [try in_tac; exact I|]];
      lazymatch o with
      | OWrapped _ => key_part
      | OSvp _ => now eexists
      | OClient => reflexivity
      | OMac _ => mac_part
      | OCipher _ => cipher_part
      end
  | |- guard _ _ => cbn [guard own_store]; repeat split; first [reflexivity | now (intros; congruence) | in_tac | idtac]
  end.
Ltac go := intros Hcall; unfold api, api_m, api_fn; rewrite Hcall; cbv beta iota; wp_run easy_side; try exact I.

Lemma g_KInit  : the = KInit -> wp guard (api the slot u) [] (fun _ _ => True).
Proof. go. Qed.
Lemma g_KClose  : the = KClose -> wp guard (api the slot u) [] (fun _ _ => True).
Proof. go. Qed.
Lemma g_KRandom out_ok : the = KRandom out_ok -> wp guard (api the slot u) [] (fun _ _ => True).
Proof. go. Qed.
Lemma g_KKeyGenerate r g : the = KKeyGenerate r g -> wp guard (api the slot u) [] (fun _ _ => True).
Proof. go. Qed.
Lemma g_KKeyImport ip input md : the = KKeyImport ip input md -> wp guard (api the slot u) [] (fun _ _ => True).
Proof. go. Qed.
Lemma g_KKeyUnwrap r key_type curve alg wrapping input : the = KKeyUnwrap r key_type curve alg wrapping input -> wp guard (api the slot u) [] (fun _ _ => True).
Proof. go. Qed.
Lemma g_KKeyDerive r alg : the = KKeyDerive r alg -> wp guard (api the slot u) [] (fun _ _ => True).
Proof. go. Qed.
Lemma g_KKeyExchange r alg private other_public : the = KKeyExchange r alg private other_public -> wp guard (api the slot u) [] (fun _ _ => True).
Proof. go. Qed.
Lemma g_KKeyExport mixin out key required : the = KKeyExport mixin out key required -> wp guard (api the slot u) [] (fun _ _ => True).
Proof. go. Qed.
Lemma g_KKeyHeader key : the = KKeyHeader key -> wp guard (api the slot u) [] (fun _ _ => True).
Proof. go. Qed.
Lemma g_KKeyDigest key : the = KKeyDigest key -> wp guard (api the slot u) [] (fun _ _ => True).
Proof. go. Qed.
Lemma g_KKeyRelease key : the = KKeyRelease key -> wp guard (api the slot u) [] (fun _ _ => True).
Proof. go. Qed.
Lemma g_KKeyPublic key : the = KKeyPublic key -> wp guard (api the slot u) [] (fun _ _ => True).
Proof. go. Qed.
Lemma g_KSign alg key in_ok digests salt out : the = KSign alg key in_ok digests salt out -> wp guard (api the slot u) [] (fun _ _ => True).
Proof. go. Qed.
Lemma g_KCipherInit alg mode key pstat vstat : the = KCipherInit alg mode key pstat vstat -> wp guard (api the slot u) [] (fun _ _ => True).
Proof. go. Qed.
Lemma g_KCipherProcess out context input n : the = KCipherProcess out context input n -> wp guard (api the slot u) [] (fun _ _ => True).
Proof. go. Qed.
Lemma g_KCipherProcessLast out context input n tag : the = KCipherProcessLast out context input n tag -> wp guard (api the slot u) [] (fun _ _ => True).
Proof. go. Qed.
Lemma g_KCipherUpdateIv context iv : the = KCipherUpdateIv context iv -> wp guard (api the slot u) [] (fun _ _ => True).
Proof. go. Qed.
Lemma g_KCipherRelease context : the = KCipherRelease context -> wp guard (api the slot u) [] (fun _ _ => True).
Proof. go. Qed.
Lemma g_KMacInit alg digest key : the = KMacInit alg digest key -> wp guard (api the slot u) [] (fun _ _ => True).
Proof. go. Qed.
Lemma g_KMacProcess context in_ok : the = KMacProcess context in_ok -> wp guard (api the slot u) [] (fun _ _ => True).
Proof. go. Qed.
Lemma g_KMacProcessKey context key : the = KMacProcessKey context key -> wp guard (api the slot u) [] (fun _ _ => True).
Proof. go. Qed.
Lemma g_KMacCompute context out mac_length : the = KMacCompute context out mac_length -> wp guard (api the slot u) [] (fun _ _ => True).
Proof. go. Qed.
Lemma g_KMacRelease context : the = KMacRelease context -> wp guard (api the slot u) [] (fun _ _ => True).
Proof. go. Qed.
Lemma g_KSvpCreate memory size : the = KSvpCreate memory size -> wp guard (api the slot u) [] (fun _ _ => True).
Proof. go. Qed.
Lemma g_KSvpRelease h : the = KSvpRelease h -> wp guard (api the slot u) [] (fun _ _ => True).
Proof. go. Qed.
Lemma g_KSvpWrite h in_ok offsets_ok : the = KSvpWrite h in_ok offsets_ok -> wp guard (api the slot u) [] (fun _ _ => True).
Proof. go. Qed.
Lemma g_KSvpCopy out input offsets_ok : the = KSvpCopy out input offsets_ok -> wp guard (api the slot u) [] (fun _ _ => True).
Proof. go. Qed.
Lemma g_KSvpCheck h offset length digest hash : the = KSvpCheck h offset length digest hash -> wp guard (api the slot u) [] (fun _ _ => True).
Proof. go. Qed.
Lemma g_KSvpKeyCheck key input n expected : the = KSvpKeyCheck key input n expected -> wp guard (api the slot u) [] (fun _ _ => True).
Proof. go. Qed.

Lemma guard_all : (forall l, the <> KCenc l) -> wp guard (api the slot u) [] (fun _ _ => True).
Proof.
  intros H. destruct the eqn:E; rewrite <- E.
  - eapply g_KInit; eassumption.
  - eapply g_KClose; eassumption.
  - eapply g_KRandom; eassumption.
  - eapply g_KKeyGenerate; eassumption.
  - eapply g_KKeyImport; eassumption.
  - eapply g_KKeyUnwrap; eassumption.
  - eapply g_KKeyDerive; eassumption.
  - eapply g_KKeyExchange; eassumption.
  - eapply g_KKeyExport; eassumption.
  - eapply g_KKeyHeader; eassumption.
  - eapply g_KKeyDigest; eassumption.
  - eapply g_KKeyRelease; eassumption.
  - eapply g_KKeyPublic; eassumption.
  - eapply g_KSign; eassumption.
  - eapply g_KCipherInit; eassumption.
  - eapply g_KCipherProcess; eassumption.
  - eapply g_KCipherProcessLast; eassumption.
  - eapply g_KCipherUpdateIv; eassumption.
  - eapply g_KCipherRelease; eassumption.
  - now contradiction (H samples).
  - eapply g_KMacInit; eassumption.
  - eapply g_KMacProcess; eassumption.
  - eapply g_KMacProcessKey; eassumption.
  - eapply g_KMacCompute; eassumption.
  - eapply g_KMacRelease; eassumption.
  - eapply g_KSvpCreate; eassumption.
  - eapply g_KSvpRelease; eassumption.
  - eapply g_KSvpWrite; eassumption.
  - eapply g_KSvpCopy; eassumption.
  - eapply g_KSvpCheck; eassumption.
  - eapply g_KSvpKeyCheck; eassumption.
Qed.
(** ** Common encryption: verification and processing look at the context separately *)
Definition decrypting (h : list ev) (p : Z) (k : stored_key) : Prop :=
  exists c ch q ci, In (EAcquire (SCiphers c) ch u (Got q)) h /\ In (ECipher q ci) h /\
     ci_key ci = p /\ ci_mode ci = DECRYPT /\ svp_algorithm (ci_alg ci) /\ In (EGetKey p k) h.
Lemma takes_iv_svp alg : takes_iv alg = true -> svp_algorithm alg.
Proof.
  unfold takes_iv, svp_algorithm. rewrite !orb_true_iff, !Z.eqb_eq. cbn [In]. intuition auto.
Qed.
Definition guard_cenc (h : list ev) (c : cmd) : Prop :=
  match c with
  | CUse p k r src dst => (r = RDecrypt /\ decrypting h p k) /\ (undisturbed h -> guard_use h p k r src dst)
  | _ => guard h c
  end.
Definition verified (h : list ev) (c : Z) (s : csample) : Prop :=
  exists q ci k now v outb inb,
    cs_out s = Some outb /\ cs_in s = Some inb /\
    In (EAcquire (SCiphers c) (cs_context s) u (Got q)) h /\ In (ECipher q ci) h /\
    In (EGetKey (ci_key ci) k) h /\ has_flag (k_rights k) F_DECRYPT /\
    In (EClock now) h /\ in_window (k_rights k) now /\
    In (EPoll (Some v)) h /\ outputs_permitted (k_rights k) v /\
    (ci_alg ci = A_CTR \/ ci_alg ci = A_CBC) /\
    (is_clear outb = true -> is_clear inb = true /\ has_flag (k_rights k) F_SVP_OPTIONAL).
Lemma verified_mono h h' c s : extends h h' -> verified h c s -> verified h' c s.
Proof.
  intros He (q&ci&k&now&v&outb&inb&H1&H2&H3&H4&H5&H6&H7&H8&H9&H10&H11&H12).
  exists q, ci, k, now, v, outb, inb. intuition eauto using extends_in.
Qed.

Ltac in_tail := multimatch goal with
  | |- In _ (_ :: _) => (left; reflexivity) + (right; in_tail)
  | |- In _ _ => eassumption
  end.
Ltac cenc_side := idtac; lazymatch goal with
  | |- guard_cenc _ (CUse _ _ _ _ _) => idtac
  | |- guard_cenc _ _ => cbn [guard_cenc guard own_store]; repeat split;
        first [exact I | reflexivity | now (intros; congruence) | idtac]
  end.

Lemma alg_ctr_cbc alg : (alg =? A_CTR) || (alg =? A_CBC) = true -> alg = A_CTR \/ alg = A_CBC.
Proof. rewrite orb_true_iff, !Z.eqb_eq. auto. Qed.

Lemma verify_guard c s h (Q : flow unit -> list ev -> Prop) : In (EAcquire SClients slot u (Got c)) h ->
  (forall h', extends h h' -> verified h' c s -> Q (Go tt) h') ->
  (forall h' a, extends h h' -> a <> Go tt -> Q a h') ->
  wp guard_cenc (verify_sample c s u) h Q.
Proof.
  intros Hc HG HB.
  assert (W : wp guard_cenc (verify_sample c s u) h
     (fun a h' => a <> Go tt \/ a = Go tt /\ verified h' c s)).
  2:{ apply wp_extends in W. eapply wp_mono; [exact W|]. cbn. intros a h' [[H|[-> H]] He]; auto. }
  clear HG HB.
  wp_run cenc_side. all: try (left; congruence).
  all: cbn [own_store]; try in_tail.
  all: right; split; [reflexivity|].
  all: do 7 eexists.
  all: split; [eassumption|]; split; [eassumption|].
  all: split; [in_tail|]; split; [in_tail|]; split; [in_tail|]; split; [assumption|].
  all: split; [in_tail|]; split; [assumption|]; split; [in_tail|]; split; [assumption|].
  all: split; [now apply alg_ctr_cbc|]; cbn [is_clear] in *; intros; try discriminate.
  all: split; [assumption|now apply clear_iff].
Qed.

Lemma same_context H c ch q z ci ci' k k' : undisturbed H ->
  In (EAcquire (SCiphers c) ch u (Got q)) H -> In (ECipher q ci) H -> In (EGetKey (ci_key ci) k) H ->
  In (EAcquire (SCiphers c) ch u (Got z)) H -> In (ECipher z ci') H -> In (EGetKey (ci_key ci') k') H ->
  ci' = ci /\ k' = k.
Proof.
  intros (U1&U2&U3) A1 A2 A3 B1 B2 B3.
  assert (z = q) as -> by (eapply U1; eassumption).
  assert (ci' = ci) as -> by (eapply U2; eassumption). split; [reflexivity|eapply U3; eassumption].
Qed.

Lemma process_guard c s h (Q : flow unit -> list ev -> Prop) : In (EAcquire SClients slot u (Got c)) h ->
  verified h c s ->
  (forall h' a, extends h h' -> Q a h') ->
  wp guard_cenc (process_sample c s u) h Q.
Proof.
  intros Hc HV HQ.
  assert (W : wp guard_cenc (process_sample c s u) h (fun _ _ => True)).
  2:{ apply wp_extends in W. eapply wp_mono; [exact W|]. cbn. intros a h' [_ He]; auto. }
  clear HQ. destruct HV as (q&ci&k&now&v&outb&inb&H1&H2&H3&H4&H5&H6&H7&H8&H9&H10&H11&H12).
  unfold process_sample. rewrite H1, H2.
  wp_run cenc_side. all: try exact I. all: cbn [own_store]; try in_tail.
  all: split; [split; [reflexivity|do 4 eexists; split; [in_tail|split; [in_tail|split;[reflexivity|split;[eassumption|split; [now apply takes_iv_svp|in_tail]]]]]]|].
  all: intros U.
  all: assert (U4 := fun z ci' k' => same_context _ c (cs_context s) q z ci ci' k k' U ltac:(in_tail) ltac:(in_tail) ltac:(in_tail)).
  all: edestruct U4 as [X1 X2]; [in_tail|in_tail|in_tail|]; subst.
  all: clear U4 U; cbn [place_of is_clear] in *.
  all: assert (S : svp_algorithm (ci_alg ci)) by (unfold svp_algorithm; destruct H11 as [-> | ->]; compute; auto 10).
  all: split; [intros f Hf; cbn in Hf; injection Hf as <-; assumption|].
  all: split; [intros _; exists now; split; [in_tail|assumption]|].
  all: split; [intros _; exists v; split; [in_tail|assumption]|].
  all: split; [right; right; left; eexists; do 5 eexists; once (split; [in_tail|split; [in_tail|split;[reflexivity|split;[reflexivity|in_tail]]]])|].
  all: unfold place_of; cbn [is_svp].
  all: split; [intros _ HH; first [discriminate HH | destruct (H12 eq_refl); split; [assumption|congruence]]|].
  all: intros _ _; split; [congruence|].
  all: right; eexists; split; [|exact S].
  all: do 5 eexists; once (split; [in_tail|split; [in_tail|split;[reflexivity|split;[reflexivity|in_tail]]]]).
Qed.

Lemma verify_all c l h (Q : flow unit -> list ev -> Prop) : In (EAcquire SClients slot u (Got c)) h ->
  (forall h', extends h h' -> (forall s, In s l -> verified h' c s) -> Q (Go tt) h') ->
  (forall h' a, extends h h' -> a <> Go tt -> Q a h') ->
  wp guard_cenc (each (fun s => verify_sample c s u) l) h Q.
Proof.
  revert h. induction l as [|s l IH]; cbn [each]; intros h Hc HG HB.
  - apply wp_ret. apply HG; [apply extends_refl|intros s []].
  - unfold bind. apply wp_pbind. apply verify_guard; [exact Hc| |].
    + intros h' He HV. apply IH; [eauto using extends_in| |].
      * intros h2 He2 HA. apply HG; [eauto using extends_trans|].
        intros x [<-|Hx]; [eauto using verified_mono|auto].
      * intros h2 a He2 Ha. apply HB; [eauto using extends_trans|exact Ha].
    + intros h' [[]|st|st] He Ha; [congruence| |]; apply wp_ret; apply HB; auto; discriminate.
Qed.
Lemma process_all c l h (Q : flow unit -> list ev -> Prop) : In (EAcquire SClients slot u (Got c)) h ->
  (forall s, In s l -> verified h c s) ->
  (forall h' a, extends h h' -> Q a h') ->
  wp guard_cenc (each (fun s => process_sample c s u) l) h Q.
Proof.
  revert h. induction l as [|s l IH]; cbn [each]; intros h Hc HG HB.
  - apply wp_ret. apply HB. apply extends_refl.
  - unfold bind. apply wp_pbind. apply process_guard; [exact Hc|apply HG; now left|].
    intros h' [[]|st|st] He; [|apply wp_ret; auto|apply wp_ret; auto].
    apply IH; [eauto using extends_in| |eauto using extends_trans].
    intros x Hx. eapply verified_mono; [exact He|]. apply HG. now right.
Qed.
Lemma cenc_all l : the = KCenc l -> wp guard_cenc (api the slot u) [] (fun _ _ => True).
Proof.
  intros ->. unfold api, api_m, process_common_encryption. destruct l as [l|]; [|wp_run cenc_side; exact I].
  unfold api_fn, with_client. wp_step idtac.
  repeat (lazymatch goal with |- wp _ (each _ _) _ _ => fail | _ => idtac end; wp_step cenc_side).
  all: try exact I.
  all: try (lazymatch goal with |- wp _ (each _ _) _ _ => fail | _ => idtac end; in_tail).
  apply verify_all; [now left| |].
  - intros h' He HV. lazy beta iota. apply process_all; [eapply extends_in; [exact He|now left]|exact HV|].
    intros h2 a He2. assert (Hc := extends_in _ _ _ (extends_trans _ _ _ He He2) (or_introl eq_refl)).
    destruct a; lazy beta iota; wp_run cenc_side; try exact I; in_tail.
  - intros h' a He Ha. assert (Hc := extends_in _ _ _ He (or_introl eq_refl)).
    destruct a as [[]|st|st]; [congruence| |]; lazy beta iota; wp_run cenc_side; try exact I; in_tail.
Qed.
End Guard.
