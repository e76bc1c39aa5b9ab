(** Proofs about provisioning. *)
From Verif Require Import Base M_Provision S_Provision.
Local Open Scope Z_scope.

Lemma other_facts : forall o w, w_checked (other_step w o) = w_checked w /\ w_lost (other_step w o) = w_lost w /\
  forall h, (w_keys (other_step w o) h = Some Ours <-> w_keys w h = Some Ours) /\
            (o <> Adds h -> w_keys w h = None -> w_keys (other_step w o) h = None).
Proof.
  intros [g|g] w; cbn; destruct (w_keys w g) as [[|]|] eqn:E; cbn; (split; [reflexivity|]); (split; [reflexivity|]); intros h;
    try (split; [tauto|auto]; fail); destruct (h =? g) eqn:X; try (apply Z.eqb_eq in X; subst h; rewrite E); split; try tauto; try (split; discriminate); try congruence; auto.
Qed.
Lemma others_facts : forall l w, w_checked (others l w) = w_checked w /\ w_lost (others l w) = w_lost w /\
  forall h, (w_keys (others l w) h = Some Ours <-> w_keys w h = Some Ours) /\
            (~ In (Adds h) l -> w_keys w h = None -> w_keys (others l w) h = None).
Proof.
  unfold others. induction l as [|o l IH]; intros w; cbn [fold_left].
  - split; [reflexivity|]. split; [reflexivity|]. intros h. split; [tauto|auto].
  - destruct (other_facts o w) as (A & B & C). destruct (IH (other_step w o)) as (D & E & F).
    split; [congruence|]. split; [congruence|]. intros h. destruct (C h) as [C1 C2], (F h) as [F1 F2]. split; [tauto|].
    intros N X. apply F2; [intros Y; apply N; right; exact Y|]. apply C2; [intros ->; apply N; left; reflexivity|auto].
Qed.

Definition only_key (w : world) (key : Z) : Prop := w_keys w key = Some Ours /\ forall h, w_keys w h = Some Ours -> h = key.

Lemma import_state : forall x n f p w key, handles_valid x -> none_of_ours w ->
  match import x n f p w key with
  | IBad => True
  | IAnswer v k s =>
      w_lost v = w_lost w /\
      ((s = Ok /\ k <> INVALID /\ only_key v k) \/
       (s <> Ok /\ none_of_ours v /\ (k = INVALID \/ (k = key /\ (f_at f = None \/ x_client x n = false)))))
  end.
Proof.
  intros x n f p w key H N. unfold import. destruct (others_facts (x_others x n) w) as (A & B & C).
  assert (N' : none_of_ours (others (x_others x n) w)) by (intros h X; apply (N h); apply C; auto).
  set (v := others (x_others x n) w) in *.
  destruct (f_at f) as [b|]; [|split; [auto|]; right; split; [discriminate|]; auto].
  destruct (x_client x n); cbn [negb]; [|split; [auto|]; right; split; [discriminate|]; auto].
  destruct (f_length f <=? 0); [split; [auto|]; right; split; [discriminate|]; auto|].
  destruct (zlen b <? f_length f); [exact Logic.I|].
  destruct (x_check x _ p); try (cbn; split; [auto|]; right; split; [discriminate|auto]).
  destruct (x_slot x n) as [h|] eqn:S; cbn; [|split; [auto|]; right; split; [discriminate|auto]].
  destruct (w_keys v h) eqn:K; cbn; (split; [auto|]); [right; split; [discriminate|auto]|left].
  split; [reflexivity|]. split; [intros ->; exact (H n S)|]. split; cbn; [rewrite Z.eqb_refl; reflexivity|].
  intros g. destruct (g =? h) eqn:E; [intros; apply Z.eqb_eq; auto|]. intros X. exfalso. exact (N' g X).
Qed.
Lemma release_state : forall x n w key, x_client x n = true -> only_key w key ->
  exists v, release x n w key = (v, Ok) /\ none_of_ours v /\ w_lost v = w_lost w.
Proof.
  intros x n w key H [K O]. unfold release. destruct (others_facts (x_others x n) w) as (A & B & C). rewrite H. cbn [negb].
  destruct (C key) as [C1 _]. apply C1 in K. rewrite K. eexists. split; [reflexivity|]. split; [|exact B].
  intros h. cbn. destruct (h =? key) eqn:E; [discriminate|]. intros X. apply C in X. apply O in X. subst. rewrite Z.eqb_refl in E. discriminate.
Qed.

Lemma nothing_left : forall x k input change n p w, (forall i, x_client x i = true) -> handles_valid x -> none_of_ours w ->
  (forall s, f_at (s_second (change s)) = None -> f_at (s_second s) = None) ->
  match provision x k input change n p w with
  | Bad => True
  | Answer v s => none_of_ours v /\ w_lost v = w_lost w
  end.
Proof.
  intros x k input change n p w C H N CH. unfold provision. destruct (preprocess k input n p) as [s|] eqn:P; [|exact Logic.I].
  destruct s; try (split; [auto|reflexivity]; fail).
  destruct input as [s|]; [|split; [auto|reflexivity]]. destruct p as [p|]; [|split; [auto|reflexivity]].
  destruct (x_session x); cbn [negb]; [|split; [auto|reflexivity]].
  destruct (x_command x); cbn [negb]; [|exact Logic.I].
  destruct (told p) as [m|]; [|exact Logic.I]. destruct (zlen p <? m); [exact Logic.I|].
  destruct (x_cache x); cbn [negb]; [|cbn; split; [auto|reflexivity]].
  set (q := firstn _ p).
  assert (Fin : forall i, match i with IBad => True | IAnswer v key st =>
      w_lost v = w_lost w /\ ((key <> INVALID /\ only_key v key) \/ (key = INVALID /\ none_of_ours v)) end ->
    match match i with IBad => Bad | IAnswer v key st => if key =? INVALID then Answer v st else Answer (fst (release x 3 v key)) st end with
    | Bad => True | Answer v st => none_of_ours v /\ w_lost v = w_lost w end).
  { intros [|v key st]; [auto|]. intros [L [[A B]|[A B]]].
    - apply Z.eqb_neq in A. rewrite A. destruct (release_state x 3 v key (C _) B) as (u & E & F & G). rewrite E. cbn [fst]. split; [auto|congruence].
    - subst key. rewrite Z.eqb_refl. auto. }
  apply Fin. unfold invoke.
  destruct (zlen q =? 0); [cbn; auto|]. destruct (SOC_SIZE <? zlen q); [exact Logic.I|].
  assert (One : forall f, match import x 0 f q w INVALID with IBad => True | IAnswer v key st =>
      w_lost v = w_lost w /\ ((key <> INVALID /\ only_key v key) \/ (key = INVALID /\ none_of_ours v)) end).
  { intros f. pose proof (import_state x 0 f q w INVALID H N) as I. destruct (import x 0 f q w INVALID) as [|v key st]; [auto|].
    destruct I as [L [(A & B & D)|(A & B & [D|[D _]])]]; split; auto. }
  destruct k; try (split; [reflexivity|auto]; fail); try apply One.
  pose proof (import_state x 0 (s_first (change s)) q w INVALID H N) as I.
  destruct (import x 0 (s_first (change s)) q w INVALID) as [|v key st]; [auto|].
  destruct I as [L [(A & B & D)|(A & B & D)]].
  - subst st. apply Z.eqb_neq in B. rewrite B.
    destruct (release_state x 1 v key (C _) D) as (u & E & F & G). rewrite E.
    pose proof (import_state x 2 (s_second (change s)) q u key H F) as J.
    destruct (import x 2 (s_second (change s)) q u key) as [|u2 key2 st2]; [auto|].
    destruct J as [M [(A2 & B2 & D2)|(A2 & B2 & D2)]]; (split; [congruence|]); auto.
    destruct D2 as [D2|[D2 [D3|D3]]]; [auto| |rewrite C in D3; discriminate].
    exfalso. apply CH in D3. unfold preprocess in P. destruct (n =? 0); [discriminate|]. destruct (s_there s <? size_of Netflix); [discriminate|].
    unfold empty at 2 in P. rewrite D3 in P. rewrite Bool.orb_true_r in P. cbn in P. discriminate.
  - destruct st; try congruence; (split; [auto|]); right; (split; [|auto]); destruct D as [D|[D _]]; auto.
Qed.

(** What was opened, and success. *)
Lemma import_ok : forall x n f p w key v k, import x n f p w key = IAnswer v k Ok ->
  exists b, f_at f = Some b /\ x_check x (firstn (Z.to_nat (f_length f)) b) p = Ok /\ 0 < f_length f <= zlen b /\
  w_checked v = w_checked w ++ [firstn (Z.to_nat (f_length f)) b].
Proof.
  intros x n f p w key v k. unfold import. destruct (others_facts (x_others x n) w) as (A & B & C).
  destruct (f_at f) as [b|]; [|discriminate]. destruct (negb (x_client x n)); [discriminate|].
  destruct (f_length f <=? 0) eqn:L; [discriminate|]. destruct (zlen b <? f_length f) eqn:G; [discriminate|].
  apply Z.leb_gt in L. apply Z.ltb_ge in G. intros X. exists b. split; [reflexivity|].
  destruct (x_check x _ p) eqn:K; try discriminate. split; [reflexivity|]. split; [lia|].
  destruct (x_slot x n) as [h|]; [|discriminate]. cbn in X. destruct (w_keys _ h); [discriminate|]. injection X as <- _. cbn. now rewrite A.
Qed.
Lemma release_checked : forall x n w key, w_checked (fst (release x n w key)) = w_checked w.
Proof.
  intros. unfold release. destruct (others_facts (x_others x n) w) as (A & B & C).
  destruct (negb (x_client x n)); [exact A|]. destruct (w_keys _ key) as [[|]|]; exact A.
Qed.

Lemma success_sound : forall x k input change n p w v, provision x k input change n p w = Answer v Ok ->
  exists s q, input = Some s /\ p = Some q /\ supported k /\
  w_checked v = w_checked w ++ containers k (change s) /\
  (forall c, In c (containers k (change s)) -> x_check x c (given q) = Ok).
Proof.
  intros x k input change n p w v. unfold provision. destruct (preprocess k input n p) as [st|] eqn:P; [|discriminate].
  intros X. assert (st = Ok) by (destruct st; congruence). subst st.
  destruct input as [s|]; [|discriminate]. destruct p as [p|]; [|discriminate].
  destruct (negb (x_session x)); [discriminate|]. destruct (negb (x_command x)); [discriminate|].
  destruct (told p) as [m|] eqn:T; [|discriminate].
  assert (Gi : given p = firstn (Z.to_nat m) p).
  { unfold told in T. unfold given. destruct p as [|a [|b p]]; try discriminate. injection T as <-. do 2 f_equal. lia. }
 destruct (zlen p <? m); [discriminate|].
  destruct (negb (x_cache x)); [discriminate|]. set (q := firstn _ p) in *.
  destruct (invoke x k (change s) q w INVALID) as [|u key st] eqn:I; [discriminate|].
  assert (E : st = Ok /\ w_checked v = w_checked u).
  { destruct (key =? INVALID); injection X as <- ->; [auto|split; [auto|apply release_checked]]. }
  destruct E as [-> E]. rewrite E. clear X E. exists s, p. split; [reflexivity|]. split; [reflexivity|].
  assert (Su : supported k). { unfold preprocess in P. destruct (n =? 0); [discriminate|]. unfold supported. destruct k; auto; discriminate. }
  split; [exact Su|].
  rewrite Gi. fold q.
  unfold invoke in I. destruct (zlen q =? 0); [discriminate|]. destruct (SOC_SIZE <? zlen q); [discriminate|].
  assert (One : forall f w' n key', import x n f q w' key' = IAnswer u key Ok ->
     w_checked u = w_checked w' ++ [match f_at f with Some b => firstn (Z.to_nat (f_length f)) b | None => [] end] /\
     x_check x (match f_at f with Some b => firstn (Z.to_nat (f_length f)) b | None => [] end) q = Ok).
  { intros f w' n' key' Y. apply import_ok in Y. destruct Y as (b & Y1 & Y2 & _ & Y3). rewrite Y1. auto. }
  destruct Su as [-> | [-> | ->]].
  - apply One in I. destruct I as [I1 I2]. split; [exact I1|]. cbn. intros c [<-|[]]. exact I2.
  - apply One in I. destruct I as [I1 I2]. split; [exact I1|]. cbn. intros c [<-|[]]. exact I2.
  - destruct (import x 0 (s_first (change s)) q w INVALID) as [|u1 k1 s1] eqn:I1; [discriminate|].
    destruct s1; try discriminate. apply import_ok in I1. destruct I1 as (b & F & G & _ & H).
    destruct (if k1 =? INVALID then (u1, Ok) else release x 1 u1 k1) as [u2 s2] eqn:R.
    assert (K : w_checked u2 = w_checked u1).
    { destruct (k1 =? INVALID); [injection R as <- _; reflexivity|]. rewrite <- (release_checked x 1 u1 k1), R. reflexivity. }
    destruct s2; try discriminate. apply One in I. destruct I as [I2 I3]. cbn. rewrite F.
    split; [rewrite I2, K, H, <- app_assoc; reflexivity|]. intros c [<-|[<-|[]]]; auto.
Qed.

Lemma import_accepts : forall x n f p w key, (forall i, x_client x i = true) -> proper_field f ->
  (exists h, x_slot x n = Some h /\ w_keys w h = None /\ h <> INVALID /\ (forall m, ~ In (Adds h) (x_others x m))) ->
  let c := match f_at f with Some b => firstn (Z.to_nat (f_length f)) b | None => [] end in
  (exists v k, import x n f p w key = IAnswer v k (x_check x c p) /\
    (x_check x c p = Ok -> x_slot x n = Some k /\ w_keys v k = Some Ours /\ k <> INVALID /\
      forall h, (forall m, ~ In (Adds h) (x_others x m)) -> w_keys w h = None -> h <> k -> w_keys v h = None) /\
    (x_check x c p <> Ok -> k = INVALID)).
Proof.
  intros x n f p w key C (b & F & L) (h & S & K & V & O) c. unfold import. subst c. rewrite F, C. cbn [negb].
  destruct (others_facts (x_others x n) w) as (A & B & D).
  assert (f_length f <=? 0 = false) as -> by (apply Z.leb_gt; lia). assert (zlen b <? f_length f = false) as -> by (apply Z.ltb_ge; lia).
  destruct (x_check x _ p); try (eexists; eexists; split; [reflexivity|split; [intros; discriminate|auto]]; fail).
  rewrite S. cbn. destruct (D h) as [_ D2]. rewrite D2 by auto. eexists; eexists. split; [reflexivity|]. split; [|congruence].
  intros _. split; [reflexivity|]. split; [cbn; rewrite Z.eqb_refl; reflexivity|]. split; [auto|].
  intros g G N X. cbn. apply Z.eqb_neq in X. rewrite X. apply D; auto.
Qed.

Lemma proper_not_empty : forall f, proper_field f -> empty f = false.
Proof. intros f (b & F & L). unfold empty. rewrite F. apply Z.eqb_neq. lia. Qed.
Lemma told_short : forall p n, told p = Some n -> 2 <= zlen p.
Proof. intros p n T. unfold told in T. destruct p as [|a [|b p]]; try discriminate. unfold zlen. cbn [length]. lia. Qed.

Lemma complete : forall x k s n p w, fine x -> room x w -> supported k -> proper k s -> proper_parameters p -> n <> 0 ->
  exists v, (provision x k (Some s) stays n (Some p) w = Answer v Ok <-> forall c, In c (containers k s) -> x_check x c p = Ok) /\
            (exists st, provision x k (Some s) stays n (Some p) w = Answer v st).
Proof.
  intros x k s n p w (F1 & F2 & F3 & F4) R Su (P1 & P2 & P3 & P4) (L & rest & T0) N.
  assert (T : told p = Some (zlen p)) by (rewrite T0 at 1; cbn; f_equal; pose proof (Z.div_mod (zlen p) 256); lia).
  clear T0. change (match k with Netflix => 48 | _ => 32 end) with (size_of k) in P1.
  unfold provision.
  assert (Pre : preprocess k (Some s) n (Some p) = Some Ok).
  { unfold preprocess. apply Z.eqb_neq in N. rewrite N. assert (s_there s <? size_of k = false) as -> by (apply Z.ltb_ge; lia).
    rewrite (proper_not_empty _ P2), (proper_not_empty _ P3). destruct Su as [-> | [-> | ->]]; cbn; try reflexivity.
    rewrite (proper_not_empty _ (P4 eq_refl)). reflexivity. }
  rewrite Pre, F1, F2, F3. cbn [negb]. rewrite T. rewrite Z.ltb_irrefl.
  assert (Q : firstn (Z.to_nat (zlen p)) p = p) by (unfold zlen; rewrite Nat2Z.id; apply firstn_all). rewrite Q.
  unfold invoke, stays. pose proof (told_short _ _ T) as TS.
  assert (zlen p =? 0 = false) as -> by (apply Z.eqb_neq; lia). assert (SOC_SIZE <? zlen p = false) as -> by (apply Z.ltb_ge; exact L).
  assert (One : forall f, proper_field f -> let c := match f_at f with Some b => firstn (Z.to_nat (f_length f)) b | None => [] end in
    exists v, match import x 0 f p w INVALID with IBad => Bad | IAnswer w key s => if key =? INVALID then Answer w s else Answer (fst (release x 3 w key)) s end
      = Answer v (x_check x c p)).
  { intros f Pf. destruct (import_accepts x 0 f p w INVALID F4 Pf (R 0%nat)) as (v & key & E & A & B). cbv zeta in *. rewrite E.
    destruct (key =? INVALID); eauto. }
  destruct Su as [-> | [-> | ->]].
  - destruct (One _ P2) as [v E]. rewrite E. exists v. split; [|eauto]. cbn.
    split; [intros X c [<-|[]]; congruence|intros X; rewrite X by auto; reflexivity].
  - destruct (One _ P2) as [v E]. rewrite E. exists v. split; [|eauto]. cbn.
    split; [intros X c [<-|[]]; congruence|intros X; rewrite X by auto; reflexivity].
  - destruct (import_accepts x 0 (s_first s) p w INVALID F4 P2 (R 0%nat)) as (v & key & E & A & B). rewrite E.
    set (c1 := match f_at (s_first s) with Some b => _ | None => [] end) in *.
    set (c2 := match f_at (s_second s) with Some b => firstn (Z.to_nat (f_length (s_second s))) b | None => [] end).
    change (containers Netflix s) with [c1; c2].
    destruct (x_check x c1 p) eqn:K;
      try (rewrite (B ltac:(discriminate)), Z.eqb_refl; exists v; split; [split; [discriminate|intros X; exfalso; rewrite X in K by (cbn; auto); discriminate]|eauto]; fail).
    destruct (A eq_refl) as (A1 & A2 & A3 & A4). apply Z.eqb_neq in A3. rewrite A3.
    destruct (others_facts (x_others x 1) v) as (D1 & D2 & D3).
    set (u := set_key (others (x_others x 1) v) key None).
    assert (Rel : release x 1 v key = (u, Ok)) by (unfold release; rewrite F4, (proj2 (proj1 (D3 key)) A2); reflexivity).
    rewrite Rel.
    destruct (import_accepts x 2 (s_second s) p u key F4 P3) as (v2 & k2 & E2 & B1 & B2).
    { destruct (R 2%nat) as (h & H1 & H2 & H3 & H4). exists h. split; [auto|]. split; [|auto].
      unfold u. cbn. destruct (h =? key) eqn:X; [reflexivity|]. apply D3; [auto|]. apply A4; auto. apply Z.eqb_neq; auto. }
    cbv zeta in *. fold c2 in E2, B1, B2. rewrite E2.
    destruct (k2 =? INVALID); [exists v2|exists (fst (release x 3 v2 k2))]; (split; [|eauto]);
      (split; [intros X c [Y|[Y|[]]]; subst c; congruence|intros X; rewrite (X c2) by (cbn; auto); reflexivity]).
Qed.

(** Refusals by the client library have no effect at all. *)
Lemma refused_early : forall x k input change n p w st, preprocess k input n p = Some st -> st <> Ok ->
  provision x k input change n p w = Answer w st.
Proof. intros x k input change n p w st P N. unfold provision. rewrite P. destruct st; congruence. Qed.
Lemma unsupported_kinds : forall x k s change n p w, ~ supported k -> n <> 0 ->
  provision x k (Some s) change n (Some p) w = Answer w (match k with OtherKind => InvalidParameter | _ => NotSupported end).
Proof.
  intros x k s change n p w N Z. apply refused_early; [|destruct k; discriminate]. unfold preprocess. apply Z.eqb_neq in Z. rewrite Z.
  destruct k; try reflexivity; exfalso; apply N; unfold supported; auto.
Qed.

Lemma no_memory_crashes : exists x, x_session x = true /\ (forall n, x_client x n = true) /\
  provision x Widevine (Some toy) stays 32 (Some (params 624)) fresh = Bad.
Proof. exists (MkSurroundings true false true (fun _ => true) (fun _ => Some 1) (fun _ _ => Ok) (fun _ => [])). vm_compute. auto. Qed.
Lemma short_structure : exists s n, 0 < n <= s_there s /\ provision quiet Netflix (Some s) stays n (Some (params 624)) fresh = Bad.
Proof. exists (MkStructure 0 good good good 32), 32. vm_compute. split; [split; [reflexivity|discriminate]|reflexivity]. Qed.
Lemma long_parameters : exists p, told p = Some (zlen p) /\ provision quiet Widevine (Some toy) stays 32 (Some p) fresh = Bad.
Proof. exists (params 640). vm_compute. auto. Qed.
Lemma wrong_model : exists s w, s_model s <> 0 /\ s_model s <> 1 /\ provision quiet PlayReady (Some s) stays 32 (Some (params 624)) fresh = Answer w Ok.
Proof. exists (MkStructure 9 good good good 32). eexists. split; [discriminate|]. split; [discriminate|]. vm_compute. reflexivity. Qed.
Lemma other_key_lost : exists x change w, (forall n, x_client x n = true) /\ handles_valid x /\
  provision x Netflix (Some toy) change 48 (Some (params 624)) fresh = Answer w NullParameter /\ w_lost w = true.
Proof.
  exists (MkSurroundings true true true (fun _ => true) (fun _ => Some 1) (fun _ _ => Ok) (fun n => match n with 2%nat => [Adds 1] | _ => [] end)),
    (fun s => MkStructure 0 (s_first s) (MkField 5 None) (s_third s) (s_there s)).
  eexists. split; [auto|]. split; [intros n; discriminate|]. split; [vm_compute; reflexivity|reflexivity].
Qed.
