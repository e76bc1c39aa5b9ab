(** Proofs about public keys, key agreement, generation and decryption; examples. *)
From Verif Require Import Base M_Memory M_Rights M_Mac M_Unwrap S_Bytes S_Rights S_Unwrap P_Bytes P_Rights P_Mac P_Kdf P_Unwrap M_Asym S_Asym P_Asym.

(** ** Public keys *)
Definition asymmetric (k : stored_key) : Prop := k_type k = 1 \/ k_type k = 2 \/ k_type k = 3.
Definition public_of (L : alib) (k : stored_key) : list Z := a_public L (k_bytes k).
Lemma get_public_eq L k out answer : well_formed L k -> size_allowed (k_type k) (p_curve (k_params k)) (k_size k) ->
  key_get_public L k out answer =
    if k_type k =? 0 then Done INVALID_PARAMETER (held_in out) (zlen (held_in out))
    else if negb answer then Done INTERNAL_ERROR (held_in out) (zlen (held_in out))
    else size_needed out (zlen (public_of L k)) (fun buf =>
      Done OK (public_of L k ++ skipn (length (public_of L k)) buf) (zlen (public_of L k))).
Proof.
  intros W Z. unfold key_get_public, held_in, public_of. cbv zeta. change KT_EC with 1. change KT_DH with 3. change KT_RSA with 2.
  destruct (k_type k =? 0) eqn:T0.
  - apply Z.eqb_eq in T0. rewrite T0. reflexivity.
  - destruct (W ltac:(lia)) as (bits & P & _).
    assert (T : k_type k = 1 \/ k_type k = 3 \/ k_type k = 2) by (inversion Z; subst; lia).
    destruct T as [T|[T|T] ]; rewrite T in *; cbn [Z.eqb Pos.eqb].
    + rewrite (pkey_ec k T Z) in P. now rewrite P.
    + rewrite (pkey_dh k T) in P. now rewrite P.
    + rewrite (pkey_rsa k T) in P. now rewrite P.
Qed.
Lemma public_written L k buf buf' n answer : well_formed L k -> size_allowed (k_type k) (p_curve (k_params k)) (k_size k) ->
  let public := a_public L (k_bytes k) in
  (key_get_public L k (Some buf) answer = Done OK buf' n <->
   k_type k <> 0 /\ answer = true /\ zlen public <= zlen buf /\ buf' = public ++ skipn (length public) buf /\ n = zlen public).
Proof.
  intros W Z public. rewrite get_public_eq by assumption. destruct (k_type k =? 0) eqn:T.
  - split; [discriminate|]. intros (H & _). lia.
  - destruct answer; cbn [negb]; [|split; [discriminate|intros (_ & H & _); discriminate] ].
    unfold size_needed, public_of. fold public. destruct (zlen buf <? zlen public) eqn:B.
    + split; [discriminate|]. intros (_ & _ & H & _). lia.
    + split.
      * intros E. split; [lia|]. split; [reflexivity|]. split; [lia|]. split; congruence.
      * intros (_ & _ & _ & -> & ->). reflexivity.
Qed.
Lemma public_query L k n answer : well_formed L k -> size_allowed (k_type k) (p_curve (k_params k)) (k_size k) ->
  (exists buf, key_get_public L k None answer = Done OK buf n) <-> k_type k <> 0 /\ answer = true /\ n = zlen (a_public L (k_bytes k)).
Proof.
  intros W Z. rewrite get_public_eq by assumption. destruct (k_type k =? 0) eqn:T.
  - split; [intros [b E]; discriminate|]. intros (H & _). lia.
  - destruct answer; cbn [negb]; [|split; [intros [b E]; discriminate|intros (_ & H & _); discriminate] ].
    unfold size_needed, public_of. split.
    + intros [b E]. split; [lia|]. split; [reflexivity|]. congruence.
    + intros (_ & _ & ->). eexists. reflexivity.
Qed.
Lemma public_unchanged L k buf buf' st n answer : key_get_public L k (Some buf) answer = Done st buf' n -> st <> OK -> buf' = buf.
Proof.
  unfold key_get_public, size_needed. cbv zeta.
  repeat match goal with
    | |- context [if ?b then _ else _] => destruct b; cbn [negb]
    | |- context [match ?x with None => _ | Some _ => _ end] => destruct x
    end; intros E N; congruence.
Qed.

(** ** Agreement *)
Lemma symmetric_size c s : size_allowed 0 c s <-> 16 <= s <= 512.
Proof. split; [intros H; inversion H; subst; assumption|apply sz_symmetric]. Qed.
Lemma create_eq r parent t ps s b alloc k : (exists st, stored_key_create (Some r) parent t ps s (Some b) alloc = (st, Some k)) <->
  size_allowed t (p_curve ps) s /\ rights_validate_format r = true /\ alloc = true /\ k = MkKey (restrict_child_rights r parent) t ps s b.
Proof.
  unfold stored_key_create. rewrite <- supports_any_iff.
  destruct (key_type_supports_any t (p_curve ps) s); cbn [negb]; [|split; [intros [st E]; discriminate|intros (H & _); discriminate] ].
  destruct (rights_validate_format r); cbn [negb]; [|split; [intros [st E]; discriminate|intros (_ & H & _); discriminate] ].
  destruct alloc; cbn [negb]; [|split; [intros [st E]; discriminate|intros (_ & _ & H & _); discriminate] ].
  split; [intros [st E]; repeat split; congruence|]. intros (_ & _ & _ & ->). eexists. reflexivity.
Qed.
Lemma dh_iff k : key_type_supports_dh (k_type k) (k_size k) = true <-> k_type k = 3 /\ size_allowed 3 0 (k_size k).
Proof.
  unfold key_type_supports_dh, valid_dh_size. change KT_DH with 3. split.
  - intros H. split; [lia|]. apply sz_dh. lia.
  - intros [A B]. inversion B; subst. lia.
Qed.
Definition agreed (L : alib) (rights : rights) (k : stored_key) (other : list Z) (answer alloc : bool) (k' : stored_key) : Prop :=
  a_pub_type L other = Some (pkey_type k) /\ answer = true /\ alloc = true /\ rights_validate_format rights = true /\
  exists secret, a_derive L (k_bytes k) other = Some secret /\ 16 <= zlen secret <= 512 /\
    k' = MkKey (restrict_child_rights rights (Some (k_rights k))) 0 no_params (zlen secret) secret.
Lemma derive_agreed L rights k other answer alloc bits (fail : status -> status) k' : a_parse L (pkey_type k) (k_bytes k) = Some bits ->
  (match derive L (pkey_type k) (k_bytes k) other answer with
   | (_, Some secret) => match secret_key rights k secret alloc with (_, Some k') => Makes k' | (s, None) => Fails (fail s) end
   | (s, None) => Fails (fail s)
   end = Makes k' <-> agreed L rights k other answer alloc k').
Proof.
  intros P. unfold derive, agreed, secret_key. rewrite P.
  destruct (a_pub_type L other) as [t|]; [|split; [discriminate|intros (H & _); discriminate] ].
  destruct (pkey_type k =? t) eqn:T; cbn [negb];
    [apply Z.eqb_eq in T; subst t|split; [discriminate|intros (H & _); injection H as ->; lia] ].
  destruct answer; cbn [negb]; [|split; [discriminate|intros (_ & H & _); discriminate] ].
  destruct (a_derive L (k_bytes k) other) as [secret|];
    [|split; [discriminate|intros (_ & _ & _ & _ & s & H & _); discriminate] ].
  change KT_SYMMETRIC with 0.
  pose proof (create_eq rights (Some (k_rights k)) 0 no_params (zlen secret) secret alloc k') as C.
  rewrite symmetric_size in C.
  destruct (stored_key_create (Some rights) (Some (k_rights k)) 0 no_params (zlen secret) (Some secret) alloc) as [st [k0|]].
  - split.
    + intros E. destruct (proj1 C) as (A & B & D & F); [exists st; congruence|]. repeat (split; [first [assumption|reflexivity]|]).
      exists secret. repeat split; try assumption; lia.
    + intros (_ & _ & A & B & s & E & D & F). injection E as <-. destruct (proj2 C) as [st' X]; [tauto|]. congruence.
  - split; [discriminate|]. intros (_ & _ & A & B & s & E & D & F). injection E as <-. destruct (proj2 C) as [st' X]; [tauto|]. congruence.
Qed.
Lemma exchange_iff L dh rights k other now answer alloc k' : well_formed L k ->
  exchange L dh rights k other now answer alloc = Makes k' <-> may_exchange k now /\ agrees_with dh k /\ agreed L rights k other answer alloc k'.
Proof.
  intros W. unfold exchange. rewrite <- exchange_allowed_iff. destruct dh.
  - unfold exchange_dh, agrees_with. destruct (rights_allowed_exchange (k_rights k) now); cbn [negb]; [|split; [discriminate|intros (H & _); discriminate] ].
    rewrite <- dh_iff. destruct (key_type_supports_dh (k_type k) (k_size k)) eqn:T; cbn [negb]; [|split; [discriminate|intros (_ & H & _); discriminate] ].
    apply dh_iff in T. destruct T as [T Z]. destruct (W ltac:(lia)) as (bits & P & _).
    assert (E : forall X Y : Prop, (X <-> Y) -> (X <-> true = true /\ true = true /\ Y)) by tauto. apply E. clear E.
    rewrite <- (derive_agreed L rights k other answer alloc bits (fun _ => INVALID_PARAMETER) k' P).
    rewrite (pkey_dh k T) in *. rewrite P. unfold derive. rewrite P.
    destruct (a_pub_type L other) as [t|]; [|reflexivity]. destruct (PKEY_DH =? t); cbn [negb]; [|split; discriminate].
    reflexivity.
  - unfold exchange_ecdh, agrees_with. cbv zeta. destruct (rights_allowed_exchange (k_rights k) now); cbn [negb]; [|split; [discriminate|intros (H & _); discriminate] ].
    destruct (key_type_supports_ec (k_type k) (p_curve (k_params k)) (k_size k)) eqn:T; cbn [negb].
    2: { split; [discriminate|]. intros (_ & (H1 & H2 & _) & _). rewrite (proj2 (ec_iff k) (conj H1 H2)) in T. discriminate. }
    apply ec_iff in T. destruct T as [T Z]. destruct (W ltac:(lia)) as (bits & P & _).
    destruct ((p_curve (k_params k) =? 3) || (p_curve (k_params k) =? 5)) eqn:C.
    + split; [discriminate|]. intros (_ & (_ & _ & H3 & H5) & _). lia.
    + rewrite <- (pkey_ec k T Z). rewrite (derive_agreed L rights k other answer alloc bits (fun s => s) k' P).
      assert (p_curve (k_params k) <> 3 /\ p_curve (k_params k) <> 5) by lia. tauto.
Qed.
(** Two parties. *)
Lemma parties_agree L dh r1 r2 k1 k2 now1 now2 s1 : agreeing L -> well_formed L k1 -> well_formed L k2 ->
  pkey_type k1 = pkey_type k2 -> agrees_with dh k2 -> may_exchange k2 now2 -> rights_validate_format r2 = true ->
  exchange L dh r1 k1 (a_public L (k_bytes k2)) now1 true true = Makes s1 ->
  exists s2, exchange L dh r2 k2 (a_public L (k_bytes k1)) now2 true true = Makes s2 /\ k_bytes s2 = k_bytes s1 /\ k_size s2 = k_size s1 /\
    k_type s2 = 0 /\ k_type s1 = 0.
Proof.
  intros A W1 W2 T G2 M2 V E. apply exchange_iff in E; [|exact W1]. destruct E as (_ & G1 & (_ & _ & _ & _ & secret & D & Z & ->)).
  rewrite (ag_same L A) in D.
  exists (MkKey (restrict_child_rights r2 (Some (k_rights k2))) 0 no_params (zlen secret) secret).
  split; [|repeat split]. apply exchange_iff; [exact W2|]. split; [exact M2|]. split; [exact G2|].
  split; [|repeat split; try assumption; exists secret; repeat split; try assumption; lia].
  assert (N : k_type k1 <> 0) by (unfold agrees_with in G1; destruct dh; lia).
  destruct (W1 N) as (bits & P & _). rewrite (ag_type L A _ _ _ P). now rewrite T.
Qed.
Lemma pad_leaks L rights k other now answer alloc : well_formed L k -> may_exchange k now -> agrees_with true k ->
  a_pub_type L other = Some 28 -> exchange_dh L rights k other now false answer alloc = Leaks NULL_PARAMETER.
Proof.
  intros W M [T Z] P. unfold exchange_dh. rewrite (proj2 (exchange_allowed_iff k now) M), (proj2 (dh_iff k) (conj T Z)). cbn [negb].
  destruct (W ltac:(lia)) as (bits & Q & _). rewrite (pkey_dh k T) in Q. rewrite Q, P. reflexivity.
Qed.

(** ** Generation *)
Lemma ec_size_zero c : ec_key_size_from_curve c <> 0 -> In c [0; 1; 2; 3; 4; 5; 6; 7; 8].
Proof. unfold ec_key_size_from_curve. cbn [In]. repeat match goal with |- context [if ?b then _ else _] => destruct b eqn:?; [lia|] end. lia. Qed.
Definition generated (L : alib) (alg : galg) (rights : rights) (rand : Z -> option (list Z)) (coins : Z) (k : stored_key) : Prop :=
  exists t ps size bytes, wanted alg = Some (t, ps, size) /\ made_by L alg rand coins bytes /\ k = MkKey rights t ps size bytes /\
    size_allowed t (p_curve ps) size /\ rights_validate_format rights = true /\ generator_ok alg.
Lemma generate_iff L alg rights rand coins answer alloc k : generating L rand ->
  (key_generate L alg rights rand coins answer alloc = Makes k <->
   alloc = true /\ (answer = true \/ exists n, alg = GSymmetric (Some n)) /\ generated L alg rights rand coins k).
Proof.
  intros G. unfold key_generate, generated. cbv zeta.
  assert (C : forall t ps size bytes,
    match stored_key_create (Some rights) None t ps size (Some bytes) alloc with (_, Some k) => Makes k | (s, None) => Fails s end = Makes k <->
    size_allowed t (p_curve ps) size /\ rights_validate_format rights = true /\ alloc = true /\ k = MkKey rights t ps size bytes).
  { intros t ps size bytes. pose proof (create_eq rights None t ps size bytes alloc k) as C. cbn [restrict_child_rights] in C. rewrite <- C.
    destruct (stored_key_create (Some rights) None t ps size (Some bytes) alloc) as [st [k0|]].
    - split; [intros E; exists st; congruence|intros [st' E]; congruence].
    - split; [discriminate|intros [st' E]; discriminate]. }
  destruct alg as [[n|]|[c|]|[n|]|[[p g]|]|]; cbn [wanted made_by generator_ok];
    try (split; [discriminate|intros (_ & _ & t & ps & size & bytes & H & _); discriminate]).
  - destruct ((n <? 16) || (512 <? n)) eqn:Z.
    + split; [discriminate|]. intros (_ & _ & t & ps & size & bytes & H & _ & _ & S & _). injection H as <- <- <-.
      apply symmetric_size in S. lia.
    + destruct (rand n) as [l|] eqn:R.
      * change KT_SYMMETRIC with 0. rewrite C. split.
        { intros (S & V & A & E). split; [exact A|]. split; [right; now exists n|]. exists 0, no_params, n, l. tauto. }
        { intros (A & _ & t & ps & size & bytes & H & M & E & S & V & _). injection H as <- <- <-. injection M as <-. tauto. }
      * split; [discriminate|]. intros (_ & _ & t & ps & size & bytes & _ & H & _). discriminate.
  - destruct (ec_key_size_from_curve c =? 0) eqn:Z.
    + split; [discriminate|]. intros (_ & _ & t & ps & size & bytes & H & _ & _ & S & _). injection H as <- <- <-.
      apply Z.eqb_eq in Z. rewrite Z in S. exfalso. eapply not_allowed_0; [|exact S]. lia.
    + destruct answer; cbn [negb]; [|split; [discriminate|intros (_ & [H|[n H] ] & _); discriminate] ].
      destruct (a_ec_gen L c coins) as [l|].
      * change KT_EC with 1. rewrite C. split.
        { intros (S & V & A & E). split; [exact A|]. split; [now left|]. exists 1, (MkParams c ([], [])), (ec_key_size_from_curve c), l. tauto. }
        { intros (A & _ & t & ps & size & bytes & H & M & E & S & V & _). injection H as <- <- <-. injection M as <-. tauto. }
      * split; [discriminate|]. intros (_ & _ & t & ps & size & bytes & _ & H & _). discriminate.
  - assert (Sane : size_allowed 2 0 n -> int_of n * 8 = 8 * n /\ 128 <= n <= 512).
    { intros S. assert (128 <= n <= 512) by (inversion S; subst; cbn [In] in *; lia). rewrite int_of_small by lia. lia. }
    destruct ((2 ^ 31 <=? int_of n * 8) || (int_of n * 8 <? - 2 ^ 31)) eqn:O.
    + split; [discriminate|]. intros (_ & _ & t & ps & size & bytes & H & _ & _ & S & _). injection H as <- <- <-.
      destruct (Sane S) as [E B]. rewrite E in O. lia.
    + destruct answer; cbn [negb]; [|split; [discriminate|intros (_ & [H|[m H] ] & _); discriminate] ].
      change KT_RSA with 2.
      destruct (a_rsa_gen L (int_of n * 8) coins) as [l|] eqn:R.
      * rewrite C. cbn [no_params p_curve] in *. split.
        { intros (S & V & A & E). destruct (Sane S) as [B _]. rewrite B in R. split; [exact A|]. split; [now left|]. exists 2, no_params, n, l. tauto. }
        { intros (A & _ & t & ps & size & bytes & H & M & E & S & V & _). injection H as <- <- <-. cbn [no_params p_curve] in S.
          destruct (Sane S) as [B _]. rewrite B in R. rewrite R in M. injection M as <-. tauto. }
      * split; [discriminate|]. intros (_ & _ & t & ps & size & bytes & H & M & _ & S & _). injection H as <- <- <-. cbn [no_params p_curve] in S.
        destruct (Sane S) as [B _]. rewrite B in R. congruence.
  - destruct p as [np|lp]; [split; [discriminate|intros (_ & _ & t & ps & size & bytes & H & _); discriminate]|].
    destruct g as [ng|lg]; [destruct (negb _); (split; [discriminate|intros (_ & _ & t & ps & size & bytes & H & _); discriminate])|].
    unfold key_type_supports_dh, valid_dh_size. change (KT_DH =? KT_DH) with true. cbn [andb].
    destruct ((zlen lp <=? 512) && (0 <? zlen lp)) eqn:Z; cbn [negb].
    2: { split; [discriminate|]. intros (_ & _ & t & ps & size & bytes & H & _ & _ & S & _). injection H as <- <- <-. inversion S; subst. lia. }
    destruct ((zlen lg <? 1) || (zlen lp <? zlen lg)) eqn:Y.
    + split; [discriminate|]. intros (_ & _ & t & ps & size & bytes & H & _ & _ & _ & _ & B). cbv beta iota in B. lia.
    + destruct answer; cbn [negb]; [|split; [discriminate|intros (_ & [H|[m H] ] & _); discriminate] ].
      change KT_DH with 3. destruct (a_dh_gen L lp lg coins) as [l|].
      * rewrite C. split.
        { intros (S & V & A & E). split; [exact A|]. split; [now left|]. exists 3, (MkParams 0 (lp, lg)), (zlen lp), l.
          repeat (split; [first [assumption|reflexivity]|]). lia. }
        { intros (A & _ & t & ps & size & bytes & H & M & E & S & V & _). injection H as <- <- <-. injection M as <-. tauto. }
      * split; [discriminate|]. intros (_ & _ & t & ps & size & bytes & _ & H & _). discriminate.
Qed.
(** Generated keys are keys. *)
Lemma generated_well_formed L alg rights rand coins k : generating L rand -> generated L alg rights rand coins k ->
  well_formed L k /\ whole L k /\ (k_type k = 0 -> zlen (k_bytes k) = k_size k) /\ size_allowed (k_type k) (p_curve (k_params k)) (k_size k).
Proof.
  intros G (t & ps & size & bytes & H & M & -> & S & V & B). unfold well_formed, whole, pkey_type. cbn [k_type k_params k_size k_bytes].
  destruct alg as [[n|]|[c|]|[n|]|[[[|p] [|g]]|]|]; try discriminate H; cbn [wanted made_by] in *; injection H as <- <- <-; cbn [p_curve no_params] in *.
  - repeat split; try discriminate; try lia; [intros _; eapply gg_rand; eassumption|exact S].
  - split; [|split; [discriminate|split; [discriminate|exact S] ] ]. intros _. cbn [Z.eqb Pos.eqb].
    assert (I : In c [0; 1; 2; 3; 4; 5; 6; 7; 8]) by (apply ec_size_zero; intros E; rewrite E in S; eapply not_allowed_0; [|exact S]; lia).
    cbn [In] in I.
    assert (Ni : nist c -> exists bits, a_parse L 408 bytes = Some bits /\ (1 = 2 -> bits / 8 = ec_key_size_from_curve c) /\
      (1 = 1 -> nist c -> (bits + 7) / 8 = ec_key_size_from_curve c)).
    { intros N. destruct (gg_nist L rand G c coins bytes N M) as (bits & P & E). exists bits. repeat split; try assumption; try discriminate. intros _ _. exact E. }
    assert (Ed : forall t, In (c, t) [(3, 1087); (4, 1034); (5, 1088); (6, 1035)] -> exists bits, a_parse L t bytes = Some bits /\
      (1 = 2 -> bits / 8 = ec_key_size_from_curve c) /\ (1 = 1 -> nist c -> (bits + 7) / 8 = ec_key_size_from_curve c)).
    { intros t I'. destruct (gg_edwards L rand G c t coins bytes I' M) as (bits & P). exists bits. repeat split; try assumption; try discriminate.
      intros _ N. unfold nist in N. cbn [In] in N, I'. exfalso.
      destruct I' as [I'|[I'|[I'|[I'|[]]]]]; injection I' as <- <-; lia. }
    destruct I as [<- |[<- |[<- |[<- |[<- |[<- |[<- |[<- |[<- |[] ] ] ] ] ] ] ] ] ];
      first [apply Ni; unfold nist; cbn; tauto | apply Ed; cbn; tauto].
  - cbn [Z.eqb Pos.eqb]. pose proof (gg_rsa L rand G (8 * n) coins bytes M) as P.
    split; [intros _; exists (8 * n); repeat split; try assumption; try discriminate; intros _; rewrite Z.mul_comm; apply Z.div_mul; lia|].
    split; [intros _; exists (8 * n); split; [assumption|]; rewrite Z.mul_comm; apply Z.mod_mul; lia|]. split; [discriminate|exact S].
  - cbn [Z.eqb Pos.eqb]. destruct (gg_dh L rand G p g coins bytes M) as (bits & P).
    split; [intros _; exists bits; repeat split; try assumption; discriminate|]. repeat split; try discriminate. exact S.
Qed.
Lemma generate_makes L alg rights rand coins answer alloc k : generating L rand ->
  key_generate L alg rights rand coins answer alloc = Makes k ->
  generated L alg rights rand coins k /\ well_formed L k /\ whole L k /\ (k_type k = 0 -> zlen (k_bytes k) = k_size k).
Proof.
  intros G E. apply generate_iff in E; [|exact G]. destruct E as (_ & _ & E). split; [exact E|].
  pose proof (generated_well_formed L alg rights rand coins k G E). tauto.
Qed.
Lemma modulus_overflows L n rights rand coins answer alloc : 2 ^ 28 <= n < 2 ^ 32 - 2 ^ 28 ->
  key_generate L (GRsa (Some n)) rights rand coins answer alloc = Undefined.
Proof.
  intros H. unfold key_generate. cbv zeta.
  replace ((2 ^ 31 <=? int_of n * 8) || (int_of n * 8 <? - 2 ^ 31)) with true; [reflexivity|].
  unfold int_of. rewrite Z.mod_small by lia. cbn zeta. destruct (n <? 2 ^ 31) eqn:E; lia.
Qed.
Lemma modulus_defined L alg rights rand coins answer alloc : sane_modulus alg -> key_generate L alg rights rand coins answer alloc <> Undefined.
Proof.
  intros H. unfold key_generate. cbv zeta.
  destruct alg as [[n|]|[c|]|[n|]|[[p g]|]|]; cbn [sane_modulus] in H; try discriminate.
  3: { rewrite int_of_small by lia. replace ((2 ^ 31 <=? n * 8) || (n * 8 <? - 2 ^ 31)) with false by lia.
       destruct (negb answer); [discriminate|]. destruct (a_rsa_gen _ _ _); [|discriminate]. destruct (stored_key_create _ _ _ _ _ _ _) as [s [k|]]; discriminate. }
  all: repeat match goal with
    | |- context [let (_, _) := ?x in _] => destruct x
    | |- context [match ?x with _ => _ end] => destruct x
    end; discriminate.
Qed.

(** ** Decryption *)
Lemma clear_flag k : rights_allowed_clear (k_rights k) = true <-> has_flag (k_rights k) 12.
Proof. unfold rights_allowed_clear. rewrite <- (flag_bool _ 12) by lia. change F_SVP_OPTIONAL with 12. destruct (BIT_TEST _ _); cbn; intuition discriminate. Qed.
Lemma decrypt_iff k t now : t <> 0 -> rights_allowed_decrypt (k_rights k) t now None = true <-> has_flag (k_rights k) 4 /\ in_window (k_rights k) now.
Proof. intros N. destruct (ciphers_iff (k_rights k) t now None) as [_ H]. rewrite H. split; [tauto|]. intros [A B]. repeat split; try apply B; try assumption; contradiction. Qed.
Lemma decrypt_with_iff U alg k text msg : decryption_of U alg k text msg <->
  (match alg with DElgamal => is_pcurve (p_curve (k_params k)) = true | _ => True end) /\ decrypt_with U alg k text = Some msg.
Proof. destruct alg; cbn [decryption_of decrypt_with]; rewrite ?pcurve_iff; tauto. Qed.
Lemma decrypt_length U alg k text msg : good_ulib U -> decrypt_with U alg k text = Some msg -> zlen text = text_size alg k -> zlen msg <= k_size k.
Proof.
  intros G E Z. destruct G as (_ & _ & _ & _ & _ & _ & G1 & G2 & G3 & _). destruct alg; cbn [decrypt_with text_size] in *.
  - pose proof (G1 _ _ _ E). lia.
  - pose proof (G2 _ _ _ _ _ _ E). lia.
  - pose proof (G3 _ _ _ _ E). lia.
Qed.
Lemma positive_size alg k : decrypts_with alg k -> 0 < k_size k.
Proof.
  unfold decrypts_with. destruct alg; intros [_ H].
  - pose proof (rsa_size_bound k H). lia.
  - pose proof (rsa_size_bound k H). lia.
  - pose proof (ec_size_of _ _ H). lia.
Qed.
Lemma asymmetric_decrypts U alg k now buf inb n answer : good_ulib U -> honest U k -> decrypts_with alg k -> 0 <= n ->
  exists st buf' n', process_asymmetric U alg k now (Some buf) inb n answer = Some (Done st buf' n') /\
    (st <> OK -> buf' = buf /\ n' = n) /\
    (st = OK <-> may_decrypt_clear k now /\ k_size k <= zlen buf /\ n <= zlen inb /\ n = text_size alg k /\ answer = true /\
       exists msg, decryption_of U alg k (firstn (Z.to_nat n) inb) msg) /\
    (forall msg, st = OK -> decryption_of U alg k (firstn (Z.to_nat n) inb) msg -> buf' = msg ++ skipn (length msg) buf /\ n' = zlen msg).
Proof.
  intros G H D Pn. unfold process_asymmetric. cbv zeta. pose proof (positive_size alg k D) as Pos. unfold may_decrypt_clear.
  setoid_rewrite <- clear_flag. destruct (rights_allowed_clear (k_rights k)); cbn [negb];
    [|exists OPERATION_NOT_ALLOWED, buf, n; split; [reflexivity|]; split; [tauto|]; split; [split; [discriminate|intros ((_ & X & _) & _); discriminate]|discriminate] ].
  destruct (zlen buf <? k_size k) eqn:B;
    [exists INVALID_PARAMETER, buf, n; split; [reflexivity|]; split; [tauto|]; split; [split; [discriminate|intros (_ & X & _); lia]|discriminate] |].
  destruct (zlen inb <? n) eqn:I;
    [exists INVALID_PARAMETER, buf, n; split; [reflexivity|]; split; [tauto|]; split; [split; [discriminate|intros (_ & _ & X & _); lia]|discriminate] |].
  replace (k_size k =? 0) with false by lia.
  set (el := match alg with DElgamal => true | _ => false end).
  assert (Sz : (if el then k_size k * 4 else k_size k) = text_size alg k) by (unfold el; destruct alg; cbn [text_size]; lia). rewrite Sz.
  destruct (n =? text_size alg k) eqn:N; cbn [negb];
    [|exists INVALID_PARAMETER, buf, n; split; [reflexivity|]; split; [tauto|]; split; [split; [discriminate|intros (_ & _ & _ & X & _); lia]|discriminate] ].
  apply Z.eqb_eq in N.
  assert (Dec : rights_allowed_decrypt (k_rights k) (if el then KT_EC else KT_RSA) now None = true <-> has_flag (k_rights k) 4 /\ in_window (k_rights k) now)
    by (apply decrypt_iff; destruct el; discriminate).
  destruct (rights_allowed_decrypt _ _ now None); cbn [negb];
    [|exists OPERATION_NOT_ALLOWED, buf, n; split; [reflexivity|]; split; [tauto|]; split; [split; [discriminate|intros ((X & _ & Y) & _); assert (false = true) by tauto; discriminate]|discriminate] ].
  destruct answer; cbn [negb];
    [|exists (if el then VERIFICATION_FAILED else INTERNAL_ERROR), buf, n; split; [reflexivity|]; split; [tauto|];
      split; [split; [destruct el; discriminate|intros (_ & _ & _ & _ & X & _); discriminate]|destruct el; discriminate] ].
  assert (Rs : negb el && negb (u_rsa_size U (k_bytes k) =? k_size k) = false).
  { unfold el. destruct alg; cbn [negb andb]; try reflexivity; rewrite (proj2 H) by apply D; rewrite Z.eqb_refl; reflexivity. }
  rewrite Rs. pose proof (decrypt_with_iff U alg k (firstn (Z.to_nat n) inb)) as W.
  destruct (el && negb (is_pcurve (p_curve (k_params k)))) eqn:C.
  { exists VERIFICATION_FAILED, buf, n. split; [reflexivity|]. split; [tauto|]. split; [|discriminate]. split; [discriminate|].
    intros (_ & _ & _ & _ & _ & msg & X). apply W in X. unfold el in C. destruct alg; try discriminate C. destruct X as [X _]. rewrite X in C. discriminate. }
  assert (C' : match alg with DElgamal => is_pcurve (p_curve (k_params k)) = true | _ => True end)
    by (unfold el in C; destruct alg; try exact Logic.I; destruct (is_pcurve _); [reflexivity|discriminate C]).
  destruct (decrypt_with U alg k (firstn (Z.to_nat n) inb)) as [p|] eqn:E.
  - assert (Lp : zlen p <= zlen buf).
    { assert (zlen p <= k_size k); [|lia]. eapply decrypt_length; [exact G|exact E|]. unfold zlen in *. rewrite firstn_length. lia. }
    unfold put. replace (length p <=? length buf)%nat with true by (symmetry; apply Nat.leb_le; unfold zlen in Lp; lia).
    exists OK, (p ++ skipn (length p) buf), (zlen p). split; [reflexivity|]. split; [congruence|]. split.
    + split; [|reflexivity]. intros _. split; [tauto|]. split; [lia|]. split; [lia|]. split; [exact N|]. split; [reflexivity|]. exists p. apply W. split; [exact C'|reflexivity].
    + intros msg _ X. apply W in X. destruct X as [_ X]. injection X as ->. split; reflexivity.
  - exists VERIFICATION_FAILED, buf, n. split; [reflexivity|]. split; [tauto|]. split; [|discriminate]. split; [discriminate|].
    intros (_ & _ & _ & _ & _ & msg & X). apply W in X. destruct X as [_ X]. discriminate.
Qed.
Lemma asymmetric_query U alg k now inb n answer : process_asymmetric U alg k now None inb n answer = Some (Done OK [] (k_size k)).
Proof. reflexivity. Qed.

(** ** Examples *)
Definition toy_sum (l : list Z) : Z := fold_right Z.add 0 l.
Definition toy_sign (s : scheme) (key msg : list Z) : option (list Z) :=
  match key with
  | [t; bits; x] =>
      let make n := Some (firstn n (map (fun b => (b + x) mod 256) msg ++ repeat (x mod 256) n)) in
      match s with
      | Ed => make (if t =? 1087 then 64%nat else 114%nat)
      | Pkcs1 d => if zlen msg =? digest_length d then make (Z.to_nat ((bits + 7) / 8)) else None
      | Pss d m salt => if zlen msg =? digest_length d then make (Z.to_nat ((bits + 7) / 8)) else None
      end
  | _ => None
  end.
Definition toy_ecdsa (d : Z) (key msg : list Z) : option (Z * Z) :=
  match key with [t; bits; x] => Some (x mod 2 ^ bits, (toy_sum msg + x) mod 2 ^ bits) | _ => None end.
Definition toy_private (public : list Z) : list Z := match public with [t; bits; y] => [t; bits; y - 1] | _ => [] end.
Definition toy_alib : alib := MkAlib
  (fun t key => match key with [t'; bits; _] => if (t =? t') && (0 <? bits) then Some bits else None | _ => None end)
  (fun key => match key with [t; bits; x] => [t; bits; x + 1] | _ => [] end)
  (fun d l => repeat (toy_sum l mod 256) (Z.to_nat (digest_length d)))
  (fun s key msg _ => toy_sign s key msg)
  (fun s public msg sig => match toy_sign s (toy_private public) msg with Some l => if list_eq_dec Z.eq_dec l sig then true else false | None => false end)
  (fun d key msg _ => toy_ecdsa d key msg)
  (fun d public msg rs => match toy_ecdsa d (toy_private public) msg with Some (r, s) => (r =? fst rs) && (s =? snd rs) | None => false end)
  (fun public => match public with [t; _; _] => Some t | _ => None end)
  (fun key other => match key, other with
     | [t; bits; x], [t'; bits'; y] => if (t =? t') && (bits =? bits') then Some (repeat (x * (y - 1) mod 256) (Z.to_nat ((bits + 7) / 8))) else None
     | _, _ => None end)
  (fun bits coins => if 0 <? bits then Some [6; bits; coins] else None)
  (fun c coins => Some [ec_get_type c; 8 * ec_key_size_from_curve c; coins])
  (fun p g coins => match p with [] => None | _ => Some [28; 8 * zlen p; coins] end).
Lemma toy_parse t key bits : a_parse toy_alib t key = Some bits -> exists x, key = [t; bits; x] /\ 0 < bits.
Proof.
  cbn [toy_alib a_parse]. destruct key as [|t' [|b [|x [|]]]]; try discriminate. destruct ((t =? t') && (0 <? b)) eqn:E; [|discriminate].
  intros H. injection H as <-. exists x. replace t' with t by lia. split; [reflexivity|lia].
Qed.
Lemma make_length n (l : list Z) x : length (firstn n (l ++ repeat x n)) = n.
Proof. rewrite firstn_length, app_length, repeat_length. lia. Qed.
Lemma toy_private_public key t bits x : key = [t; bits; x] -> toy_private (a_public toy_alib key) = key.
Proof. intros ->. cbn. do 3 f_equal. lia. Qed.
Lemma toy_good : good_alib toy_alib.
Proof.
  constructor.
  - intros s key msg coins sig H. cbn [toy_alib a_sign a_verify] in *.
    assert (X : exists t b x, key = [t; b; x]) by (destruct key as [|t [|b [|x [|]]]]; try discriminate H; now exists t, b, x).
    destruct X as (t & b & x & X). rewrite (toy_private_public key t b x X), H. destruct (list_eq_dec Z.eq_dec sig sig); congruence.
  - intros d key msg coins r s H. cbn [toy_alib a_ecdsa a_ecdsa_verify] in *.
    assert (X : exists t b x, key = [t; b; x]) by (destruct key as [|t [|b [|x [|]]]]; try discriminate H; now exists t, b, x).
    destruct X as (t & b & x & X). rewrite (toy_private_public key t b x X), H. cbn [fst snd]. now rewrite !Z.eqb_refl.
  - intros t key bits H. now destruct (toy_parse t key bits H) as (x & _ & P).
  - intros s key msg coins sig bits H N E. destruct (toy_parse 6 key bits H) as (x & -> & P). cbn [toy_alib a_sign toy_sign] in E. cbv zeta in E.
    assert (Q : 0 <= (bits + 7) / 8) by (apply Z.div_pos; lia).
    destruct s as [d|d m salt|]; [| |contradiction];
      (destruct (zlen msg =? digest_length d); [|discriminate]; injection E as <-; unfold zlen; rewrite make_length; lia).
  - intros key msg coins bits H. destruct (toy_parse 1087 key bits H) as (x & -> & P). eexists. split; [reflexivity|]. unfold zlen. cbv zeta beta. now rewrite make_length.
  - intros key msg coins bits H. destruct (toy_parse 1088 key bits H) as (x & -> & P). eexists. split; [reflexivity|]. unfold zlen. cbv zeta beta. now rewrite make_length.
  - intros d key msg coins bits H. destruct (toy_parse 408 key bits H) as (x & -> & P). do 2 eexists. split; [reflexivity|].
    split; apply Z.mod_pos_bound, Z.pow_pos_nonneg; lia.
  - intros d key msg coins bits H M. destruct (toy_parse 6 key bits H) as (x & -> & P). cbn [toy_alib a_sign toy_sign]. cbv zeta.
    destruct (zlen msg =? digest_length d) eqn:E; split; intros; try lia; try discriminate; congruence.
  - intros d m salt key msg coins bits H M S. destruct (toy_parse 6 key bits H) as (x & -> & P). cbn [toy_alib a_sign toy_sign]. cbv zeta.
    destruct (zlen msg =? digest_length d) eqn:E; split; intros; try lia; try discriminate; congruence.
  - intros d l H. cbn [toy_alib a_digest]. unfold zlen. rewrite repeat_length. pose proof (digest_bound d H). lia.
Qed.
Lemma toy_agreeing : agreeing toy_alib.
Proof.
  constructor.
  - intros t key bits H. destruct (toy_parse t key bits H) as (x & -> & P). reflexivity.
  - intros k1 k2. cbn [toy_alib a_derive a_public].
    destruct k1 as [|t [|b [|x [|]]]]; destruct k2 as [|t' [|b' [|x' [|]]]]; try reflexivity.
    rewrite (Z.eqb_sym t' t), (Z.eqb_sym b' b). destruct ((t =? t') && (b =? b')) eqn:E; [|reflexivity].
    replace b' with b by lia. do 2 f_equal. f_equal. lia.
Qed.
Definition toy_rand (n : Z) : option (list Z) := if n <? 0 then None else Some (repeat 5 (Z.to_nat n)).
Lemma toy_generating : generating toy_alib toy_rand.
Proof.
  constructor.
  - intros bits coins key H. cbn [toy_alib a_rsa_gen a_parse] in *. destruct (0 <? bits) eqn:E; [|discriminate]. injection H as <-. now rewrite E.
  - intros c coins key N H. cbn [toy_alib a_ec_gen] in H. injection H as <-. exists (8 * ec_key_size_from_curve c).
    unfold nist in N. cbn [In] in N. destruct N as [<- |[<- |[<- |[<- |[<- |[] ] ] ] ] ]; split; reflexivity.
  - intros c t coins key N H. cbn [toy_alib a_ec_gen] in H. injection H as <-. exists (8 * ec_key_size_from_curve c).
    cbn [In] in N. destruct N as [N|[N|[N|[N|[] ] ] ] ]; injection N as <- <-; reflexivity.
  - intros p g coins key H. cbn [toy_alib a_dh_gen] in H. destruct p as [|b p]; [discriminate|]. exists (8 * zlen (b :: p)).
    assert (E : key = [28; 8 * zlen (b :: p); coins]) by congruence. rewrite E. cbn [toy_alib a_parse].
    replace ((28 =? 28) && (0 <? 8 * zlen (b :: p))) with true by (symmetry; unfold zlen; cbn [length]; lia). reflexivity.
  - intros n l H. unfold toy_rand in H. destruct (n <? 0) eqn:E; [discriminate|]. injection H as <-. unfold zlen. rewrite repeat_length. lia.
Qed.
Definition toy_pair (t c size bits x : Z) : stored_key :=
  MkKey plain_rights t (MkParams c ([], [])) size [if t =? 2 then 6 else if t =? 3 then 28 else ec_get_type c; bits; x].
Lemma toy_pair_ok t c size bits x : In t [1; 2; 3] -> In c [0; 1; 2; 3; 4; 5; 6; 7; 8] -> 0 < bits ->
  (t = 2 -> bits / 8 = size) -> (t = 1 -> (bits + 7) / 8 = size) -> well_formed toy_alib (toy_pair t c size bits x).
Proof.
  intros Ht Hc B H2 H1 _. exists bits. cbn [toy_pair k_type k_params k_size k_bytes p_curve]. split; [|split; [exact H2|intros E _; now apply H1] ].
  unfold pkey_type. cbn [k_type k_params p_curve toy_alib a_parse].
  match goal with |- (if (?a =? ?b) && _ then _ else _) = _ => replace (a =? b) with true; [now replace (0 <? bits) with true by lia|symmetry; apply Z.eqb_eq] end.
  cbn [In] in Ht, Hc. destruct Ht as [<- |[<- |[<- |[] ] ] ]; try reflexivity.
  destruct Hc as [<- |[<- |[<- |[<- |[<- |[<- |[<- |[<- |[<- |[] ] ] ] ] ] ] ] ] ]; reflexivity.
Qed.
