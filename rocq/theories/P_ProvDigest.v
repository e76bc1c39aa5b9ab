(** Proofs: the provider's digests. *)
From Verif Require Import Base M_ProvDigest S_ProvDigest.

Section Proofs.
Variable hash : md -> bytes -> bytes.
Hypothesis Hhash : hash_sizes hash.

Definition good (h : list event) (c : nat) (d : dctx) : Prop :=
  made_for h c = Some (d_md d) /\
  (forall m, message h c = Some m -> d_evp d = Running (d_md d) m) /\
  (forall a m, d_evp d = Running a m -> a = d_md d) /\
  d_size d = (if copied h c then 0 else digest_length (d_md d)).
Definition inv (h : list event) (w : world) : Prop :=
  map fst (w_ctx w) = held h /\ NoDup (held h) /\ (forall c, List.In c (held h) -> (c < w_next w)%nat) /\
  (forall c d, get w c = Some d -> good h c d) /\
  w_blocks w = zlen (held h) /\ w_refs w = zlen (held h) /\ w_evps w = zlen (held h).

Lemma get_in w c d : get w c = Some d -> List.In c (map fst (w_ctx w)).
Proof.
  unfold get. destruct (find _ _) as [x|] eqn:F; [|discriminate]. intros _.
  apply find_some in F. destruct F as (F & E). apply Nat.eqb_eq in E. subst c. apply in_map. exact F.
Qed.
Lemma in_get w c : List.In c (map fst (w_ctx w)) -> exists d, get w c = Some d.
Proof.
  unfold get. intros I. apply in_map_iff in I. destruct I as (x & E & I).
  destruct (find _ _) as [y|] eqn:F; [eauto|]. pose proof (find_none _ _ F x I) as N. cbn in N. rewrite E, Nat.eqb_refl in N. discriminate.
Qed.
Lemma get_took w b r e c : get (took b r e w) c = get w c.
Proof. reflexivity. Qed.
Lemma get_put w c d c' : get (put w c d) c' = if Nat.eqb c' c then option_map (fun _ => d) (get w c) else get w c'.
Proof.
  unfold get, put. cbn [w_ctx]. induction (w_ctx w) as [|(k, x) l IH]; cbn [map find fst].
  - destruct (Nat.eqb c' c); reflexivity.
  - destruct (Nat.eqb k c) eqn:K; cbn [fst].
    + apply Nat.eqb_eq in K. subst k. destruct (Nat.eqb c c') eqn:E.
      * apply Nat.eqb_eq in E. subst c'. rewrite Nat.eqb_refl. reflexivity.
      * rewrite (Nat.eqb_sym c' c), E in *. exact IH.
    + destruct (Nat.eqb k c') eqn:E.
      * apply Nat.eqb_eq in E. subst c'. rewrite K. reflexivity.
      * exact IH.
Qed.
Lemma keys_put w c d : map fst (w_ctx (put w c d)) = map fst (w_ctx w).
Proof.
  unfold put. cbn [w_ctx]. rewrite map_map. apply map_ext_in. intros (k, x) _. cbn [fst].
  destruct (Nat.eqb k c) eqn:K; [apply Nat.eqb_eq in K; subst; reflexivity|reflexivity].
Qed.
Lemma get_create w d c : get (create w d) c = if Nat.eqb (w_next w) c then Some d else get w c.
Proof. unfold get, create. cbn [w_ctx find fst]. destruct (Nat.eqb (w_next w) c); reflexivity. Qed.
Lemma keys_without c l : map fst (without c l) = filter (fun x => negb (Nat.eqb x c)) (map fst l).
Proof.
  unfold without. induction l as [|(k, x) l IH]; cbn [filter map fst]; [reflexivity|].
  destruct (negb (Nat.eqb k c)); cbn [map fst]; rewrite IH; reflexivity.
Qed.
Lemma get_without w c n b r e c' :
  get (MkWorld (without c (w_ctx w)) n b r e) c' = if Nat.eqb c' c then None else get w c'.
Proof.
  unfold get, without. cbn [w_ctx]. induction (w_ctx w) as [|(k, x) l IH]; cbn [filter find fst].
  - destruct (Nat.eqb c' c); reflexivity.
  - destruct (Nat.eqb k c) eqn:K; cbn [negb].
    + rewrite IH. destruct (Nat.eqb c' c) eqn:E; [reflexivity|]. apply Nat.eqb_eq in K. subst k.
      rewrite (Nat.eqb_sym c c'), E. reflexivity.
    + cbn [find fst]. destruct (Nat.eqb k c') eqn:E.
      * apply Nat.eqb_eq in E. subst c'. rewrite K. reflexivity.
      * exact IH.
Qed.

(** Without effect. *)
Lemma unchanged h w e : inv h w ->
  held (e :: h) = held h -> (forall c, made_for (e :: h) c = made_for h c) ->
  (forall c d m, get w c = Some d -> message (e :: h) c = Some m -> message h c = Some m) ->
  (forall c, copied (e :: h) c = copied h c) -> inv (e :: h) w.
Proof.
  intros (I1 & I2 & I3 & I4 & I5 & I6 & I7) E1 E2 E3 E4. unfold inv. rewrite E1. repeat (split; [assumption|]).
  split; [|auto]. intros c d G. destruct (I4 c d G) as (G1 & G2 & G3 & G4). unfold good. rewrite E2, E4. eauto 6.
Qed.
(** A context changes. *)
Lemma changed h w e c d d' : inv h w -> get w c = Some d -> d_md d' = d_md d -> d_size d' = d_size d ->
  held (e :: h) = held h -> (forall x, made_for (e :: h) x = made_for h x) ->
  (forall x m, x <> c -> message (e :: h) x = Some m -> message h x = Some m) ->
  (forall m, message (e :: h) c = Some m -> d_evp d' = Running (d_md d') m) -> (forall a m, d_evp d' = Running a m -> a = d_md d') ->
  (forall x, copied (e :: h) x = copied h x) -> inv (e :: h) (put w c d').
Proof.
  intros (I1 & I2 & I3 & I4 & I5 & I6 & I7) G M S E1 E2 E3 E4 E5 E6. unfold inv. rewrite E1, keys_put.
  cbn [w_next w_blocks w_refs w_evps put]. repeat (split; [assumption|]). split; [|auto].
  intros x y. rewrite get_put. destruct (Nat.eqb x c) eqn:X.
  - apply Nat.eqb_eq in X. subst x. rewrite G. cbn [option_map]. intros Y. injection Y as <-.
    destruct (I4 c d G) as (G1 & G2 & G3 & G4). unfold good. rewrite E2, E6, M, S in *. auto.
  - intros Y. destruct (I4 x y Y) as (G1 & G2 & G3 & G4). unfold good. rewrite E2, E6. apply Nat.eqb_neq in X. eauto 7.
Qed.
(** A context more. *)
Lemma created h w e d : inv h w -> held (e :: h) = w_next w :: held h ->
  (forall x, (x < w_next w)%nat -> made_for (e :: h) x = made_for h x /\ message (e :: h) x = message h x /\ copied (e :: h) x = copied h x) ->
  good (e :: h) (w_next w) d -> inv (e :: h) (create (took 1 1 1 w) d).
Proof.
  intros (I1 & I2 & I3 & I4 & I5 & I6 & I7) E1 E2 E3. unfold inv. rewrite E1. cbn [create took w_ctx w_next w_blocks w_refs w_evps map fst].
  rewrite I1. split; [reflexivity|]. split; [constructor; [|exact I2]; intros I; specialize (I3 _ I); lia|].
  split; [intros c [<-|I]; [lia|specialize (I3 _ I); lia]|].
  split; [|unfold zlen in *; cbn [length]; lia].
  intros c x. rewrite (get_create (took 1 1 1 w)). cbn [took w_next]. destruct (Nat.eqb (w_next w) c) eqn:C.
  - apply Nat.eqb_eq in C. subst c. intros Q. injection Q as <-. exact E3.
  - rewrite get_took. intros Q. assert (L : (c < w_next w)%nat) by (apply I3; rewrite <- I1; eapply get_in; eauto).
    destruct (E2 c L) as (F1 & F2 & F3). destruct (I4 c x Q) as (G1 & G2 & G3 & G4). unfold good. rewrite F1, F2, F3. auto.
Qed.

Lemma filter_one l c : NoDup l -> List.In c l -> (S (length (filter (fun x => negb (Nat.eqb x c)) l)) = length l)%nat.
Proof.
  induction l as [|x l IH]; intros N I; [destruct I|]. inversion N as [|? ? N1 N2]; subst. cbn [filter length].
  destruct (Nat.eqb x c) eqn:E; cbn [negb length].
  - apply Nat.eqb_eq in E. subst x. f_equal. clear IH N N2 I. induction l as [|y l IH]; [reflexivity|]. cbn [filter].
    destruct (Nat.eqb y c) eqn:Y; [apply Nat.eqb_eq in Y; subst; destruct N1; left; reflexivity|]. cbn [negb length]. f_equal.
    apply IH. intros Q. apply N1. right. exact Q.
  - f_equal. apply IH; [exact N2|]. destruct I as [->|I]; [rewrite Nat.eqb_refl in E; discriminate|exact I].
Qed.

Lemma held_misuse o h : held ((o, Misuse) :: h) = held h.
Proof. destruct o as [| | | | |[c|]]; reflexivity. Qed.

Lemma is_ctx_self c : is_ctx c (Some c) = true.
Proof. cbn. apply Nat.eqb_refl. Qed.
Lemma is_ctx_other c x : x <> c -> is_ctx x (Some c) = false.
Proof. intros N. cbn. apply Nat.eqb_neq. congruence. Qed.

Lemma took_back w b r e b' r' e' : b + b' = 0 -> r + r' = 0 -> e + e' = 0 -> took b' r' e' (took b r e w) = w.
Proof. intros. destruct w as [x1 x2 x3 x4 x5]. unfold took. cbn [w_ctx w_next w_blocks w_refs w_evps]. f_equal; lia. Qed.
Lemma took_took w b r e b' r' e' : took b' r' e' (took b r e w) = took (b + b') (r + r') (e + e') w.
Proof. destruct w as [x1 x2 x3 x4 x5]. unfold took. cbn [w_ctx w_next w_blocks w_refs w_evps]. f_equal; lia. Qed.
Lemma took_none w b r e : b = 0 -> r = 0 -> e = 0 -> took b r e w = w.
Proof. intros. destruct w as [x1 x2 x3 x4 x5]. unfold took. cbn [w_ctx w_next w_blocks w_refs w_evps]. f_equal; lia. Qed.

Lemma step_inv h w o : inv h w -> inv ((o, snd (step hash o w)) :: h) (fst (step hash o w)).
Proof.
  intros I. pose proof I as (I1 & I2 & I3 & I4 & I5 & I6 & I7).
  assert (U : forall a, held ((o, a) :: h) = held h -> (forall c, made_for ((o, a) :: h) c = made_for h c) ->
     (forall c d m, get w c = Some d -> message ((o, a) :: h) c = Some m -> message h c = Some m) ->
     (forall c, copied ((o, a) :: h) c = copied h c) -> inv ((o, a) :: h) w) by (intros; apply unchanged; auto).
  destruct o as [p a f|c f|c f|c data f|c out outl n f late|c]; cbn [step].
  - unfold newctx. destruct p; cbn [negb]; [|apply U; auto]. destruct (fails_at f 0); [apply U; auto|].
    rewrite !took_took. rewrite ?(took_none w (1 + -1)), ?(took_none w (1 + (0 + -1))), ?(took_none w (1 + 0 + -1)) by reflexivity.
    destruct (fails_at f 1); cbn [fst snd]; [apply U; auto|].
    destruct (fails_at f 2); cbn [fst snd]; [apply U; auto|].
    rewrite ?took_took. match goal with |- context [took ?b ?r ?e w] => change (took b r e w) with (took 1 1 1 w) end.
    cbn [took w_next]. apply created; [exact I|reflexivity| |].
    + intros x L. cbn [made_for message copied]. destruct (Nat.eqb (w_next w) x) eqn:X; [apply Nat.eqb_eq in X; lia|auto].
    + unfold good. cbn [made_for message copied d_md d_evp d_size]. rewrite Nat.eqb_refl. split; [reflexivity|]. split; [discriminate|].
      split; [discriminate|reflexivity].
  - unfold dupctx. destruct c as [c|]; [|apply U; auto]. destruct (get w c) as [d|] eqn:G; [|apply U; auto].
    destruct (fails_at f 0); [apply U; auto|]. unfold freed.
    rewrite !took_took. rewrite ?(took_none w (1 + -1)), ?(took_none w (1 + (0 + -1))), ?(took_none w (1 + 0 + -1)) by reflexivity.
    destruct (fails_at f 1); cbn [fst snd]; [apply U; auto|].
    destruct (fails_at f 2); cbn [fst snd]; [apply U; auto|].
    destruct (fails_at f 3); cbn [fst snd]; [apply U; auto|].
    rewrite ?took_took. match goal with |- context [took ?b ?r ?e w] => change (took b r e w) with (took 1 1 1 w) end.
    cbn [took w_next]. apply created; [exact I|reflexivity| |].
    + intros x L. cbn [made_for message copied]. destruct (Nat.eqb (w_next w) x) eqn:X; [apply Nat.eqb_eq in X; lia|auto].
    + destruct (I4 c d G) as (G1 & G2 & G3 & G4).
      unfold good. cbn [made_for message copied d_md d_evp d_size]. rewrite Nat.eqb_refl. auto.
  - unfold init. destruct c as [c|]; [|apply U; auto]. destruct (get w c) as [d|] eqn:G; [|apply U; auto].
    destruct (fails_at f 0); cbn [fst snd]; (eapply changed; [exact I|exact G|reflexivity|reflexivity|reflexivity|reflexivity| | | |reflexivity]);
      cbn [message d_evp d_md]; rewrite ?is_ctx_self.
    + intros x m N. rewrite (is_ctx_other c x N). auto.
    + discriminate.
    + discriminate.
    + intros x m N. rewrite (is_ctx_other c x N). auto.
    + intros m Q. injection Q as <-. reflexivity.
    + intros x m Q. injection Q as <- <-. reflexivity.
  - unfold update. destruct c as [c|]; [|apply U; auto]. destruct (get w c) as [d|] eqn:G; [|apply U; auto].
    destruct (I4 c d G) as (G1 & G2 & G3 & G4).
    destruct (fails_at f 0); cbn [fst snd].
    { eapply changed; [exact I|exact G|reflexivity|reflexivity|reflexivity|reflexivity| | | |reflexivity]; cbn [message d_evp d_md]; rewrite ?is_ctx_self.
      - intros x m N. rewrite (is_ctx_other c x N). auto.
      - discriminate.
      - discriminate. }
    assert (NM : forall m, message ((Update (Some c) data f, Return true) :: h) c = Some m ->
       exists m0, message h c = Some m0 /\ m = m0 ++ data).
    { intros m. cbn [message]. rewrite is_ctx_self. destruct (message h c) as [m0|]; [|discriminate]. intros Q. injection Q as <-. eauto. }
    assert (NR : (forall a m, d_evp d <> Running a m) -> inv ((Update (Some c) data f, Return true) :: h) w).
    { intros NR. apply U; [reflexivity|reflexivity| |reflexivity]. intros x y m Y Q. destruct (Nat.eq_dec x c) as [->|N].
      - destruct (NM m Q) as (m0 & M & _). destruct (NR _ _ (G2 m0 M)).
      - cbn [message] in Q. rewrite (is_ctx_other c x N) in Q. exact Q. }
    destruct (d_evp d) as [|a m|] eqn:E; cbn [fst snd]; [apply NR; discriminate| |apply NR; discriminate].
    eapply changed; [exact I|exact G|reflexivity|reflexivity|reflexivity|reflexivity| | | |reflexivity].
    + intros x y N. cbn [message]. rewrite (is_ctx_other c x N). auto.
    + intros y Q. destruct (NM y Q) as (m0 & M & ->). specialize (G2 m0 M). injection G2 as -> ->. reflexivity.
    + intros x y Q. cbn [d_evp d_md] in *. injection Q as <- <-. apply (G3 a m). reflexivity.
  - unfold final. destruct c as [c|]; [|apply U; auto]. destruct (get w c) as [d|] eqn:G.
    2: { apply U; [reflexivity|reflexivity| |reflexivity]. intros x y m Y Q. cbn [snd message] in Q. destruct (is_ctx x (Some c)); [discriminate|exact Q]. }
    destruct (I4 c d G) as (G1 & G2 & G3 & G4).
    assert (R : inv ((Final (Some c) out outl n f late, Return false) :: h) w).
    { apply U; [reflexivity|reflexivity| |reflexivity]. intros x y m Y Q. cbn [snd message] in Q.
      destruct (is_ctx x (Some c)); [|exact Q]. destruct (out && outl && (copied h x || fits_in (made_for h x) n)); [discriminate|exact Q]. }
    destruct out; cbn [negb]; [|exact R]. destruct outl; cbn [negb]; [|exact R].
    destruct (n <? d_size d) eqn:S; [exact R|].
    assert (F : forall a, (match a with Context _ | Misuse => False | _ => True end) ->
       inv ((Final (Some c) true true n f late, a) :: h) (put w c (MkDctx (d_md d) Finished (d_size d)))).
    { intros a A. eapply changed; [exact I|exact G|reflexivity|reflexivity|destruct a; reflexivity|destruct a; reflexivity| | | |destruct a; reflexivity].
      - intros x m N Q. destruct a; try (destruct A); cbn [message] in Q; rewrite (is_ctx_other c x N) in Q; exact Q.
      - intros m Q. exfalso. destruct a; try (destruct A); cbn [message] in Q; rewrite is_ctx_self in Q; try discriminate.
        rewrite G1 in Q. cbn [andb fits_in] in Q. change digest_size with digest_length in Q. destruct (copied h c); [discriminate|].
        assert (L : digest_length (d_md d) <=? n = true) by (apply Z.leb_le; apply Z.ltb_ge in S; lia). rewrite L in Q. discriminate.
      - discriminate. }
    destruct (fails_at f 0); cbn [fst snd]; [apply F; exact Logic.I|].
    assert (EE : forall b, match emit n b with Context _ | Misuse => False | _ => True end)
      by (intros b; unfold emit; destruct (n <? zlen b); exact Logic.I).
    destruct (d_evp d); cbn [fst snd]; [destruct late; cbn [fst snd]| |destruct late; cbn [fst snd]]; apply F; first [apply EE | exact Logic.I].
  - unfold freectx. destruct c as [c|]; [|apply U; auto]. destruct (get w c) as [d|] eqn:G; [|apply U; auto]. cbn [fst snd].
    unfold freed, took. cbn [w_ctx w_next w_blocks w_refs w_evps].
    assert (L : List.In c (held h)) by (rewrite <- I1; eapply get_in; eauto). pose proof (filter_one _ _ I2 L) as FO.
    unfold inv. cbn [held w_ctx w_next w_blocks w_refs w_evps]. rewrite keys_without, I1. split; [reflexivity|].
    split; [apply NoDup_filter; exact I2|]. split; [intros x Q; apply filter_In in Q; apply I3; tauto|].
    split; [|unfold zlen in *; lia]. intros x y. rewrite get_without. destruct (Nat.eqb x c); [discriminate|]. intros Y. exact (I4 x y Y).
Qed.

Lemma run_inv l : forall h w, inv h w -> inv (rev (fst (run hash l w)) ++ h) (snd (run hash l w)).
Proof.
  induction l as [|o l IH]; intros h w I; [exact I|]. cbn [run]. pose proof (step_inv h w o I) as J.
  destruct (step hash o w) as (w1, a) eqn:E. cbn [fst snd] in J. specialize (IH _ _ J).
  destruct (run hash l w1) as (hh, w2) eqn:R. cbn [fst snd rev] in *. rewrite <- app_assoc. exact IH.
Qed.
Lemma start_inv : inv [] start.
Proof. split; [reflexivity|]. split; [constructor|]. split; [intros c []|]. split; [discriminate|]. auto. Qed.
Lemma history_inv l : inv (history hash l) (after hash l).
Proof. pose proof (run_inv l [] start start_inv) as I. rewrite app_nil_r in I. exact I. Qed.

(** The next call. *)
Definition next (l : list op) (o : op) : answer := snd (step hash o (after hash l)).
Lemma run_app l1 : forall l2 w, run hash (l1 ++ l2) w =
  (fst (run hash l1 w) ++ fst (run hash l2 (snd (run hash l1 w))), snd (run hash l2 (snd (run hash l1 w)))).
Proof.
  induction l1 as [|o l1 IH]; intros l2 w; cbn [run app fst snd].
  - destruct (run hash l2 w); reflexivity.
  - destruct (step hash o w) as (w1, a). rewrite (IH l2 w1). destruct (run hash l1 w1) as (h1, w2). cbn [fst snd app]. reflexivity.
Qed.
Lemma history_next l o : history hash (l ++ [o]) = (o, next l o) :: history hash l.
Proof.
  unfold history, next, after. rewrite run_app. cbn [fst run].
  destruct (step hash o (snd (run hash l start))) as (w, a). cbn [fst snd]. rewrite rev_app_distr. reflexivity.
Qed.

Lemma final_value l c out outl n f late b k m a :
  history hash (l ++ [Final (Some c) out outl n f late]) = (Final (Some c) out outl n f late, Written b k) :: history hash l ->
  message (history hash l) c = Some m -> made_for (history hash l) c = Some a ->
  b = hash a m /\ k = digest_length a /\ k <= n.
Proof.
  rewrite history_next. intros E M A. injection E as E. unfold next in E. cbn [step] in E.
  pose proof (history_inv l) as (I1 & I2 & I3 & I4 & _).
  unfold final in E. destruct (get (after hash l) c) as [d|] eqn:G; [|discriminate]. destruct (I4 c d G) as (G1 & G2 & G3 & G4).
  destruct out; [|discriminate]. destruct outl; [|discriminate]. cbn [negb] in E. destruct (n <? d_size d); [discriminate|].
  destruct (fails_at f 0); [discriminate|]. rewrite (G2 m M) in E. cbn [snd] in E.
  assert (a = d_md d) by congruence. subst a. unfold emit in E. destruct (n <? zlen (hash (d_md d) m)) eqn:N; [discriminate|].
  injection E as <- <-. split; [reflexivity|]. rewrite Hhash in *. split; [reflexivity|]. apply Z.ltb_ge. exact N.
Qed.

Lemma exactly_length n b : 0 <= n -> zlen (exactly n b) = n.
Proof. intros N. unfold exactly, zlen. rewrite firstn_length, app_length, repeat_length. lia. Qed.
Lemma digest_length_pos a : 0 <= digest_length a.
Proof. destruct a; discriminate. Qed.

Lemma overrun_copies l o b : history hash (l ++ [o]) = (o, Overrun b) :: history hash l ->
  exists c n f late a, o = Final (Some c) true true n f late /\ copied (history hash l) c = true /\
    made_for (history hash l) c = Some a /\ n < digest_length a.
Proof.
  rewrite history_next. intros E. injection E as E. unfold next in E.
  pose proof (history_inv l) as (I1 & I2 & I3 & I4 & _).
  destruct o as [p a f|c f|c f|c data f|c out outl n f late|c]; cbn [step] in E.
  - unfold newctx in E. destruct p; [|discriminate]. destruct (fails_at f 0), (fails_at f 1), (fails_at f 2); discriminate.
  - unfold dupctx in E. destruct c as [c|]; [|discriminate]. destruct (get (after hash l) c); [|discriminate].
    destruct (fails_at f 0), (fails_at f 1), (fails_at f 2), (fails_at f 3); discriminate.
  - unfold init in E. destruct c as [c|]; [|discriminate]. destruct (get (after hash l) c); [|discriminate]. destruct (fails_at f 0); discriminate.
  - unfold update in E. destruct c as [c|]; [|discriminate]. destruct (get (after hash l) c) as [d|]; [|discriminate].
    destruct (fails_at f 0); [discriminate|]. destruct (d_evp d); discriminate.
  - unfold final in E. destruct c as [c|]; [|discriminate]. destruct (get (after hash l) c) as [d|] eqn:G; [|discriminate].
    destruct (I4 c d G) as (G1 & G2 & G3 & G4).
    destruct out; [|discriminate]. destruct outl; [|discriminate]. cbn [negb] in E. destruct (n <? d_size d) eqn:S; [discriminate|].
    destruct (fails_at f 0); [discriminate|].
    assert (L : n < digest_length (d_md d)).
    { destruct (d_evp d) as [|a m|] eqn:V; [destruct late as [x|]; [|discriminate]| |destruct late as [x|]; [|discriminate]]; cbn [snd] in E;
        unfold emit in E; match type of E with (if ?q then _ else _) = _ => destruct q eqn:N; [|discriminate] end; apply Z.ltb_lt in N.
      - rewrite exactly_length in N by apply digest_length_pos. exact N.
      - rewrite Hhash in N. rewrite <- (G3 a m eq_refl). exact N.
      - rewrite exactly_length in N by apply digest_length_pos. exact N. }
    exists c, n, f, late, (d_md d). split; [reflexivity|]. split; [|auto].
    destruct (copied (history hash l) c); [reflexivity|]. apply Z.ltb_ge in S. lia.
  - unfold freectx in E. destruct c as [c|]; [|discriminate]. destruct (get (after hash l) c); discriminate.
Qed.

(** A running context with room gives its digest unless the library fails. *)
Lemma final_given l c n late m a : message (history hash l) c = Some m -> made_for (history hash l) c = Some a ->
  List.In c (held (history hash l)) -> digest_length a <= n ->
  history hash (l ++ [Final (Some c) true true n None late]) =
    (Final (Some c) true true n None late, Written (hash a m) (digest_length a)) :: history hash l.
Proof.
  intros M A H N. rewrite history_next. f_equal. f_equal. unfold next. cbn [step].
  pose proof (history_inv l) as (I1 & I2 & I3 & I4 & _). unfold final.
  rewrite <- I1 in H. destruct (in_get _ _ H) as (d & G). rewrite G. destruct (I4 c d G) as (G1 & G2 & G3 & G4).
  assert (a = d_md d) by congruence. subst a. cbn [negb fails_at].
  assert (S : n <? d_size d = false).
  { apply Z.ltb_ge. rewrite G4. pose proof (digest_length_pos (d_md d)). destruct (copied (history hash l) c); lia. }
  rewrite S, (G2 m M). cbn [snd]. unfold emit. rewrite Hhash.
  assert (Q : n <? digest_length (d_md d) = false) by (apply Z.ltb_ge; exact N). change digest_size with digest_length in *; rewrite Q. reflexivity.
Qed.

Lemma accounts l : let k := zlen (held (history hash l)) in
  w_blocks (after hash l) = k /\ w_refs (after hash l) = k /\ w_evps (after hash l) = k.
Proof. pose proof (history_inv l) as (_ & _ & _ & _ & I5 & I6 & I7). auto. Qed.

Lemma misuse_only l o : history hash (l ++ [o]) = (o, Misuse) :: history hash l ->
  exists c, ~ List.In c (held (history hash l)) /\
    match o with New _ _ _ => False | Dup x _ | Init x _ | Update x _ _ | Final x _ _ _ _ _ | Free x => x = Some c end.
Proof.
  rewrite history_next. intros E. injection E as E. unfold next in E.
  pose proof (history_inv l) as (I1 & I2 & I3 & I4 & _).
  assert (N : forall c, get (after hash l) c = None -> ~ List.In c (held (history hash l))).
  { intros c G H. rewrite <- I1 in H. destruct (in_get _ _ H) as (d & Q). congruence. }
  destruct o as [p a f|c f|c f|c data f|c out outl n f late|c]; cbn [step] in E.
  - unfold newctx in E. destruct p; [|discriminate]. destruct (fails_at f 0), (fails_at f 1), (fails_at f 2); discriminate.
  - unfold dupctx in E. destruct c as [c|]; [|discriminate]. destruct (get (after hash l) c) eqn:G; [|eauto].
    destruct (fails_at f 0), (fails_at f 1), (fails_at f 2), (fails_at f 3); discriminate.
  - unfold init in E. destruct c as [c|]; [|discriminate]. destruct (get (after hash l) c) eqn:G; [|eauto]. destruct (fails_at f 0); discriminate.
  - unfold update in E. destruct c as [c|]; [|discriminate]. destruct (get (after hash l) c) as [d|] eqn:G; [|eauto].
    destruct (fails_at f 0); [discriminate|]. destruct (d_evp d); discriminate.
  - unfold final in E. destruct c as [c|]; [|discriminate]. destruct (get (after hash l) c) as [d|] eqn:G; [|eauto].
    destruct out; [|discriminate]. destruct outl; [|discriminate]. cbn [negb] in E. destruct (n <? d_size d); [discriminate|].
    destruct (fails_at f 0); [discriminate|].
    destruct (d_evp d); [destruct late as [x|]; [|discriminate]| |destruct late as [x|]; [|discriminate]]; cbn [snd] in E;
        unfold emit in E; match type of E with (if ?q then _ else _) = _ => destruct q; discriminate end.
  - unfold freectx in E. destruct c as [c|]; [|discriminate]. destruct (get (after hash l) c) eqn:G; [discriminate|eauto].
Qed.
End Proofs.

(** A toy digest. *)
Definition toy (a : md) (m : bytes) : bytes := exactly (digest_length a) (zlen m :: m).
Lemma toy_sizes : hash_sizes toy.
Proof. intros a m. apply exactly_length. apply digest_length_pos. Qed.

Lemma copy_overruns : exists hash l o b, hash_sizes hash /\ history hash (l ++ [o]) = (o, Overrun b) :: history hash l.
Proof.
  exists toy, [New true SHA256 None; Init (Some 0%nat) None; Update (Some 0%nat) [1; 2; 3] None; Dup (Some 0%nat) None],
    (Final (Some 1%nat) true true 20 None None), (toy SHA256 [1; 2; 3]). split; [exact toy_sizes|vm_compute; reflexivity].
Qed.
Lemma listed_wrong : exists (name : Type) (can_get can_set : name -> bool) names n,
  List.In n (settable_ctx_params name can_get can_set names) /\ set_ctx_param name can_get can_set n = false /\
  ~ List.In n (gettable_ctx_params name can_get can_set names) /\ get_ctx_param name can_get can_set n = true.
Proof. exists bool, (fun b => b), negb, [true; false], true. cbn. intuition discriminate. Qed.
