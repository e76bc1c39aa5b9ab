(** Proofs about JSON documents. *)
From Verif Require Import Base M_Json S_Json.

Section Induction.
Variable P : json -> Prop.
Hypothesis Hnull : P JNull.
Hypothesis Hbool : forall b, P (JBool b).
Hypothesis Hdouble : forall d, P (JDouble d).
Hypothesis Hint : forall z, P (JInt z).
Hypothesis Hstring : forall l, P (JString l).
Hypothesis Harray : forall l, Forall P l -> P (JArray l).
Hypothesis Hobject : forall fs, Forall (fun f => P (snd f)) fs -> P (JObject fs).
Fixpoint json_induction (j : json) : P j :=
  match j with
  | JNull => Hnull | JBool b => Hbool b | JDouble d => Hdouble d | JInt z => Hint z | JString l => Hstring l
  | JArray l => Harray l ((fix go l : Forall P l := match l with [] => Forall_nil _ | x :: r => Forall_cons x (json_induction x) (go r) end) l)
  | JObject fs => Hobject fs ((fix go l : Forall (fun f => P (snd f)) l := match l with [] => Forall_nil _ | x :: r => Forall_cons x (json_induction (snd x)) (go r) end) fs)
  end.
End Induction.

(** The callbacks when every allocation succeeds. *)
Definition yes : nat -> bool := fun _ => true.
Fixpoint run (c : context) (es : list event) : option context :=
  match es with [] => Some c | e :: rest => match callback c e yes with None => None | Some c => run c rest end end.

Lemma callback_yes c e a : (forall i, a i = true) -> callback c e a = callback c e yes.
Proof. intros H. unfold callback, yes. destruct e; cbn; rewrite ?H; try reflexivity. Qed.
Lemma callbacks_run es : forall c, Forall (fun p : event * (nat -> bool) => forall i, snd p i = true) es ->
  callbacks c es = run c (List.map fst es).
Proof.
  induction es as [|[e a] rest IH]; intros c H; [reflexivity|]. cbn [callbacks List.map fst run].
  inversion H as [|x l Ha Hrest]; subst. rewrite (callback_yes c e a Ha).
  destruct (callback c e yes); [apply IH; exact Hrest|reflexivity].
Qed.
Lemma combine_fst {A B} (l : list A) : forall (r : list B), (List.length r = List.length l)%nat -> List.map fst (combine l r) = l.
Proof. induction l as [|x l IH]; intros [|y r] H; cbn in *; try discriminate; try reflexivity. f_equal. apply IH. congruence. Qed.

Lemma set_last_app es k n v w : set_last (es ++ [(k, n, v)]) w = es ++ [(k, n, w)].
Proof.
  induction es as [|[[a b] d] es IH]; [reflexivity|]. cbn [app set_last]. rewrite IH.
  destruct es; reflexivity.
Qed.

Lemma run_events j : forall c rest, run c (events j ++ rest) = if short_names j then run (set_value c (tree j) true) rest else None.
Proof.
  induction j as [|b|d|z|l|l IH|fs IH] using json_induction; intros c rest; try reflexivity.
  - cbn [events short_names tree app]. rewrite <- app_assoc. cbn [run callback yes andb].
    assert (G : forall items, run (MkContext (VArray items :: x_stack c) (x_root c)) (flat_map events l ++ [EEndArray] ++ rest) =
      if forallb short_names l then run (set_value c (Some (VArray (items ++ List.map tree l))) true) rest else None).
    { induction IH as [|x l Hx _ IHl]; intros items.
      - cbn [flat_map app forallb List.map]. rewrite app_nil_r. cbn [run callback]. unfold pop. cbn [x_stack x_root].
        replace (MkContext (x_stack c) (x_root c)) with c by now destruct c. reflexivity.
      - cbn [flat_map forallb List.map]. rewrite <- app_assoc, Hx. destruct (short_names x); [|reflexivity]. cbn [andb].
        unfold set_value at 1. cbn [x_stack x_root]. rewrite IHl. rewrite <- app_assoc. reflexivity. }
    exact (G []).
  - cbn [events short_names tree app]. rewrite <- app_assoc. cbn [run callback yes andb].
    set (step_ := fun f : list Z * json => EKey (fst f) :: events (snd f)).
    set (ent := fun f : list Z * json => (Some (fst f), zlen (fst f), tree (snd f))).
    assert (G : forall es, run (MkContext (VMap None es :: x_stack c) (x_root c)) (flat_map step_ fs ++ [EEndMap] ++ rest) =
      if forallb (fun f => (zlen (fst f) <=? 255) && short_names (snd f)) fs
      then run (set_value c (Some (VMap None (es ++ List.map ent fs))) true) rest else None).
    { induction IH as [|[k x] fs Hx _ IHl]; intros es.
      - cbn [flat_map app forallb List.map]. rewrite app_nil_r. cbn [run callback]. unfold pop. cbn [x_stack x_root].
        replace (MkContext (x_stack c) (x_root c)) with c by now destruct c. reflexivity.
      - cbn [flat_map forallb List.map]. unfold step_ at 1, ent at 1. cbn [fst snd] in *.
        rewrite <- app_assoc. cbn [app run callback x_stack yes negb]. unfold MAX_KEY_LENGTH.
        replace (255 <? zlen k) with (negb (zlen k <=? 255)) by (destruct (Z.leb_spec (zlen k) 255), (Z.ltb_spec 255 (zlen k)); (reflexivity || lia)).
        destruct (zlen k <=? 255); [|reflexivity]. cbn [negb andb x_root]. rewrite Hx.
        destruct (short_names x); [|reflexivity].
        unfold set_value at 1. cbn [x_stack x_root]. unfold map_set.
        destruct (es ++ [(Some k, zlen k, None)]) as [|y ys] eqn:E; [destruct es; discriminate|]. rewrite <- E, set_last_app, IHl.
        rewrite <- app_assoc. reflexivity. }
    exact (G []).
Qed.

Lemma parse_tree yajl l j allocs : yajl l = Some (events j) -> memory_granted allocs ->
  parse yajl l true allocs = if short_names j then tree j else None.
Proof.
  intros Hy Ha. unfold parse. cbn [negb]. rewrite Hy, callbacks_run, combine_fst.
  - rewrite <- (app_nil_r (events j)), run_events. destruct (short_names j); reflexivity.
  - now rewrite map_length, seq_length.
  - apply Forall_forall. intros [e a] Hin i. cbn. apply in_combine_r in Hin. apply in_map_iff in Hin.
    destruct Hin as (n & <- & _). apply Ha.
Qed.

(** Lookup. *)
Definition entries_of (fs : list (list Z * json)) := List.map (fun f : list Z * json => (Some (fst f), zlen (fst f), tree (snd f))) fs.
Lemma find_first fs name : (exists j, first_field fs name j /\ find_field name (entries_of fs) = Found (tree j)) \/
  (no_field fs name /\ find_field name (entries_of fs) = FoundNone).
Proof.
  induction fs as [|[k x] fs IH].
  - right. split; [intros []|reflexivity].
  - unfold entries_of. cbn [List.map find_field fst snd]. fold (entries_of fs).
    destruct (list_eq_dec Z.eq_dec k name) as [->|Hne].
    + left. exists x. rewrite Z.eqb_refl. cbn [negb]. split; [|reflexivity]. exists [], fs. split; [reflexivity|intros []].
    + assert (G : (if negb (zlen k =? zlen name) then find_field name (entries_of fs) else find_field name (entries_of fs)) = find_field name (entries_of fs)) by now destruct (negb _).
      rewrite G. destruct IH as [(j & (b & a & -> & Hb) & ->)|[Hn ->]].
      * left. exists j. split; [|reflexivity]. exists ((k, x) :: b), a. split; [reflexivity|]. intros [H|H]; [exact (Hne H)|exact (Hb H)].
      * right. split; [|reflexivity]. intros [H|H]; [exact (Hne H)|exact (Hn H)].
Qed.
Lemma first_one fs name : forall a b, first_field fs name a -> first_field fs name b -> a = b.
Proof.
  intros a b (b1 & a1 & E1 & N1) (b2 & a2 & E2 & N2). revert fs b2 E1 E2 N1 N2.
  induction b1 as [|[k x] b1 IH]; intros fs [|[k2 x2] b2] -> E2 N1 N2; cbn [app] in E2; injection E2; intros; subst.
  - reflexivity.
  - exfalso. apply N2. now left.
  - exfalso. apply N1. now left.
  - eapply (IH _ b2 eq_refl); [congruence| |]; intros H'; [apply N1|apply N2]; now right.
Qed.
Lemma not_both fs name j : first_field fs name j -> no_field fs name -> False.
Proof. intros (b & a & -> & _) H. apply H. rewrite map_app. apply in_or_app. right. now left. Qed.
Lemma find_iff fs name j : first_field fs name j -> find_field name (entries_of fs) = Found (tree j).
Proof.
  intros H. destruct (find_first fs name) as [(j' & H' & E)|[H' _]].
  - now rewrite (first_one _ _ _ _ H H').
  - destruct (not_both _ _ _ H H').
Qed.
Lemma find_none_iff fs name : no_field fs name -> find_field name (entries_of fs) = FoundNone.
Proof.
  intros H. destruct (find_first fs name) as [(j' & H' & E)|[_ E]]; [destruct (not_both _ _ _ H' H)|exact E].
Qed.

Lemma tree_string j l : as_string (tree j) = Some l <-> j = JString l.
Proof. destruct j; cbn; split; intros H; try discriminate; injection H as ->; reflexivity. Qed.

(** Releasing a long array. *)
Lemma map_rep {A B} (f : A -> B) x n : List.map f (repeat x n) = repeat (f x) n.
Proof. induction n; cbn; congruence. Qed.
Lemma flat_depth n : match tree (flat_array n) with Some v => (n < free_depth v)%nat | None => False end.
Proof.
  unfold flat_array. cbn [tree]. rewrite map_rep. cbn [tree]. cbn [free_depth].
  match goal with |- (_ < S (S (?f _)))%nat => set (it := f) end.
  assert (G : (n < it (repeat (Some (VInt 0)) n))%nat).
  { induction n as [|n IH]; [cbn; lia|]. change (it (repeat (Some (VInt 0)) (S n))) with (S (Nat.max 1 (it (repeat (Some (VInt 0)) n)))). lia. }
  lia.
Qed.

(** Without memory for the entry of an array the element is lost and nobody is told; without
    memory for the name of a field the field is there without a name. *)
Definition but (i k : nat) (i' k' : nat) : bool := negb ((i' =? i)%nat && (k' =? k)%nat).
Lemma element_lost : exists yajl l j allocs j', yajl l = Some (events j) /\ short_names j = true /\
  parse yajl l true allocs = tree j' /\ parse yajl l true allocs <> None /\ j' <> j.
Proof.
  exists (fun _ => Some (events (JArray [JInt 1; JInt 2]))), [], (JArray [JInt 1; JInt 2]), (but 1 2), (JArray [JInt 2]).
  split; [reflexivity|]. split; [reflexivity|]. split; [reflexivity|]. split; [vm_compute; discriminate|discriminate].
Qed.
Lemma name_lost : exists yajl l fs allocs before entries name, yajl l = Some (events (JObject fs)) /\
  parse yajl l true allocs = Some (VMap before entries) /\ first_field fs name (JInt 1) /\ find_field name entries = FoundWild.
Proof.
  exists (fun _ => Some (events (JObject [(txt "a", JInt 1)]))), [], [(txt "a", JInt 1)], (but 1 1), None.
  eexists. exists (txt "a"). split; [reflexivity|]. split; [vm_compute; reflexivity|]. split; [exists [], []; split; [reflexivity|intros []]|reflexivity].
Qed.
Lemma lookup_first fs name v : find_field name (entries_of fs) = Found v <-> exists j, first_field fs name j /\ v = tree j.
Proof.
  split.
  - intros H. destruct (find_first fs name) as [(j & F & E)|[_ E]]; rewrite E in H; [|discriminate]. injection H as <-. now exists j.
  - intros (j & F & ->). now apply find_iff.
Qed.
Lemma lookup_none fs name : find_field name (entries_of fs) = FoundNone <-> no_field fs name.
Proof.
  split; [|apply find_none_iff]. intros H. destruct (find_first fs name) as [(j & F & E)|[F _]]; [congruence|exact F].
Qed.
Lemma parse_object yajl l fs allocs : yajl l = Some (events (JObject fs)) -> memory_granted allocs -> short_names (JObject fs) = true ->
  exists entries, parse yajl l true allocs = Some (VMap None entries) /\
    (forall name v, find_field name entries = Found v <-> exists j, first_field fs name j /\ v = tree j) /\
    (forall name, find_field name entries = FoundNone <-> no_field fs name).
Proof.
  intros Y M S. exists (entries_of fs). split; [rewrite (parse_tree _ _ _ _ Y M), S; reflexivity|]. split; [intros; apply lookup_first|intros; apply lookup_none].
Qed.
Lemma deep_release : forall n, exists j v, (List.length (events j) = n + 2)%nat /\ tree j = Some v /\ (n < free_depth v)%nat.
Proof.
  intros n. exists (flat_array n). assert (D := flat_depth n). destruct (tree (flat_array n)) as [v|]; [|contradiction]. exists v. split; [|now split].
  unfold flat_array. cbn [events]. cbn [List.length]. rewrite app_length. cbn [List.length]. clear D. induction n as [|n IH]; [reflexivity|]. cbn [repeat flat_map]. rewrite app_length. cbn [events List.length]. lia.
Qed.
(** A document is determined by its tree and by its events. *)
Lemma tree_one a : forall b, tree a = tree b -> a = b.
Proof.
  induction a as [ | | | | |l IH|fs IH] using json_induction; intros j E; destruct j; cbn [tree] in E; try discriminate; try congruence.
  - f_equal. assert (M : List.map tree l = List.map tree l0) by congruence. clear E. revert l0 M.
    induction IH as [|x l H _ IHl]; intros [|y m] M; cbn in M; try discriminate; [reflexivity|].
    f_equal; [apply H|apply IHl]; congruence.
  - f_equal. match type of E with Some (VMap _ ?x) = Some (VMap _ ?y) => assert (M : x = y) by congruence end. clear E. revert fields M.
    induction IH as [|[n x] l H _ IHl]; intros [|[n' y] m] M; cbn in M; try discriminate; [reflexivity|]. cbn in H.
    f_equal; [f_equal; [congruence|apply H; congruence]|apply IHl; congruence].
Qed.
Lemma events_one a b : short_names b = true -> tree b <> None -> events a = events b -> a = b.
Proof.
  intros S N E. apply tree_one. assert (X := parse_tree (fun _ => Some (events a)) [] b (fun _ _ => true) ltac:(now rewrite E) ltac:(easy)).
  rewrite (parse_tree (fun _ => Some (events a)) [] a (fun _ _ => true) eq_refl ltac:(easy)), S in X. destruct (short_names a); congruence.
Qed.
