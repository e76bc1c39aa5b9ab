From Verif Require Import Base M_Info S_Info.

Lemma skip_text nm b : (length b < length (text nm))%nat \/ length (text nm ++ skipn (length (text nm)) b) = length b.
Proof. rewrite app_length, skipn_length. lia. Qed.
Lemma needed_len nm : needed nm = Z.of_nat (length (text nm)).
Proof. unfold needed, text. rewrite app_length. cbn. lia. Qed.
Theorem name_right : forall nm shared m1 m2 junk fail buf n buf' n', honest buf n -> no_success fail ->
  get_name nm shared m1 m2 junk fail buf n = (OK, buf', n') ->
  match buf with
  | None => buf' = None /\ n' = needed nm
  | Some b => needed nm <= n /\ n' = n /\ exists b', buf' = Some b' /\ length b' = length b /\ firstn (length (text nm)) b' = text nm /\
      (shared = false -> skipn (length (text nm)) b' = skipn (length (text nm)) b)
  end.
Proof.
  intros nm shared m1 m2 junk fail buf n buf' n' H NS E. unfold get_name in E. destruct m1; cbn in E; [|discriminate]. destruct buf as [b|].
  - cbn in H. destruct (shared && negb m2); [discriminate|]. destruct fail as [s|]; [inversion E; subst; exfalso; apply NS; reflexivity|].
    unfold ta_get_name in E. fold (needed nm) in E. destruct (Z.ltb_spec n (needed nm)) as [L|L]; [discriminate|]. fold (text nm) in E.
    set (p := if shared then map junk (seq 0 (length b)) else b) in *. assert (LP : length p = length b) by (unfold p; destruct shared; [rewrite map_length, seq_length|]; reflexivity).
    cbn [status_eqb] in E. inversion E; subst. split; [exact L|]. split; [reflexivity|]. eexists. split; [reflexivity|]. rewrite needed_len in L. split; [|split].
    + destruct (skip_text nm p) as [X|X]; [rewrite LP in X; lia|congruence].
    + rewrite firstn_app, firstn_all, Nat.sub_diag. cbn. apply app_nil_r.
    + intros ->. rewrite skipn_app, skipn_all, Nat.sub_diag. reflexivity.
  - destruct fail as [s|]; [inversion E; subst; exfalso; apply NS; reflexivity|]. cbn in E. inversion E; subst. auto.
Qed.
Theorem name_refused : forall nm shared m1 m2 junk fail buf n s buf' n',
  get_name nm shared m1 m2 junk fail buf n = (s, buf', n') -> s <> OK -> buf' = buf /\ n' = n.
Proof.
  intros nm shared m1 m2 junk fail buf n s buf' n' E S. unfold get_name in E. destruct m1; cbn [negb] in E; [|inversion E; auto]. destruct buf as [b|].
  - destruct (shared && negb m2); [inversion E; auto|]. destruct fail as [x|]; [inversion E; auto|]. destruct (ta_get_name nm _ n) as [[s1 p1] n1].
    destruct (status_eqb s1 OK) eqn:X; [apply status_eqb_eq in X; subst s1|]; inversion E; subst; [contradiction|auto].
  - destruct fail as [x|]; cbn in E; inversion E; subst; [auto|contradiction].
Qed.
Theorem name_given : forall nm shared junk buf n, honest buf n ->
  fst (fst (get_name nm shared true true junk None buf n)) =
  match buf with None => OK | Some b => if Z.of_nat (length b) <? needed nm then INVALID_PARAMETER else OK end.
Proof.
  intros nm shared junk [b|] n H; [|reflexivity]. cbn in H. subst n. unfold get_name. cbn [negb]. rewrite andb_false_r. unfold ta_get_name. fold (needed nm).
  destruct (Z.of_nat (length b) <? needed nm); reflexivity.
Qed.
Theorem asked_then_read : forall nm shared junk b n0, let n := snd (get_name nm shared true true junk None None n0) in
  Z.of_nat (length b) = n -> get_name nm shared true true junk None (Some b) n = (OK, Some (text nm), n).
Proof.
  intros nm shared junk b n0 n H. destruct (get_name nm shared true true junk None (Some b) n) as [[s b'] n'] eqn:E.
  pose proof (name_given nm shared junk (Some b) n (eq_sym H)) as G. rewrite E in G. cbn [fst] in G. unfold n in H. cbn in H. fold (needed nm) in H. rewrite H, Z.ltb_irrefl in G. subst s.
  pose proof (name_right nm shared true true junk None (Some b) n b' n' (eq_sym H) ltac:(discriminate) E) as (A & B & x & -> & C & D & _). subst n'.
  assert (LL : length x = length (text nm)) by (rewrite needed_len in H; lia). rewrite <- LL, firstn_all in D. rewrite D. reflexivity.
Qed.
Theorem length_not_set : forall nm shared junk b, needed nm < Z.of_nat (length b) ->
  exists b', get_name nm shared true true junk None (Some b) (Z.of_nat (length b)) = (OK, b', Z.of_nat (length b)) /\ Z.of_nat (length b) <> needed nm.
Proof.
  intros nm shared junk b H. destruct (get_name nm shared true true junk None (Some b) (Z.of_nat (length b))) as [[s b'] n'] eqn:E.
  pose proof (name_given nm shared junk (Some b) _ eq_refl) as G. rewrite E in G. cbn [fst] in G. destruct (Z.ltb_spec (Z.of_nat (length b)) (needed nm)); [lia|]. subst s.
  pose proof (name_right nm shared true true junk None (Some b) _ b' n' eq_refl ltac:(discriminate) E) as (A & -> & _). exists b'. split; [reflexivity|lia].
Qed.
Theorem rest_overwritten : forall nm b x k, (length (text nm) <= k < length b)%nat ->
  exists b', get_name nm true true true (fun _ => x) None (Some b) (Z.of_nat (length b)) = (OK, Some b', Z.of_nat (length b)) /\ nth k b' (x + 1) = x.
Proof.
  intros nm b x k K. unfold get_name. cbn [negb andb]. unfold ta_get_name. fold (needed nm) (text nm). rewrite needed_len.
  destruct (Z.ltb_spec (Z.of_nat (length b)) (Z.of_nat (length (text nm)))); [lia|]. eexists. split; [reflexivity|].
  rewrite app_nth2 by lia. set (p := map (fun _ : nat => x) (seq 0 (length b))). assert (LP : length p = length b) by (unfold p; rewrite map_length, seq_length; reflexivity).
  assert (IN : forall y, In y p -> y = x) by (unfold p; intros y Y; apply in_map_iff in Y; destruct Y as (? & <- & _); reflexivity).
  apply IN. assert (Q : In (nth (k - length (text nm)) (skipn (length (text nm)) p) (x + 1)) (skipn (length (text nm)) p)) by (apply nth_In; rewrite skipn_length; lia).
  revert Q. generalize (nth (k - length (text nm)) (skipn (length (text nm)) p) (x + 1)). intros y Q. rewrite <- (firstn_skipn (length (text nm)) p). apply in_or_app. right. exact Q.
Qed.
Theorem info_right : forall i m1 fail old value s new left, no_success fail -> get_info i m1 fail old value = (s, new, left) ->
  (s = OK -> new = value /\ m1 = true /\ fail = None) /\ (s <> OK -> new = old).
Proof.
  intros i m1 fail old value s new left NS E. unfold get_info in E. destruct m1; cbn in E; [|inversion E; subst; split; [discriminate|auto]].
  destruct fail as [x|]; [|destruct i; inversion E; subst; (split; [auto|intros N; exfalso; apply N; reflexivity])].
  destruct i; inversion E; subst; (split; [intros ->; exfalso; apply NS; reflexivity|auto]).
Qed.
Theorem left_count : forall l, left_behind l = Z.of_nat (length (filter id_failed l)).
Proof.
  induction l as [|c l IH]; [reflexivity|]. destruct c as [sh a b j f bu n|i m f o v]; cbn [left_behind filter id_failed].
  - exact IH.
  - rewrite IH. unfold get_info. destruct m; cbn [negb]; destruct i, f; cbn [snd]; cbn [length]; lia.
Qed.
Theorem none_left : forall l, forallb (fun c => negb (id_failed c)) l = true -> left_behind l = 0.
Proof.
  intros l H. rewrite left_count. assert (E : filter id_failed l = []); [|rewrite E; reflexivity]. induction l as [|c l IH]; [reflexivity|]. cbn in H. apply andb_true_iff in H. destruct H as [A B].
  cbn. destruct (id_failed c); [discriminate|]. apply IH, B.
Qed.
Theorem id_leaks : forall n s, left_behind (repeat (Info DeviceId true (Some s) [] []) n) = Z.of_nat n.
Proof. intros n s. induction n as [|n IH]; [reflexivity|]. cbn [repeat left_behind]. rewrite IH. cbn. lia. Qed.
Lemma reference_name : get_name [82; 101; 102] false true true (fun _ => 7) None (Some [1; 2; 3; 4; 5; 6]) 6 = (OK, Some [82; 101; 102; 0; 5; 6], 6) /\
  get_name [82; 101; 102] true true true (fun _ => 7) None (Some [1; 2; 3; 4; 5; 6]) 6 = (OK, Some [82; 101; 102; 0; 7; 7], 6) /\
  get_name [82; 101; 102] true true true (fun _ => 7) None None 0 = (OK, None, 4) /\
  get_name [82; 101; 102] false true true (fun _ => 7) None (Some [1; 2; 3]) 3 = (INVALID_PARAMETER, Some [1; 2; 3], 3).
Proof. repeat split; reflexivity. Qed.
