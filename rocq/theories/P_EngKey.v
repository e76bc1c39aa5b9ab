From Verif Require Import Base M_EngKey S_EngKey.

(** Keys alive: what the counts add up to. *)
Definition inner_of (w : world) (p : Z) : Z :=
  match w_pkeys w p with Some q => b2z (match p_kind q with Some k => counted k | None => false end) | None => 0 end.
Definition total (f : Z -> Z) (l : list Z) : Z := fold_right (fun p s => f p + s) 0 l.
Record Inv (k : knows) (w : world) (live : list Z) : Prop := MkInv {
  i_nodup : NoDup live;
  i_live : forall p, In p live <-> w_pkeys w p <> None;
  i_key : forall p h t, key k p = Some (h, t) -> exists x pub, w_pkeys w p = Some x /\ p_body x = Some (Extended pub h t);
  i_known : forall p, w_pkeys w p <> None -> key k p <> None \/ own k p = true;
  i_full : forall p x, w_pkeys w p = Some x -> p_body x <> None;
  i_evps : w_evps w = Z.of_nat (length live);
  i_structs : w_structs w = Z.of_nat (length live);
  i_inner : w_inner w = total (inner_of w) live }.

Lemma total_cons f p l : total f (p :: l) = f p + total f l. Proof. reflexivity. Qed.
Lemma total_ext f g l : (forall p, In p l -> f p = g p) -> total f l = total g l.
Proof. induction l as [|p l IH]; intros H; [reflexivity|]. rewrite !total_cons, H by (left; reflexivity). rewrite IH; [reflexivity|]. intros q I. apply H. right. exact I. Qed.
Lemma total_remove f l p : NoDup l -> In p l -> total f l = f p + total f (remove Z.eq_dec p l).
Proof.
  induction l as [|q l IH]; [contradiction|]. intros N I. inversion N; subst. cbn [remove]. destruct (Z.eq_dec p q) as [->|NE].
  - rewrite notin_remove by assumption. reflexivity.
  - destruct I as [I|I]; [congruence|]. rewrite !total_cons, IH by assumption. lia.
Qed.
Lemma length_remove l p : NoDup l -> In p l -> Z.of_nat (length l) = 1 + Z.of_nat (length (remove Z.eq_dec p l)).
Proof.
  induction l as [|q l IH]; [contradiction|]. intros N I. inversion N; subst. cbn [remove]. destruct (Z.eq_dec p q) as [->|NE].
  - rewrite notin_remove by assumption. cbn [length]. lia.
  - destruct I as [I|I]; [congruence|]. cbn [length]. specialize (IH H2 I). lia.
Qed.
Lemma nodup_remove l p : NoDup l -> NoDup (remove Z.eq_dec p l).
Proof.
  induction 1 as [|q l N D IH]; [constructor|]. cbn. destruct (Z.eq_dec p q); [exact IH|]. constructor; [|exact IH]. intros I. apply in_remove in I. tauto.
Qed.
Lemma inv_start : Inv nothing start [].
Proof. split; cbn; try constructor; try discriminate; try tauto; try reflexivity; intros; try discriminate. Qed.

(** A key is added. *)
Lemma inv_add k w live p x (k' : knows) : Inv k w live -> w_pkeys w p = None -> p_body x <> None ->
  (forall q, q <> p -> key k' q = key k q) -> (forall q, q <> p -> own k' q = own k q) -> (key k' p <> None \/ own k' p = true) ->
  (forall h t, key k' p = Some (h, t) -> exists pub, p_body x = Some (Extended pub h t)) ->
  Inv k' (MkWorld (put w p (Some x)) (w_evps w + 1) (w_structs w + 1) (w_inner w + b2z (match p_kind x with Some y => counted y | None => false end))) (p :: live).
Proof.
  intros [ND LV KE KN FU EV ST IN] F B K1 K2 K3 K4.
  assert (NI : ~ In p live) by (rewrite LV, F; auto).
  split; cbn [w_pkeys w_evps w_structs w_inner].
  - constructor; assumption.
  - intros q. unfold put. cbn [In]. destruct (Z.eqb_spec q p) as [->|N]; [split; [discriminate|auto]|]. rewrite LV. split; [intros [E|E]; [congruence|exact E]|auto].
  - intros q h t. unfold put. destruct (Z.eqb_spec q p) as [->|N].
    + intros E. destruct (K4 _ _ E) as (pub & E2). exists x, pub. auto.
    + rewrite K1 by exact N. apply KE.
  - intros q. unfold put. destruct (Z.eqb_spec q p) as [->|N]; [intros _; exact K3|]. rewrite K1, K2 by exact N. apply KN.
  - intros q y. unfold put. destruct (Z.eqb_spec q p) as [->|N]; [intros [= <-]; exact B|apply FU].
  - cbn [length]. lia.
  - cbn [length]. lia.
  - rewrite total_cons. unfold inner_of at 1. unfold put at 1. cbn [w_pkeys]. rewrite Z.eqb_refl. rewrite IN.
    rewrite (total_ext (inner_of (MkWorld _ _ _ _)) (inner_of w) live); [lia|]. intros q I. unfold inner_of, put. cbn [w_pkeys]. destruct (Z.eqb_spec q p) as [->|]; [contradiction|reflexivity].
Qed.
Lemma inv_drop k w live p x : Inv k w live -> w_pkeys w p = Some x ->
  Inv (hear k (Free p, Fine)) (MkWorld (put w p None) (w_evps w - 1) (w_structs w - 1) (w_inner w - b2z (match p_kind x with Some y => counted y | None => false end))) (remove Z.eq_dec p live).
Proof.
  intros [ND LV KE KN FU EV ST IN] F. assert (I : In p live) by (rewrite LV, F; discriminate).
  split; cbn [w_pkeys w_evps w_structs w_inner].
  - apply nodup_remove, ND.
  - intros q. unfold put. destruct (Z.eqb_spec q p) as [->|N].
    + split; [intros H; apply in_remove in H; tauto|congruence].
    + rewrite <- LV. split; [intros H; apply in_remove in H; tauto|intros H; apply in_in_remove; auto].
  - intros q h t. unfold put. cbn. destruct (Z.eqb_spec q p); [discriminate|apply KE].
  - intros q. unfold put. cbn. destruct (Z.eqb_spec q p); [congruence|apply KN].
  - intros q y. unfold put. destruct (Z.eqb_spec q p); [discriminate|apply FU].
  - pose proof (length_remove live p ND I). lia.
  - pose proof (length_remove live p ND I). lia.
  - rewrite IN. rewrite (total_remove (inner_of w) live p ND I). unfold inner_of at 1. rewrite F.
    rewrite (total_ext (inner_of (MkWorld _ _ _ _)) (inner_of w)); [lia|]. intros q J. apply in_remove in J. unfold inner_of, put. cbn [w_pkeys].
    destruct (Z.eqb_spec q p) as [->|]; [tauto|reflexivity].
Qed.

(** A load with enough memory *)
Definition made (h : Z) (t : kind) (public : option (kind * Z * Z)) (lk : luck) : option pkey :=
  match t with
  | Sym => if l_raw lk then Some (MkKey (Some Sym) (Some (Extended 0 h Sym)) (l_eng lk)) else None
  | _ => match public with Some (k, pub, _) => Some (MkKey (Some k) (Some (Extended pub h t)) (l_eng lk)) | None => None end
  end.
Lemma load_spec w h header public lk p : memory_suffices (Load h header public lk p) ->
  step (Load h header public lk p) w =
  match header with
  | None => (w, Null)
  | Some t => match made h t public lk with
              | None => (w, Null)
              | Some x => match w_pkeys w p with
                          | Some _ => (w, Misuse)
                          | None => (MkWorld (put w p (Some x)) (w_evps w + 1) (w_structs w + 1) (w_inner w + b2z (match p_kind x with Some y => counted y | None => false end)), Key p)
                          end
              end
  end.
Proof.
  cbn [memory_suffices]. intros (E & R & U). cbn [step]. destruct header as [t|]; [|reflexivity].
  assert (S : t <> Sym -> forall k pub u, public = Some (k, pub, u) -> match set_data k pub u h t lk with
     | Overflow => (w, Crash) | Done x evps structs inner true => loaded w p (with_engine x (l_eng lk)) (1 + evps) (1 + structs) (b2z (counted k) + inner)
     | Done x evps structs inner false => loaded w p x (1 + evps) (1 + structs) (b2z (counted k) + inner) end =
     match w_pkeys w p with Some _ => (w, Misuse) | None => (MkWorld (put w p (Some (MkKey (Some k) (Some (Extended pub h t)) (l_eng lk)))) (w_evps w + 1) (w_structs w + 1) (w_inner w + b2z (counted k)), Key p) end).
  { intros _ k pub u ->. unfold set_data. rewrite R, E. cbn [negb]. unfold MAX_KEY_DATA_LEN. destruct (Z.ltb_spec 512 u); [lia|].
    destruct (counted k) eqn:CK; cbn; rewrite ?CK; destruct (w_pkeys w p); try reflexivity; cbn; do 3 f_equal; lia. }
  destruct t; cbn [made]; try (destruct public as [[[k pub] u]|]; [rewrite (S ltac:(discriminate) k pub u eq_refl); reflexivity|reflexivity]).
  destruct (l_raw lk); cbn [negb]; [|reflexivity]. cbn. destruct (w_pkeys w p); [reflexivity|]. f_equal; f_equal; lia.
Qed.
Lemma made_body h t public lk x : made h t public lk = Some x -> exists pub, p_body x = Some (Extended pub h t).
Proof. destruct t; cbn; try (destruct public as [[[k pub] u]|]; [intros [= <-]; cbn; eauto|discriminate]). destruct (l_raw lk); [intros [= <-]; cbn; eauto|discriminate]. Qed.
Lemma step_inv k o w live : Inv k w live -> memory_suffices o -> exists live', Inv (hear k (o, snd (step o w))) (fst (step o w)) live'.
Proof.
  intros I P. destruct o as [h header public lk p|y pub u p|p|p|p].
  - rewrite (load_spec w h header public lk p P). destruct header as [t|]; [|exists live; exact I]. destruct (made h t public lk) as [x|] eqn:M; [|exists live; exact I].
    destruct (w_pkeys w p) eqn:F; [exists live; exact I|]. destruct (made_body _ _ _ _ _ M) as (pub & B). exists (p :: live). cbn [fst snd]. apply (inv_add k); cbn [hear key own]; auto.
    + congruence.
    + intros q N. rewrite (proj2 (Z.eqb_neq q p) N). reflexivity.
    + left. rewrite Z.eqb_refl. discriminate.
    + rewrite Z.eqb_refl. intros h' t' [= <- <-]. eauto.
  - cbn [step]. destruct (w_pkeys w p) eqn:F; [exists live; exact I|]. exists (p :: live). cbn [fst snd].
    apply (inv_add k w live p (MkKey (Some y) (Some (Plain pub u)) false)); cbn [hear key own]; auto.
    + discriminate.
    + intros q N. rewrite (proj2 (Z.eqb_neq q p) N). reflexivity.
    + right. rewrite Z.eqb_refl. reflexivity.
    + intros h t K. destruct (i_key _ _ _ I _ _ _ K) as (x & b & E & _). congruence.
  - cbn [step]. destruct (w_pkeys w p) as [x|] eqn:F; [|exists live; exact I]. exists (remove Z.eq_dec p live). pose proof (i_full _ _ _ I _ _ F) as B.
    destruct (p_body x); [|contradiction]. cbn [fst snd]. change (b2z true) with 1. rewrite Z.mul_1_l. apply inv_drop; assumption.
  - exists live. cbn [step]. destruct (w_pkeys w p) as [x|]; [|exact I]. destruct (p_body x) as [[pub u|pub h t]|]; [destruct (u <? TYPE_END)|..]; exact I.
  - exists live. cbn [step]. destruct (w_pkeys w p) as [x|]; [|exact I]. destruct (p_body x) as [[pub u|pub h t]|]; [destruct (u <? TYPE_END)|..]; exact I.
Qed.
Lemma step_safe k o w live : Inv k w live -> memory_suffices o -> only_loaded k o -> snd (step o w) <> Crash.
Proof.
  intros I P O. destruct o as [h header public lk p|y pub u p|p|p|p].
  - rewrite (load_spec w h header public lk p P). destruct header as [t|]; [|discriminate]. destruct (made h t public lk); [|discriminate]. destruct (w_pkeys w p); discriminate.
  - cbn [step]. destruct (w_pkeys w p); discriminate.
  - cbn [step]. destruct (w_pkeys w p); discriminate.
  - cbn in O. destruct (key k p) as [[h t]|] eqn:K; [|contradiction]. destruct (i_key _ _ _ I _ _ _ K) as (x & pub & E & B). cbn [step]. rewrite E, B. discriminate.
  - cbn in O. destruct (key k p) as [[h t]|] eqn:K; [|contradiction]. destruct (i_key _ _ _ I _ _ _ K) as (x & pub & E & B). cbn [step]. rewrite E, B. discriminate.
Qed.
Lemma run_inv l : forall k w live, Inv k w live -> Forall memory_suffices l -> exists live', Inv (fold_left hear (snd (run l w)) k) (fst (run l w)) live'.
Proof.
  induction l as [|o l IH]; intros k w live I F; [exists live; exact I|]. inversion F as [|? ? F1 F2]; subst. cbn [run]. destruct (step_inv k o w live I F1) as (live1 & I1).
  destruct (step o w) as [w1 a]. cbn [fst snd] in I1. destruct (crashed a); [exists live1; exact I1|]. destruct (IH _ _ _ I1 F2) as (live2 & I2). destruct (run l w1). exists live2. exact I2.
Qed.
Theorem no_harm : forall l, Forall memory_suffices l -> proper (snd (run l start)) nothing -> Forall (fun e => snd e <> Crash) (snd (run l start)).
Proof.
  intros l. generalize inv_start. generalize nothing, start, (@nil Z). induction l as [|o l IH]; intros k w live I F; [constructor|]. inversion F as [|? ? F1 F2]; subst. cbn [run].
  pose proof (step_safe k o w live I F1) as S. destruct (step_inv k o w live I F1) as (live1 & I1). destruct (step o w) as [w1 a]. cbn [fst snd] in *.
  specialize (IH _ _ _ I1 F2). destruct (crashed a) eqn:C; [|destruct (run l w1)]; cbn in *; intros [P Q]; (constructor; [cbn; auto|auto]).
Qed.
Theorem handle_kept : forall l p h t, Forall memory_suffices l -> key (heard (snd (run l start))) p = Some (h, t) ->
  snd (step (Data p) (fst (run l start))) = Handle h t /\ snd (step (Derive p) (fst (run l start))) = Handle h t.
Proof.
  intros l p h t F K. destruct (run_inv l _ _ _ inv_start F) as (live & I). destruct (i_key _ _ _ I _ _ _ K) as (x & pub & E & B). cbn [step]. rewrite E, B. auto.
Qed.
Theorem load_right : forall w h t k pub u lk p, l_evp lk = true -> l_room lk = true -> l_eng lk = true -> u <= 512 -> t <> Sym -> w_pkeys w p = None ->
  let '(w', a) := step (Load h (Some t) (Some (k, pub, u)) lk p) w in a = Key p /\ w_pkeys w' p = Some (MkKey (Some k) (Some (Extended pub h t)) true) /\
  forall q, q <> p -> w_pkeys w' q = w_pkeys w q.
Proof.
  intros w h t k pub u lk p E R G U T F. rewrite (load_spec w h (Some t) (Some (k, pub, u)) lk p) by (cbn; auto).
  replace (made h t (Some (k, pub, u)) lk) with (Some (MkKey (Some k) (Some (Extended pub h t)) true)) by (destruct t; cbn; rewrite ?G; try reflexivity; contradiction).
  rewrite F. split; [reflexivity|]. cbn. unfold put. rewrite Z.eqb_refl. split; [reflexivity|]. intros q N. rewrite (proj2 (Z.eqb_neq q p) N). reflexivity.
Qed.
Theorem load_symmetric : forall w h public lk p, l_raw lk = true -> l_eng lk = true -> w_pkeys w p = None ->
  let '(w', a) := step (Load h (Some Sym) public lk p) w in a = Key p /\ w_pkeys w' p = Some (MkKey (Some Sym) (Some (Extended 0 h Sym)) true) /\
  forall q, q <> p -> w_pkeys w' q = w_pkeys w q.
Proof.
  intros w h public lk p R G F. cbn [step]. rewrite R, G. cbn [negb loaded]. rewrite F. split; [reflexivity|]. cbn. unfold put. rewrite Z.eqb_refl. split; [reflexivity|].
  intros q N. rewrite (proj2 (Z.eqb_neq q p) N). reflexivity.
Qed.
Theorem failed_load : forall w h header public lk p, memory_suffices (Load h header public lk p) -> snd (step (Load h header public lk p) w) = Null ->
  fst (step (Load h header public lk p) w) = w.
Proof.
  intros w h header public lk p P. rewrite (load_spec _ _ _ _ _ _ P). destruct header as [t|]; [|reflexivity]. destruct (made h t public lk); [|reflexivity]. destruct (w_pkeys w p); [reflexivity|discriminate].
Qed.
Theorem nothing_left : forall l, Forall memory_suffices l -> (forall p, key (heard (snd (run l start))) p = None /\ own (heard (snd (run l start))) p = false) ->
  w_evps (fst (run l start)) = 0 /\ w_structs (fst (run l start)) = 0 /\ w_inner (fst (run l start)) = 0.
Proof.
  intros l F N. destruct (run_inv l _ _ _ inv_start F) as (live & I). fold (heard (snd (run l start))) in I. assert (live = []) as ->.
  { destruct live as [|p live]; [reflexivity|]. exfalso. destruct (N p) as [K O]. destruct (i_known _ _ _ I p) as [X|X]; [apply (i_live _ _ _ I); left; reflexivity|contradiction|congruence]. }
  split; [apply I|]. split; [apply I|]. rewrite (i_inner _ _ _ I). reflexivity.
Qed.
Theorem no_memory_wrong :
  (forall k, k = Rsa \/ k = Ec \/ k = Dh -> map snd (snd (run (no_memory k) start)) = [Key 1] /\ snd (step (Data 1) (fst (run (no_memory k) start))) = Refused /\
    let w := fst (step (Free 1) (fst (run (no_memory k) start))) in w_evps w = 0 /\ w_structs w = 1 /\ w_inner w = 1) /\
  map snd (snd (run no_memory_curve start)) = [Key 1] /\ snd (step (Data 1) (fst (run no_memory_curve start))) = Crash.
Proof. split; [|vm_compute; split; reflexivity]. intros k [-> | [-> | ->]]; vm_compute; repeat split; reflexivity. Qed.
Theorem own_key_wrong : map snd (snd (run own_key start)) = [Key 1] /\ snd (step (Data 1) (fst (run own_key start))) = Crash /\ snd (step (Derive 1) (fst (run own_key start))) = Crash.
Proof. vm_compute. repeat split; reflexivity. Qed.
Theorem no_engine_wrong : map snd (snd (run no_engine start)) = [Key 1] /\ option_map p_engine (w_pkeys (fst (run no_engine start)) 1) = Some false.
Proof. vm_compute. repeat split; reflexivity. Qed.
Theorem two_keys_right : Forall memory_suffices two_keys /\ proper (snd (run two_keys start)) nothing /\ map snd (snd (run two_keys start)) = [Key 1; Key 2; Key 3; Key 4; Handle 7 Rsa; Fine] /\
  key (heard (snd (run two_keys start))) 1 = Some (7, Rsa) /\ key (heard (snd (run two_keys start))) 3 = Some (8, Curve).
Proof.
  split; [repeat constructor; cbn; lia|].
  assert (E : snd (run two_keys start) = combine two_keys [Key 1; Key 2; Key 3; Key 4; Handle 7 Rsa; Fine]) by (vm_compute; reflexivity).
  rewrite E. cbn. repeat split; discriminate.
Qed.
