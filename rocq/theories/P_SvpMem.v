From Verif Require Import Base M_Memory M_Svp M_SvpMem S_SvpMem.

Record Inv (k : has) (w : world) : Prop := MkInv {
  i_heap : forall a s, In (a, s) (w_heap w) <-> own k a = Some s \/ exists h n, buffer k h = Some (a, s, n);
  i_apart : forall a s h t n, own k a = Some s -> buffer k h = Some (a, t, n) -> False;
  i_one : forall g h a s t m n, buffer k g = Some (a, s, m) -> buffer k h = Some (a, t, n) -> g = h;
  i_store : forall h, w_store w h = match buffer k h with Some (a, _, n) => Some (Some (MkSvp a n)) | None => None end;
  i_size : forall h a s n, buffer k h = Some (a, s, n) -> 0 <= n <= s;
  i_range : forall a s, In (a, s) (w_heap w) -> 0 < a /\ 0 <= s /\ a + span s < 2 ^ 64;
  i_clear : forall a s b t, In (a, s) (w_heap w) -> In (b, t) (w_heap w) -> (a = b /\ s = t) \/ a + span s <= b \/ b + span t <= a }.

Lemma inv_start : Inv nothing start.
Proof. split; cbn; try discriminate; try tauto. intros a s. split; [tauto|]. intros [H|(h & n & H)]; discriminate. Qed.

Lemma span_pos s : 1 <= span s. Proof. unfold span. lia. Qed.
Lemma span_ge s : s <= span s. Proof. unfold span. lia. Qed.
Lemma in_free w a x s : In (x, s) (w_heap (free_at w a)) <-> In (x, s) (w_heap w) /\ x <> a.
Proof. cbn. rewrite filter_In. cbn. destruct (Z.eqb_spec x a); cbn; split; intros [H1 H2]; split; auto; congruence. Qed.
Lemma in_use_iff w a : in_use w a = true <-> exists s, In (a, s) (w_heap w).
Proof.
  unfold in_use. rewrite existsb_exists. split.
  - intros ([x s] & H & E). cbn in E. apply Z.eqb_eq in E. subst x. eauto.
  - intros (s & H). exists (a, s). split; [exact H|]. cbn. apply Z.eqb_refl.
Qed.
Lemma can_alloc_clear w n a : can_alloc w n a = true -> 0 < a /\ a + span n < 2 ^ 64 /\ (forall b t, In (b, t) (w_heap w) -> a + span n <= b \/ b + span t <= a).
Proof.
  unfold can_alloc. intros H. apply andb_prop in H. destruct H as [H F]. apply andb_prop in H. destruct H as [H1 H2]. split; [lia|]. split; [lia|].
  intros b t I. rewrite forallb_forall in F. specialize (F _ I). unfold clear_of in F. cbn in F. apply orb_prop in F. destruct F as [F|F]; [left|right]; lia.
Qed.
Lemma can_alloc_new w n a : can_alloc w n a = true -> in_use w a = false.
Proof.
  intros H. apply can_alloc_clear in H. destruct H as (_ & _ & H). destruct (in_use w a) eqn:U; [|reflexivity]. apply in_use_iff in U. destruct U as (s & I).
  specialize (H _ _ I). pose proof (span_pos n). pose proof (span_pos s). lia.
Qed.
Lemma create_spec w a n ok room h : let '(w', x) := create w a n ok room h in
  (x = Refused /\ w' = w) \/ (x = Misuse /\ w' = w) \/
  (x = Handle h /\ a <> 0 /\ w_store w h = None /\ ((a + n < 2 ^ 64 /\ w' = put w h (Some (Some (MkSvp a n)))) \/ (2 ^ 64 <= a + n /\ w' = put w h (Some None)))).
Proof.
  unfold create. destruct (Z.eqb_spec a 0) as [->|NZ]; [auto|]. destruct ok; cbn [negb]; [|auto]. unfold svp_create_buffer, memory_is_valid, add_overflow.
  rewrite (proj2 (Z.eqb_neq a 0) NZ). cbn [fst]. rewrite negb_involutive. change W64 with (2 ^ 64). destruct (Z.leb_spec (2 ^ 64) (a + n)).
  - change (c_bool (status_code INVALID_PARAMETER)) with true. destruct (w_store w h); [auto|]. right; right. repeat split; auto.
  - destruct room; cbn [negb]; [|auto]. destruct (w_store w h); [auto|]. right; right. repeat split; auto.
Qed.

Ltac keys := repeat match goal with
  | |- context [?x =? ?y] => destruct (Z.eqb_spec x y); subst
  | H : context [?x =? ?y] |- _ => destruct (Z.eqb_spec x y); subst end.

(** New blocks, freed blocks, blocks that become buffers and back. *)
Lemma inv_alloc k w n a : Inv k w -> 0 <= n -> can_alloc w n a = true -> Inv (with_own k a (Some n)) (add_block w a n).
Proof.
  intros [H A O S Z R C] N CA. pose proof (can_alloc_new _ _ _ CA) as NEW. apply can_alloc_clear in CA. destruct CA as (CA1 & CA2 & CA3).
  assert (FR : forall s, ~ In (a, s) (w_heap w)) by (intros s I; rewrite (proj2 (in_use_iff w a)) in NEW; [discriminate|eauto]).
  assert (FO : own k a = None) by (destruct (own k a) as [s|] eqn:E; [exfalso; apply (FR s), H; auto|reflexivity]).
  assert (FB : forall h s m, buffer k h <> Some (a, s, m)) by (intros h s m E; apply (FR s), H; right; eauto).
  split; cbn.
  - intros x s. split.
    + intros [E|I]; [injection E as <- <-; rewrite Z.eqb_refl; auto|]. apply H in I. destruct I as [I|I]; [left|right; exact I]. destruct (Z.eqb_spec x a); [congruence|exact I].
    + intros [E|E]; [|right; apply H; auto]. destruct (Z.eqb_spec x a) as [->|]; [left; congruence|right; apply H; auto].
  - intros x s h t m. destruct (Z.eqb_spec x a) as [->|]; [|eauto]. intros _ E. exact (FB _ _ _ E).
  - exact O.
  - exact S.
  - exact Z.
  - intros x s [E|I]; [injection E as <- <-; auto|auto].
  - intros x s b t [E|I] [F|J].
    + left. split; congruence.
    + injection E as <- <-. right. apply CA3 in J. exact J.
    + injection F as <- <-. right. apply CA3 in I. lia.
    + auto.
Qed.
Lemma inv_free k w a s : Inv k w -> own k a = Some s -> Inv (with_own k a None) (free_at w a).
Proof.
  intros [H A O S Z R C] OW. split.
  - intros x t. rewrite in_free, H. cbn. split.
    + intros [[E|E] N]; [left; destruct (Z.eqb_spec x a); [contradiction|exact E]|right; exact E].
    + intros [E|(h & n & E)]; destruct (Z.eqb_spec x a) as [->|N]; try discriminate; auto; [|split; [eauto|exact N]]. exfalso. eapply A; eauto.
  - cbn. intros x t h u m. destruct (Z.eqb_spec x a); [discriminate|eauto].
  - exact O.
  - exact S.
  - exact Z.
  - intros x t I. apply in_free in I. apply R, I.
  - intros x t b u I J. apply in_free in I, J. apply C; tauto.
Qed.
Lemma inv_take k w a s n h : Inv k w -> own k a = Some s -> 0 <= n <= s -> buffer k h = None ->
  Inv (with_buffer (with_own k a None) h (Some (a, s, n))) (put w h (Some (Some (MkSvp a n)))).
Proof.
  intros [H A O S Z R C] OW N B. split; cbn.
  - intros x t. rewrite H. split.
    + intros [E|(g & m & E)].
      * destruct (Z.eqb_spec x a) as [->|NE]; [right; exists h, n; rewrite Z.eqb_refl; congruence|auto].
      * right. exists g, m. destruct (Z.eqb_spec g h); [congruence|exact E].
    + intros [E|(g & m & E)].
      * destruct (Z.eqb_spec x a); [discriminate|auto].
      * destruct (Z.eqb_spec g h) as [->|NE]; [injection E as <- <- <-; auto|eauto].
  - intros x t g u m E F. destruct (Z.eqb_spec x a) as [->|NE]; [discriminate|]. destruct (Z.eqb_spec g h) as [->|NG]; [congruence|eauto].
  - intros f g x t u m m' E F. destruct (Z.eqb_spec f h) as [->|NF]; destruct (Z.eqb_spec g h) as [->|NG]; auto; [|  |eapply O; eauto].
    + injection E as <- <- <-. exfalso. eapply A; eauto.
    + injection F as <- <- <-. exfalso. eapply A; eauto.
  - intros g. destruct (Z.eqb_spec g h) as [->|NG]; [reflexivity|apply S].
  - intros g x t m. destruct (Z.eqb_spec g h) as [->|NG]; [intros [= <- <- <-]; exact N|apply Z].
  - exact R.
  - exact C.
Qed.
Lemma inv_give k w a s n h : Inv k w -> buffer k h = Some (a, s, n) -> Inv (with_buffer (with_own k a (Some s)) h None) (put w h None).
Proof.
  intros [H A O S Z R C] B. split; cbn.
  - intros x t. rewrite H. split.
    + intros [E|(g & m & E)].
      * left. destruct (Z.eqb_spec x a) as [->|NE]; [exfalso; eapply A; eauto|exact E].
      * destruct (Z.eqb_spec g h) as [->|NG].
        -- left. rewrite B in E. injection E as -> -> ->. rewrite Z.eqb_refl. reflexivity.
        -- right. exists g, m. destruct (Z.eqb_spec g h); [contradiction|exact E].
    + intros [E|(g & m & E)].
      * destruct (Z.eqb_spec x a) as [->|NE]; [injection E as <-; right; eauto|auto].
      * destruct (Z.eqb_spec g h); [discriminate|eauto].
  - intros x t g u m E F. destruct (Z.eqb_spec g h) as [->|NG]; [discriminate|]. destruct (Z.eqb_spec x a) as [->|NE]; [apply NG; eapply O; eauto|eauto].
  - intros f g x t u m m' E F. destruct (Z.eqb_spec f h); [discriminate|]. destruct (Z.eqb_spec g h); [discriminate|]. eapply O; eauto.
  - intros g. destruct (Z.eqb_spec g h) as [->|NG]; [reflexivity|apply S].
  - intros g x t m. destruct (Z.eqb_spec g h); [discriminate|apply Z].
  - exact R.
  - exact C.
Qed.
(** The order in which maps are changed does not matter. *)
Lemma inv_ext k k' w : (forall a, own k a = own k' a) -> (forall h, buffer k h = buffer k' h) -> Inv k w -> Inv k' w.
Proof.
  intros E F [H A O S Z R C]. split; intros; rewrite <- ?E, <- ?F in *; eauto.
  - rewrite H. split; (intros [X|(h & n & X)]; [left; congruence|right; exists h, n; congruence]).
Qed.

Lemma store_buffer k w h sb : Inv k w -> w_store w h = Some sb -> exists a s n, buffer k h = Some (a, s, n) /\ sb = Some (MkSvp a n) /\ In (a, s) (w_heap w).
Proof.
  intros I S. rewrite (i_store _ _ I) in S. destruct (buffer k h) as [[[a s] n]|] eqn:B; [|discriminate]. injection S as <-. exists a, s, n.
  split; [reflexivity|]. split; [reflexivity|]. apply (i_heap _ _ I). eauto.
Qed.
Lemma step_inv k o w : Inv k w -> respects k o -> Inv (hear k (o, snd (step o w))) (fst (step o w)) /\ snd (step o w) <> Crash.
Proof.
  intros I P. destruct o as [n a|a|a n ok room h|h ok junk|n a ok room h|h ok junk|h off len]; cbn [step respects] in *.
  - destruct (a =? 0); [split; [exact I|discriminate]|]. destruct (can_alloc w n a) eqn:C; [|split; [exact I|discriminate]]. split; [|discriminate]. apply inv_alloc; auto.
  - unfold mem_free. destruct (Z.eqb_spec a 0) as [->|NZ].
    + split; [|discriminate]. cbn. apply (inv_ext k); auto. intros x. cbn. destruct (Z.eqb_spec x 0) as [->|]; [|reflexivity].
      destruct (own k 0) as [s|] eqn:O; [|reflexivity]. exfalso. destruct (i_range _ _ I 0 s); [apply (i_heap _ _ I); auto|lia].
    + destruct P as [P|P]; [contradiction|]. destruct (own k a) as [s|] eqn:O; [|contradiction].
      rewrite (proj2 (in_use_iff w a)) by (exists s; apply (i_heap _ _ I); auto). split; [|discriminate]. cbn. eapply inv_free; eauto.
  - pose proof (create_spec w a n ok room h) as C. destruct (create w a n ok room h) as [w1 x]. cbn [fst snd]. destruct P as [N P].
    destruct C as [(-> & ->)|[(-> & ->)|(-> & NZ & E & C)]]; [split; [exact I|discriminate]..|]. split; [|discriminate].
    destruct P as [P|(s & P1 & P2)]; [contradiction|]. cbn. rewrite P1.
    assert (a + span s < 2 ^ 64) by (apply (i_range _ _ I); apply (i_heap _ _ I); auto). pose proof (span_ge s).
    destruct C as [(C & ->)|(C & _)]; [|lia]. apply inv_take; auto. rewrite (i_store _ _ I) in E. destruct (buffer k h) as [[[? ?] ?]|]; [discriminate|reflexivity].
  - unfold release. destruct ok; cbn [negb]; [|split; [exact I|discriminate]]. destruct (w_store w h) as [sb|] eqn:E; [|split; [exact I|discriminate]].
    destruct (store_buffer _ _ _ _ I E) as (a & s & n & B & -> & _). cbn. rewrite B. split; [|discriminate]. eapply inv_give; eauto.
  - destruct (a =? 0) eqn:AZ; [split; [exact I|discriminate]|]. destruct (can_alloc w n a) eqn:C; [|split; [exact I|discriminate]].
    pose proof (inv_alloc k w n a I P C) as I1. pose proof (create_spec (add_block w a n) a n ok room h) as D. destruct (create (add_block w a n) a n ok room h) as [w1 x].
    destruct D as [(-> & ->)|[(-> & ->)|(-> & NZ & E & D)]].
    + unfold mem_free. rewrite AZ. rewrite (proj2 (in_use_iff (add_block w a n) a)) by (exists n; left; reflexivity). split; [|discriminate]. cbn [fst snd hear].
      apply (inv_ext (with_own (with_own k a (Some n)) a None)); [|reflexivity|].
      * intros x. cbn. destruct (Z.eqb_spec x a) as [->|]; [|reflexivity]. destruct (own k a) as [s|] eqn:O; [|reflexivity]. exfalso.
        pose proof (can_alloc_new _ _ _ C) as NW. rewrite (proj2 (in_use_iff w a)) in NW; [discriminate|]. exists s. apply (i_heap _ _ I). auto.
      * apply (inv_free _ _ _ n); [exact I1|]. cbn. rewrite Z.eqb_refl. reflexivity.
    + split; [exact I|discriminate].
    + split; [|discriminate]. cbn [fst snd hear]. pose proof (can_alloc_clear _ _ _ C) as (_ & CR & _). pose proof (span_ge n). destruct D as [(D & ->)|(D & _)]; [|lia].
      apply (inv_ext (with_buffer (with_own (with_own k a (Some n)) a None) h (Some (a, n, n)))).
      * intros x. cbn. destruct (Z.eqb_spec x a) as [->|]; [|reflexivity]. destruct (own k a) as [s|] eqn:O; [|reflexivity]. exfalso.
        pose proof (can_alloc_new _ _ _ C) as NW. rewrite (proj2 (in_use_iff w a)) in NW; [discriminate|]. exists s. apply (i_heap _ _ I). auto.
      * reflexivity.
      * apply inv_take; auto; [cbn; rewrite Z.eqb_refl; reflexivity|lia|]. cbn. cbn in E. rewrite (i_store _ _ I) in E. destruct (buffer k h) as [[[? ?] ?]|]; [discriminate|reflexivity].
  - unfold release. destruct ok; cbn [negb]; [|split; [exact I|discriminate]]. destruct (w_store w h) as [sb|] eqn:E; [|split; [exact I|discriminate]].
    destruct (store_buffer _ _ _ _ I E) as (a & s & n & B & -> & HP). cbn [svp_release_buffer sb_memory sb_size]. pose proof (inv_give k w a s n h I B) as I1.
    unfold mem_free. destruct (i_range _ _ I _ _ HP) as (R1 & _). destruct (Z.eqb_spec a 0) as [->|NZ]; [lia|].
    rewrite (proj2 (in_use_iff (put w h None) a)) by (exists s; exact HP). split; [|discriminate]. cbn [fst snd hear].
    apply (inv_ext (with_own (with_buffer (with_own k a (Some s)) h None) a None)); [|reflexivity|].
    + intros x. cbn. destruct (Z.eqb_spec x a) as [->|]; [|reflexivity]. destruct (own k a) as [t|] eqn:O; [|reflexivity]. exfalso. eapply (i_apart _ _ I); eauto.
    + apply (inv_free _ _ _ s); [exact I1|]. cbn. rewrite Z.eqb_refl. reflexivity.
  - destruct (w_store w h) as [[b|]|] eqn:E; [|split; [exact I|discriminate]..]. destruct (store_buffer _ _ _ _ I E) as (a & s & n & B & X & HP). injection X as ->.
    cbn [sb_size sb_memory]. destruct ((2 ^ 64 <=? off + len) || (n <? off + len)) eqn:T; [split; [exact I|discriminate]|].
    apply orb_false_elim in T. destruct T as [_ T]. pose proof (i_size _ _ I _ _ _ _ B).
    assert (EX : existsb (reaches (a + off) len) (w_heap w) = true).
    { apply existsb_exists. exists (a, s). split; [exact HP|]. unfold reaches. cbn. apply andb_true_intro. split; lia. }
    rewrite EX, orb_true_r. split; [exact I|discriminate].
Qed.
Lemma run_inv l : forall k w, Inv k w -> careful (snd (run l w)) k ->
  Inv (fold_left hear (snd (run l w)) k) (fst (run l w)) /\ Forall (fun e => snd e <> Crash) (snd (run l w)).
Proof.
  induction l as [|o l IH]; intros k w I; [cbn; auto|]. cbn [run]. pose proof (step_inv k o w I) as S. destruct (step o w) as [w1 a]. cbn [fst snd] in S.
  destruct (crashed a) eqn:C.
  - cbn. intros [P _]. destruct (S P) as [_ N]. destruct a; try discriminate. contradiction.
  - specialize (IH (hear k (o, a)) w1). destruct (run l w1) as [w2 r]. cbn in IH |- *. intros [P Q]. destruct (S P) as [I1 N]. destruct (IH I1 Q) as [I2 F]. split; [exact I2|]. constructor; auto.
Qed.

Theorem no_harm : forall l, careful (snd (run l start)) nothing -> Forall (fun e => snd e <> Crash) (snd (run l start)).
Proof. intros l C. apply (run_inv l nothing start inv_start C). Qed.
Lemma whole_careful l : forall k w, Forall whole_buffers l -> careful (snd (run l w)) k.
Proof.
  induction l as [|o l IH]; intros k w F; [exact Logic.I|]. inversion F as [|? ? W1 W2]; subst. cbn [run]. destruct (step o w) as [w1 a].
  assert (respects k o) by (destruct o; cbn in *; tauto). destruct (crashed a); [cbn; auto|]. specialize (IH (hear k (o, a)) w1 W2). destruct (run l w1). cbn. auto.
Qed.
Theorem whole_no_harm : forall l, Forall whole_buffers l -> Forall (fun e => snd e <> Crash) (snd (run l start)).
Proof. intros l F. apply no_harm, whole_careful, F. Qed.
Theorem given_back : forall l h junk, careful (snd (run l start)) nothing ->
  snd (step (Release h true junk) (fst (run l start))) = match buffer (heard (snd (run l start))) h with Some (a, _, n) => Memory a n | None => Refused end.
Proof.
  intros l h junk C. destruct (run_inv l nothing start inv_start C) as [I _]. fold (heard (snd (run l start))) in I. cbn [step release negb]. unfold release. cbn [negb].
  rewrite (i_store _ _ I). destruct (buffer _ h) as [[[a s] n]|]; reflexivity.
Qed.
Theorem kept : forall l, careful (snd (run l start)) nothing -> let k := heard (snd (run l start)) in let w := fst (run l start) in
  (forall a s, In (a, s) (w_heap w) <-> own k a = Some s \/ exists h n, buffer k h = Some (a, s, n)) /\
  (forall g h a b s t m n, g <> h -> buffer k g = Some (a, s, m) -> buffer k h = Some (b, t, n) -> a + m <= b \/ b + n <= a) /\
  (forall h a b s t n, own k a = Some s -> buffer k h = Some (b, t, n) -> a + s <= b \/ b + n <= a).
Proof.
  intros l C k w. destruct (run_inv l nothing start inv_start C) as [I _]. fold (heard (snd (run l start))) in I. fold k w in I. split; [apply I|]. split.
  - intros g h a b s t m n N G H. pose proof (i_size _ _ I _ _ _ _ G). pose proof (i_size _ _ I _ _ _ _ H). pose proof (span_ge s). pose proof (span_ge t).
    destruct (i_clear _ _ I a s b t) as [[-> _]|X]; [apply (i_heap _ _ I); eauto|apply (i_heap _ _ I); eauto| |lia]. exfalso. apply N. eapply (i_one _ _ I); eauto.
  - intros h a b s t n G H. pose proof (i_size _ _ I _ _ _ _ H). pose proof (span_ge s). pose proof (span_ge t).
    destruct (i_clear _ _ I a s b t) as [[-> _]|X]; [apply (i_heap _ _ I); eauto|apply (i_heap _ _ I); eauto| |lia]. exfalso. eapply (i_apart _ _ I); eauto.
Qed.
Theorem nothing_left : forall l, careful (snd (run l start)) nothing -> let k := heard (snd (run l start)) in
  (forall a, own k a = None) -> (forall h, buffer k h = None) -> w_heap (fst (run l start)) = [] /\ forall h, w_store (fst (run l start)) h = None.
Proof.
  intros l C k O B. destruct (run_inv l nothing start inv_start C) as [I _]. fold (heard (snd (run l start))) in I. fold k in I. split.
  - destruct (w_heap (fst (run l start))) as [|[a s] r] eqn:E; [reflexivity|]. exfalso. destruct (proj1 (i_heap _ _ I a s)) as [X|(h & n & X)]; [rewrite E; left; reflexivity|congruence..].
  - intros h. rewrite (i_store _ _ I), B. reflexivity.
Qed.
Theorem failed_alloc : forall w n a ok room h w', step (Alloc n a ok room h) w = (w', Refused) -> w' = w.
Proof.
  intros w n a ok room h w'. cbn [step]. destruct (Z.eqb_spec a 0) as [->|NZ]; [congruence|]. destruct (can_alloc w n a) eqn:C; [|discriminate].
  pose proof (create_spec (add_block w a n) a n ok room h) as D. destruct (create (add_block w a n) a n ok room h) as [w1 x].
  destruct D as [(-> & ->)|[(-> & ->)|(-> & _)]]; [|discriminate..]. unfold mem_free. rewrite (proj2 (Z.eqb_neq a 0) NZ).
  rewrite (proj2 (in_use_iff (add_block w a n) a)) by (exists n; left; reflexivity). intros [= <-]. unfold free_at, add_block. cbn. rewrite Z.eqb_refl. cbn.
  destruct w as [hp st]. f_equal. cbn in *. apply can_alloc_new in C. unfold in_use in C. cbn in C. clear -C. induction hp as [|[b s] hp IH]; [reflexivity|]. cbn in *.
  apply orb_false_elim in C. destruct C as [C1 C2]. rewrite C1. cbn. rewrite IH; auto.
Qed.
Theorem alloc_given : forall w n a h, a <> 0 -> can_alloc w n a = true -> w_store w h = None ->
  snd (step (Alloc n a true true h) w) = Handle h /\ snd (step (Use h 0 n) (fst (step (Alloc n a true true h) w))) = Fine /\
  forall junk, snd (step (Free h true junk) (fst (step (Alloc n a true true h) w))) = Fine.
Proof.
  intros w n a h NZ C S. assert (CC := C). apply can_alloc_clear in C. destruct C as (C1 & C2 & _). pose proof (span_ge n) as G. cbn [step].
  assert (E : create (add_block w a n) a n true true h = (put (add_block w a n) h (Some (Some (MkSvp a n))), Handle h)).
  { unfold create, svp_create_buffer, memory_is_valid, add_overflow. rewrite (proj2 (Z.eqb_neq a 0) NZ). cbn [negb fst]. rewrite negb_involutive. change W64 with (2 ^ 64).
    destruct (Z.leb_spec (2 ^ 64) (a + n)); [lia|]. cbn. rewrite S. reflexivity. }
  rewrite (proj2 (Z.eqb_neq a 0) NZ), CC, E. cbn [fst snd]. split; [reflexivity|]. split.
  - cbn [put w_store]. rewrite Z.eqb_refl. cbn [sb_size sb_memory]. replace ((2 ^ 64 <=? 0 + n) || (n <? 0 + n)) with false by (symmetry; apply orb_false_intro; lia).
    cbn [put add_block w_heap existsb]. unfold reaches at 1. cbn [fst snd]. replace ((a <=? a + 0) && (a + 0 + n <=? a + n)) with true by (symmetry; apply andb_true_intro; lia).
    rewrite orb_true_r. reflexivity.
  - intros junk. unfold release. cbn [negb put w_store]. rewrite Z.eqb_refl. cbn [svp_release_buffer sb_memory sb_size]. unfold mem_free. rewrite (proj2 (Z.eqb_neq a 0) NZ).
    cbn. rewrite Z.eqb_refl. reflexivity.
Qed.
Theorem wrapping_wrong : let '(w, events) := run wrapping start in map snd events = [Handle 1] /\
  forall a n, snd (step (Release 1 true (a, n)) w) = Memory a n /\ (a <> 0 -> snd (step (Free 1 true (a, n)) w) = Crash).
Proof.
  assert (E : run wrapping start = (put start 1 (Some None), [(Create (2 ^ 64 - 8) 16 true true 1, Handle 1)])) by reflexivity.
  rewrite E. split; [reflexivity|]. intros a n. split; [reflexivity|]. intros NZ. cbn. unfold mem_free. rewrite (proj2 (Z.eqb_neq a 0) NZ). reflexivity.
Qed.
Theorem unchecked : snd (step (Free 2 true (0, 0)) (fst (run same_twice start))) = Crash /\ map snd (snd (run same_twice start)) = [Memory 1000 16; Handle 1; Handle 2; Fine] /\
  snd (step (Use 1 16 1) (fst (run larger start))) = Crash /\ map snd (snd (run larger start)) = [Memory 1000 16; Handle 1] /\
  snd (step (Use 1 0 16) (fst (run freed_under start))) = Crash /\ map snd (snd (run freed_under start)) = [Memory 1000 16; Handle 1; Fine].
Proof. vm_compute. repeat split; reflexivity. Qed.
Theorem usual_fine : careful (snd (run usual start)) nothing /\ map snd (snd (run usual start)) = [Handle 1; Memory 2000 32; Handle 2; Fine; Fine] /\
  buffer (heard (snd (run usual start))) 2 = Some (2000, 32, 24) /\ Forall whole_buffers [Alloc 16 1000 true true 1; Use 1 4 12; Free 1 true (0, 0)] /\
  map snd (snd (run [Alloc 16 1000 true true 1; Use 1 4 12; Free 1 true (0, 0)] start)) = [Handle 1; Fine; Fine].
Proof.
  split; [|vm_compute; repeat split; repeat constructor; discriminate].
  assert (E : snd (run usual start) = [(Alloc 16 1000 true true 1, Handle 1); (MemAlloc 32 2000, Memory 2000 32); (Create 2000 24 true true 2, Handle 2); (Use 1 4 12, Fine); (Use 2 0 24, Fine)]) by (vm_compute; reflexivity).
  rewrite E. cbn. repeat split; try lia. right. exists 32. split; [reflexivity|lia].
Qed.
