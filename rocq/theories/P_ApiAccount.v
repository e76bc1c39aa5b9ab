(** Accounts: every call gives back what it took, frees what it allocated exactly once and
    touches only what it holds; and the handles it makes are the handles it returns. *)
From Verif Require Import Base M_ObjectStore M_Rights S_Rights P_Rights M_Svp M_Prog M_ApiKey
  M_ApiCipher M_ApiMac M_ApiSvp M_Api S_Api P_Prog.

Lemma hit_same {A} (dec : forall a b : A, {a = b} + {a <> b}) a : hit dec a a = 1.
Proof. unfold hit. destruct (dec a a); congruence. Qed.
Lemma hit_range {A} (dec : forall a b : A, {a = b} + {a <> b}) a b : 0 <= hit dec a b <= 1.
Proof. unfold hit. destruct (dec a b); lia. Qed.
Lemma status_neq s : status_eqb s OK = false -> s <> OK.
Proof. now destruct s. Qed.
Lemma status_is s : status_eqb s OK = true -> s = OK.
Proof. now destruct s. Qed.
Lemma create_not_ok r parent t ps s b alloc st :
  stored_key_create r parent t ps s b alloc = (st, None) -> st <> OK.
Proof. intros H HO. apply create_fail_none in H. apply H in HO. now apply HO. Qed.

Lemma hit_diff {A} (dec : forall a b : A, {a = b} + {a <> b}) a b : a <> b -> hit dec a b = 0.
Proof. unfold hit. destruct (dec a b); congruence. Qed.
Ltac hits :=
  rewrite ?hit_same;
  repeat match goal with
  | |- context [hit ?d ?a ?b] =>
      lazymatch goal with
      | _ : 0 <= hit d a b <= 1 |- _ => fail
      | _ => pose proof (hit_range d a b)
      end
  end.
Ltac diffs := repeat match goal with
  | |- context [hit ?d ?a ?b] => rewrite (hit_diff d a b) by discriminate
  end.
Ltac acct := cbn [refs refs_on locks owned count children ci_key ci_sym mc_ctx app].
Ltac in_tac := multimatch goal with
  | |- In _ (_ :: _) => (left; reflexivity) + (right; in_tac)
  end.
Ltac sum := acct; hits; lia.
Ltac sum_diff := acct; diffs; hits; lia.
Ltac held_tac := match goal with |- context [EAcquire ?s ?x _ (Got ?p)] => exists s, x; sum end.
Ltac lock_tac := split; [held_tac|sum].
Ltac client_tac := let c := fresh "c" in let E := fresh in intros c E; cbn [client_of] in E;
  first [discriminate E |
  injection E as <-; match goal with |- context [EAcquire SClients ?x _ (Got ?p)] => exists x; sum end].
Ltac rest_tac := let E := fresh in intros E; first [discriminate E |
  clear E; let s := fresh in intros s ? ?; destruct s; cbn [client_of]; let E := fresh in intros E;
  first [discriminate E | sum_diff]].
Ltac key_tac := do 2 eexists; split; [|split; [in_tac|reflexivity]]; lock_tac.
Ltac kind_tac := split; [in_tac|cbn [ci_key ci_sym mc_ctx];
  first [exact I | eexists; split; [in_tac|let E := fresh in intros ? E; first [discriminate E|injection E as <-; in_tac]]
        | eexists; in_tac]].
Ltac order := cbn [in_order]; lazymatch goal with
  | |- True => exact I
  | |- False => idtac
  | |- client_held _ _ => client_tac
  | |- _ /\ client_held _ _ /\ (_ -> _) => split; [split; sum|split; [client_tac|rest_tac]]
  | |- client_held _ _ /\ _ => split; [client_tac|intros ?; sum_diff]
  | |- held _ _ /\ _ => lock_tac
  | |- _ /\ client_held _ _ /\ kind_ok _ _ _ _ => split; [intros ?; sum|split; [client_tac|kind_tac]]
  | |- held _ _ => held_tac
  | |- held_locked _ _ => lock_tac
  | |- key_part _ _ => key_tac
  | |- mac_part _ _ => key_tac
  | |- same_kind _ _ _ => cbn [same_kind ci_alg ci_mode ci_sym ci_key ms_key];
       split; [first [lock_tac|key_tac]|eexists; repeat split; in_tac]
  | |- _ \/ _ => first [left; split; [sum|in_tac]
                       | right; left; split; [key_tac|in_tac]
                       | right; right; split; [key_tac|eexists; split; [in_tac|reflexivity]]]
  | |- forall x, _ => let x := fresh in intros x; sum
  end.
Ltac wait_leaf := first [lia | match goal with
  | E : (_, _, _) = (_, _, _) |- _ => solve [injection E; intros; subst; cbn [rank] in *;
      first [lia | left; lia | right; left; reflexivity | right; right; split; reflexivity]]
  end].
Ltac all_refs leaf := let s := fresh "s" in let x := fresh "x" in let p := fresh "p" in
  intros s x p; acct; unfold hit; repeat match goal with |- context [ref_dec ?a ?b] => destruct (ref_dec a b) end;
  intros ?; leaf.
Ltac wait := cbn [waits]; lazymatch goal with
  | |- True => exact I
  | |- exists s x, _ => match goal with
       |- context [EAcquire ?s ?x _ (Got ?p)] => exists s, x; split; [solve [sum]|solve [all_refs wait_leaf]] end
  | |- forall s x p, _ => all_refs wait_leaf
  end.
Ltac pay := idtac; let H := fresh "CALM" in intros H; split; [try order|wait].

Definition pays (the : call) (h : list ev) (c : cmd) : Prop := calm the h -> in_order h c /\ waits h c.
Definition final (the : call) (s : status) (h : list ev) : Prop := calm the h -> settled h /\ handles_ok the h s.
Ltac settle := split; [intros ? ? ?|split; intros ?]; acct; hits; try lia.
Ltac not_ok := first
  [ discriminate | match goal with |- (if ?b then _ else _) = OK -> False => destruct b; discriminate end | assumption | eapply create_not_ok; eassumption | apply status_neq; assumption ].
Ltac one := split; intros HS;
    [ first [ do 2 eexists; split; [reflexivity|split; [reflexivity|split; [assumption|reflexivity]]]
            | exfalso; revert HS; not_ok]
    | first [ exfalso; exact (HS eq_refl) | split; [reflexivity|auto] ] ].
Ltac undo := let x := fresh in intros x; cbn [In]; tauto.
Ltac three := split; intros HS;
    [ first [ do 4 eexists; split; [reflexivity|split; [reflexivity|repeat split; first [assumption|reflexivity]]]
            | exfalso; revert HS; not_ok]
    | first [ exfalso; exact (HS eq_refl) | split; [undo|auto] ] ].
Ltac handles := unfold handles_ok, one_handle, three_handles, no_handle; cbn [creates made_handles undone_handles out_value];
  try (match goal with |- match ?a with ExDh => _ | _ => _ end => destruct a end);
  first [ reflexivity | one | three | idtac ].
Ltac done := let H := fresh "CALM" in intros H; split; [settle|handles].
Lemma unknown b : known_type b = false -> exists t, b = UBad t.
Proof. destruct b; try discriminate. eauto. Qed.
Lemma release_none sb : svp_release_buffer sb = None -> sb = None.
Proof. destruct sb; [discriminate|reflexivity]. Qed.
Lemma digest_null sb o l : svp_digest_range sb o l = DNullDeref -> sb = None.
Proof.
  destruct sb; [|reflexivity]. unfold svp_digest_range.
  repeat (match goal with |- context [match ?x with _ => _ end] => destruct x end; try discriminate).
Qed.
Ltac calm_tac := exfalso; cbn [calm] in *;
  try (match goal with
  | E : known_type _ = false |- _ => apply unknown in E; destruct E as [? ->]
  | E : svp_release_buffer _ = None |- _ => apply release_none in E; subst
  | E : svp_digest_range _ _ _ = DNullDeref |- _ => apply digest_null in E; subst
  end);
  repeat match goal with C : _ /\ _ |- _ => destruct C end;
  match goal with
  | C : forall c x v s, ~ In (EAcquire (SCiphers c) x v (Failed s)) _ |- _ => eapply C; in_tac
  | C : forall a, In (EExt XAlloc a) _ -> _, E : ok ?a = false |- _ => apply (status_neq _ E); apply C; in_tac
  | C : known_buffer _ |- _ => eapply C; reflexivity
  | C : forall p, ~ In (ESvp p None) _ |- _ => eapply C; in_tac
  end.
Ltac go := unfold final, pays; intros; cbv [api api_fn api_m]; wp_run pay; try done; try calm_tac.

