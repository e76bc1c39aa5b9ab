(** Proofs for S_Client: functions that are passed on, unwrapping. *)
From Verif Require Import Base M_KeyStore P_KeyStore M_Marshal S_Marshal P_Marshal M_Client S_Client P_Client P_Client2.

Section All.
Variable imp : app -> reply.
Variable junk : nat -> nat -> bytes.
Variable initial : Z.
Hypothesis Himp : word_sized imp.
Hypothesis Hjunk : allocator junk.
Hypothesis Hinit : is_u64 initial.

Lemma reach_unwrap r type cv alg p k d : proper (KeyUnwrap r type cv alg p k d) -> complete (KeyUnwrap r type cv alg p k d) = true ->
  reaches imp junk initial (KeyUnwrap r type cv alg p k d).
Proof.
  start; split_all.
  assert (S : forall x n, sized_in x n = true -> exists b, x = In b /\ zlen b = n).
  { intros [|b] n E; [discriminate|]. cbn in E. exists b. split; [reflexivity|lia]. }
  assert (exists t1, ((type = 1 /\ cv = Some t1) \/ ((type =? 1) = false /\ cv = None)) /\ u32 t1) as (t1 & Hty & Ht1).
  { destruct (type =? 1) eqn:E.
    - destruct cv as [t1|]; [|discriminate]. cbn in H6. exists t1. split; [left; split; [lia|reflexivity]|exact H6].
    - exists 0. split; [right; split; [reflexivity|apply H5; lia]|split; reflexivity || discriminate]. }
  apply optional_null in H0.
  destruct p; split_all;
  repeat match goal with H : optional ?x = true |- _ => apply optional_null in H end;
  repeat match goal with H : given ?x = true |- _ => destruct x; [discriminate|clear H] end;
  repeat match goal with H : sized_in ?x _ = true |- _ => apply S in H; destruct H as (? & -> & ?) end.
  all: destruct Hty as [[-> ->] | [Et ->]]; destruct H0 as [-> | [? ->]];
    repeat match goal with H : _ \/ _ |- _ => destruct H | H : exists _, _ |- _ => destruct H end; subst.
  all: try match goal with H : match ?t with InNull _ => false | In _ => _ end = true |- _ => destruct t; [discriminate H|] end.
  all: match goal with
    | |- reaches _ _ _ (KeyUnwrap _ _ _ ?a UnwNone _ _) =>
        let E := fresh in assert (a = 0 \/ a = 1 \/ a = 6) as E by lia; destruct E as [-> | [-> | ->]]
    | _ => idtac end.
  all: eapply reach_inout; [sent|].
  all: try match goal with |- context [par_s junk 48 [(0%nat, ?i); _; (24%nat, ?t); (_, w _ ?n)]] =>
      let F := fresh in assert (n <= 16) as F by lia;
      destruct (tagged_facts junk Hjunk i t n ltac:(assumption) ltac:(first [assumption | reflexivity]) F) as (? & ? & ? & ? & ?);
      set (par_s junk 48 _) in *; match goal with b := par_s _ _ _ |- _ => clearbody b end end.
  all: try rewrite elgamal_struct by assumption.
  all: finish.
Qed.
End All.
