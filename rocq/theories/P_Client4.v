(** Proofs for S_Client: functions that are passed on, second part. *)
From Verif Require Import Base M_KeyStore P_KeyStore M_Marshal S_Marshal P_Marshal M_Client S_Client P_Client P_Client2.

Section All.
Variable imp : app -> reply.
Variable junk : nat -> nat -> bytes.
Variable initial : Z.
Hypothesis Himp : word_sized imp.
Hypothesis Hjunk : allocator junk.
Hypothesis Hinit : is_u64 initial.


Lemma reach_process o x i n : proper (CipherProcess o x i n) -> complete (CipherProcess o x i n) = true ->
  reaches imp junk initial (CipherProcess o x i n).
Proof.
  start; split_all. assert (Z0 : is_u64 0) by (split; reflexivity || discriminate). assert (Z1 : u32 0) by (split; reflexivity || discriminate).
  destruct o as [[? ?|? ? ?]|]; destruct i as [? ?|? ? ?]; unplace.
  all: eapply reach_inout; [sent2|].
  all: unfold CLEAR; finish.
Qed.
Lemma reach_process_last o x i n t : proper (CipherProcessLast o x i n t) -> complete (CipherProcessLast o x i n t) = true ->
  reaches imp junk initial (CipherProcessLast o x i n t).
Proof.
  start; split_all. assert (Z0 : is_u64 0) by (split; reflexivity || discriminate). assert (Z1 : u32 0) by (split; reflexivity || discriminate).
  destruct t as [[?|? ? ?]|]; [discriminate| |];
  (destruct o as [[? ?|? ? ?]|]; destruct i as [? ?|? ? ?]; unplace).
  all: eapply reach_inout; [sent2|].
  all: unfold CLEAR; finish.
Qed.

Lemma reach_svp_copy o i l : proper (SvpCopy o i l) -> complete (SvpCopy o i l) = true -> reaches imp junk initial (SvpCopy o i l).
Proof.
  start; split_all. assert (E : (zlen (concat (map span_bytes l)) =? 0) = false).
  { rewrite zlen_spans. destruct l; [discriminate|]. cbn [length]. lia. }
  inout. finish0.
  - walk. rewrite (exec_offsets imp _ _ _ l); [|reflexivity|apply zlen_spans|assumption]. invoke.
  - split; [reflexivity|]. split; [reflexivity|]. answer.
Qed.
Lemma reach_svp_write o d l : proper (SvpWrite o d l) -> complete (SvpWrite o d l) = true -> uniform (SvpWrite o d l) ->
  reaches imp junk initial (SvpWrite o d l).
Proof.
  start; split_all. destruct d as [|[|x b]]; try discriminate.
  assert (E : (zlen (concat (map span_bytes l)) =? 0) = false).
  { rewrite zlen_spans. destruct l; [discriminate|]. cbn [length]. lia. }
  assert (U : map (fun _ => span_bytes (hd (MkSpan 0 0 0) l)) l = map span_bytes l).
  { destruct H1 as (s & n & ->). destruct n; [reflexivity|]. cbn [repeat hd]. apply map_ext_in. intros a Ha.
    change (s :: repeat s n) with (repeat s (S n)) in Ha. apply repeat_spec in Ha. now subst. }
  eapply reach_inout; [cbn [client]; rewrite U; reflexivity|]. finish0.
  - walk. rewrite (exec_offsets imp _ _ _ l); [|reflexivity|apply zlen_spans|assumption]. invoke.
  - split; [reflexivity|]. split; [reflexivity|]. answer.
Qed.
Lemma reach_key_check k i n e : proper (SvpKeyCheck k i n e) -> complete (SvpKeyCheck k i n e) = true ->
  reaches imp junk initial (SvpKeyCheck k i n e).
Proof.
  start; split_all. assert (Z1 : u32 0) by (split; reflexivity || discriminate).
  destruct e as [|[|x b]]; try discriminate. destruct i as [[|[|y d]] off|ty h off]; try discriminate; unplace; inout; unfold CLEAR; finish.
Qed.

Lemma reach_cenc s : proper (CommonEncryption s) -> complete (CommonEncryption s) = true -> reaches imp junk initial (CommonEncryption s).
Proof.
  destruct s as [iv cb sb ls cx o i]. cbn [proper complete sm_iv sm_crypt sm_skip sm_lengths sm_context sm_out sm_in]. intros; split_all.
  assert (Z0 : is_u64 0) by (split; reflexivity || discriminate). assert (Z1 : u32 0) by (split; reflexivity || discriminate).
  assert (Hiv : zlen iv = 16) by lia.
  assert (Hn : is_u64 (Z.of_nat (length ls))) by (unfold is_u64, W64 in *; lia).
  assert (Hw : wrap64 (16 * Z.of_nat (length ls)) = 16 * Z.of_nat (length ls)) by (unfold wrap64; apply Z.mod_small; lia).
  assert (He : (16 * Z.of_nat (length ls) =? 0) = false) by (destruct ls; [discriminate|]; cbn [length]; lia).
  assert (Hi : in_place i = true).
  { destruct i as [[|]|]; auto; try discriminate. cbn in *. lia. }
  assert (Ho : out_place o = true).
  { destruct o as [[|]|]; auto; try discriminate. cbn in *. lia. }
  pose proof (zlen_pairs ls) as Hz.
  destruct o as [? ?|? ? ?]; destruct i as [? ?|? ? ?]; unplace;
   repeat match goal with
   | H : out_room (Clear (Out _ _ ?n) ?off) = true |- _ => assert ((n - off =? 0) = false) by (cbn [out_room] in H; lia); clear H
   | H : in_room (Clear (In ?b) ?off) = true |- _ =>
       assert ((zlen (skipn (Z.to_nat off) b) =? 0) = false)
         by (cbn [in_room] in H; unfold zlen in *; rewrite skipn_length; unfold is_u64 in *; lia); clear H
   end.
  all: eapply reach_inout; [cbn [client in_buf out_buf sm_iv sm_crypt sm_skip sm_lengths sm_context sm_out sm_in];
      unfold refuse_if; rewrite Hiv; change (negb (16 =? 16)) with false; cbv iota;
      repeat match goal with H : (?a <? ?b) = false |- context [?a <? ?b] => rewrite H end; reflexivity|].
  all: unfold CLEAR; finish0;
    [walk0; rewrite exec_alloc; flat; erewrite exec_fetch; [|reflexivity|side]; rewrite exec_fill;
     rewrite Nat2Z.id, lengths_of by assumption; walk; invoke
    |split; [reflexivity|split; [len8|answer]]].
Qed.

End All.
