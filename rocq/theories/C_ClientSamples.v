(** Property theorems: several samples in one call of the client library. *)
From Verif Require Import Base M_KeyStore M_Marshal S_Marshal M_Client S_Client M_ClientSamples S_ClientSamples P_ClientSamples.

(** ** C45: the samples of a call reach the implementation one after the other, each where the one before has stopped *)
Theorem C45_samples_in_order : forall buffers imp contents junk initial l o,
  (forall i, word_sized (imp i)) -> (forall i, allocator (junk i)) -> (forall i, is_u64 (initial i)) ->
  (forall b, wf_place (buffers b)) -> sized contents buffers -> (forall b, is_u64 (o b)) -> Forall wf_tsample l -> l <> [] ->
  exists st calls o', lib_process buffers imp contents junk initial (Some l) o = Some (st, calls, o') /\
                      in_order buffers imp contents 0 o l st calls o'.
Proof. exact process_in_order. Qed.
Print Assumptions C45_samples_in_order.

(** A call that succeeds has done every sample, and clear buffers have moved by the sum of what was done. *)
Theorem C45_samples_all_done : forall buffers imp contents junk initial l o calls o',
  (forall i, word_sized (imp i)) -> (forall i, allocator (junk i)) -> (forall i, is_u64 (initial i)) ->
  (forall b, wf_place (buffers b)) -> sized contents buffers -> (forall b, is_u64 (o b)) -> Forall wf_tsample l ->
  lib_process buffers imp contents junk initial (Some l) o = Some (OK, calls, o') ->
  length calls = length l /\
  forall b, (match buffers b with Protected _ _ => False | _ => True end) ->
  wrap64 (o' b) = wrap64 (o b + movement imp 0 b l calls).
Proof. exact process_ok. Qed.
Print Assumptions C45_samples_all_done.

(** Finding: the implementation looks at all samples before it starts with one, but the library
    gives it one at a time: a call refused because of a missing pointer has decrypted the samples
    before and moved their buffers. *)
Theorem C45_samples_undone_refuted : forall buffers imp contents junk initial o s s',
  (forall i, word_sized (imp i)) -> (forall i, allocator (junk i)) -> (forall i, is_u64 (initial i)) ->
  (forall b, wf_place (buffers b)) -> sized contents buffers -> (forall b, is_u64 (o b)) -> wf_tsample s -> wf_tsample s' ->
  usable buffers o s = true -> r_status (imp 0%nat (request buffers contents 0 o s)) = OK -> ts_iv s' = None ->
  exists st o', lib_process buffers imp contents junk initial (Some [s; s']) o = Some (st, [request buffers contents 0 o s], o') /\
    (st = NULL_PARAMETER \/ st = INVALID_PARAMETER) /\
    forall b, o' b = moved_on buffers o s (imp 0%nat (request buffers contents 0 o s)) b.
Proof. exact process_undone. Qed.
Print Assumptions C45_samples_undone_refuted.

(** Two samples from buffer 0 to buffer 1, five and three bytes. *)
Example C45_samples_nontrivial :
  Forall wf_tsample [sample_of 5; sample_of 3] /\ (forall b, wf_place (two_buffers b)) /\
  seen (lib_process two_buffers decrypts two_data leftover (fun _ => 77) (Some [sample_of 5; sample_of 3]) (fun _ => 0)) =
  Some (OK,
   [CommonEncryption (MkSample (repeat 1 16) 1 9 [(0, 5)] 3 (Clear (Out 9 200 8) 0) (Clear (In [0; 1; 2; 3; 4; 5; 6; 7]) 0));
    CommonEncryption (MkSample (repeat 1 16) 1 9 [(0, 3)] 3 (Clear (Out 9 205 3) 0) (Clear (In [5; 6; 7]) 0))], 8, 8).
Proof.
  split; [|split; [intros [|b]; split; discriminate || reflexivity|vm_compute; reflexivity]].
  repeat constructor; cbn; discriminate || reflexivity.
Qed.
(** The second sample has no initialisation vector: the first one has been done. *)
Example C45_samples_undone_case :
  seen (lib_process two_buffers decrypts two_data leftover (fun _ => 77)
          (Some [sample_of 5; MkTSample None 1 9 (Some [(0, 3)]) 3 (Some 1%nat) (Some 0%nat)]) (fun _ => 0)) =
  Some (NULL_PARAMETER,
   [CommonEncryption (MkSample (repeat 1 16) 1 9 [(0, 5)] 3 (Clear (Out 9 200 8) 0) (Clear (In [0; 1; 2; 3; 4; 5; 6; 7]) 0))], 5, 5).
Proof. vm_compute. reflexivity. Qed.
(** Finding: with one description as output and input the buffer moves twice, and the second sample
    starts beyond the first. *)
Example C45_samples_in_place_case :
  seen (lib_process two_buffers decrypts two_data leftover (fun _ => 77) (Some [in_place_of 3; in_place_of 2]) (fun _ => 0)) =
  Some (OK,
   [CommonEncryption (MkSample (repeat 1 16) 1 9 [(0, 3)] 3 (Clear (Out 7 100 8) 0) (Clear (In [0; 1; 2; 3; 4; 5; 6; 7]) 0));
    CommonEncryption (MkSample (repeat 1 16) 1 9 [(0, 2)] 3 (Clear (Out 7 106 2) 0) (Clear (In [6; 7]) 0))], 10, 0).
Proof. vm_compute. reflexivity. Qed.
