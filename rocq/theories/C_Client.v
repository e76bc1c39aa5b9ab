(** Property theorems: calls through the client library. *)
From Verif Require Import Base M_KeyStore M_Marshal S_Marshal M_Client S_Client P_Client7.

(** ** C45: a call through the library is a call of the implementation *)
(** Missing for the full statement: writes with different entries in the table (refuted below);
    sa_key_provision_ta.  Several samples in one call: C_ClientSamples.v. *)
Theorem C45_reaches_partial : forall implementation junk initial a,
  word_sized implementation -> allocator junk -> is_u64 initial ->
  proper a -> complete a = true -> uniform a -> reaches implementation junk initial a.
Proof. exact all_reach. Qed.
Print Assumptions C45_reaches_partial.

Theorem C45_incomplete_refused : forall implementation junk initial a,
  allocator junk -> is_u64 initial -> proper a -> complete a = false -> refused implementation junk initial a.
Proof. exact all_refused. Qed.
Print Assumptions C45_incomplete_refused.

(** Clear memory with offsets, arguments of every kind. *)
Example C45_nontrivial :
  proper example_call /\ complete example_call = true /\ uniform example_call /\
  lib_call example_answer (fun _ n => repeat 165 n) 77 example_call =
    Some (MkReply OK [2; 6; 4] [], [CipherProcess (Some (Clear (Out 5 104 12) 0)) 3 (Clear (In [12; 13; 14]) 0) 2]).
Proof. repeat split; try discriminate; reflexivity. Qed.
Example C45_refused_nontrivial :
  let a := CipherProcess (Some (Clear (Out 5 100 16) 17)) 3 (Clear (In [10; 11; 12; 13; 14]) 2) 2 in
  proper a /\ complete a = false /\
  lib_call example_answer (fun _ n => repeat 165 n) 77 a = Some (MkReply INVALID_PARAMETER [] [], []).
Proof. repeat split; try discriminate; reflexivity. Qed.

(** Finding: the library sends the first entry of the table for every entry. *)
Theorem C45_svp_write_repeats : forall implementation junk initial buffer data first rest,
  word_sized implementation -> allocator junk -> is_u64 initial ->
  proper (SvpWrite buffer data (first :: rest)) -> complete (SvpWrite buffer data (first :: rest)) = true ->
  exists r, lib_call implementation junk initial (SvpWrite buffer data (first :: rest)) =
            Some (r, [SvpWrite buffer data (repeat first (S (length rest)))]).
Proof. exact write_repeats. Qed.
Print Assumptions C45_svp_write_repeats.

Theorem C45_svp_write_refuted : exists a, proper a /\ complete a = true /\
  forall implementation junk initial, word_sized implementation -> allocator junk -> is_u64 initial ->
  ~ reaches implementation junk initial a.
Proof. exact write_not_reached. Qed.
Print Assumptions C45_svp_write_refuted.

(** Finding: a key cannot be unwrapped with AES-GCM or ChaCha20-Poly1305 without additional data. *)
Theorem C45_unwrap_without_aad_refuted : forall implementation junk initial rights key data iv tag alg,
  allocator junk -> is_u64 initial ->
  proper (KeyUnwrap rights 0 None alg (UnwGcm (In iv) (InNull 0) (In tag)) key (In data)) ->
  refused implementation junk initial (KeyUnwrap rights 0 None alg (UnwGcm (In iv) (InNull 0) (In tag)) key (In data)).
Proof. exact unwrap_without_aad. Qed.
Print Assumptions C45_unwrap_without_aad_refuted.
Example C45_unwrap_nontrivial :
  proper (KeyUnwrap (repeat 0 608) 0 None 5 (UnwGcm (In (repeat 1 12)) (InNull 0) (In (repeat 2 16))) 3 (In (repeat 4 16))).
Proof. repeat split; discriminate || reflexivity || (intros; reflexivity). Qed.

(** ** C34: the requests of the library, when nobody changes the command structure *)
Theorem C34_library : forall junk initial a cmd ps ms l,
  allocator junk -> is_u64 initial -> proper a ->
  client junk initial a = Send cmd ps ms -> runs (handler (params_of ps) cmd) l ->
  (forall c, command l = Some c -> memory_of ms 0 = MBytes c) ->
  Forall (allowed (params_of ps)) l.
Proof. exact library_allowed. Qed.
Print Assumptions C34_library.
Example C34_library_case : exists l c ps ms, client (fun _ n => repeat 165 n) 0 (KeyRelease 3) = Send 12 ps ms /\
  runs (handler (params_of ps) 12) l /\ command l = Some c /\ memory_of ms 0 = MBytes c /\ List.In (EInvoke (KeyRelease 3)) l.
Proof. exact library_run. Qed.
