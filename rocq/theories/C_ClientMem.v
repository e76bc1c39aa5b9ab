(** C84 — The client library gives back the memory of a call, once. *)
From Verif Require Import Base M_ClientMem S_ClientMem P_ClientMem.

Theorem C84_given_back_partial : forall shared f o sent_ok, ~ known_bad shared f o sent_ok -> clean (call shared f o sent_ok).
Proof. exact all_clean. Qed.
Print Assumptions C84_given_back_partial.
(* unwrapping with all parameters, and with shared memory running out at the third *)
Example C84_given_back_example :
  ~ known_bad true KeyUnwrap [Made; Made; Made; Failed] true /\
  fst (makes true (made KeyUnwrap) [Made; Made; Made; Failed] start) <> start /\
  m_live (fst (makes true (made KeyUnwrap) [Made; Made; Made; Failed] start)) = [2; 1; 0]%nat /\
  m_live (fst (makes false (made KeyUnwrap) [Made; Made; Made; Made] start)) = [1; 0]%nat.
Proof. repeat split; vm_compute; congruence || tauto. Qed.

(** The header of a key, with shared memory, is fetched at the price of a block each time. *)
Theorem C84_header_refuted : forall sent_ok, call true KeyHeader [Made; Made] sent_ok = Some [1%nat].
Proof. exact header_leaks. Qed.
Print Assumptions C84_header_refuted.
(** Provisioning without memory for its command goes through a null pointer. *)
Theorem C84_provision_refuted : forall shared o sent_ok, call shared KeyProvision (Failed :: o) sent_ok = None.
Proof. exact provision_crashes. Qed.
Print Assumptions C84_provision_refuted.

(** Common encryption of samples, as long as memory for parameters is had: all or the first ones are processed, in order, and
    nothing is kept. *)
Theorem C84_samples_partial : forall shared memory l, l <> [] -> existsb memory_short l = false ->
  common_encryption shared memory l = if memory then Some (forallb right l, up_to_first_wrong 0 l, []) else Some (false, [], []).
Proof. exact common_clean. Qed.
Print Assumptions C84_samples_partial.
Example C84_samples_example :
  existsb memory_short [Sent; Sent; BadLater 2; Sent] = false /\ up_to_first_wrong 0 [Sent; Sent; BadLater 2; Sent] = [0; 1]%nat.
Proof. split; reflexivity. Qed.
(** With shared memory running out for all samples but the last, only the last is processed, the call says that all is well, and
    a block is lost for each sample left out. *)
Theorem C84_samples_skipped_refuted : forall n, exists left,
  common_encryption true true (repeat (NoParam 1) n ++ [Sent]) = Some (true, [n], left) /\ length left = n.
Proof. exact skipped. Qed.
Print Assumptions C84_samples_skipped_refuted.
