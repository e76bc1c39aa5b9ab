(** Waiting and finishing in the whole system: any number of calls in flight. *)
From Verif Require Import Base M_ObjectStore M_Rights M_Svp M_Prog M_ApiKey M_ApiCipher M_Api S_Api M_World S_World S_Safe S_Progress
  P_Progress P_ProgressRuns.

(** C64.  Calls never wait for each other in a circle: as long as a call has not returned,
    some call can take its next step.  Missing: calls that use two buffers and do not take
    them in a common order (below), and the situations excluded by [calm_system]. *)
Theorem C64_some_call_goes_on_partial : forall ord sy, reaches sy -> calm_system sy -> buffers_in_order ord sy ->
  ~ at_rest sy -> exists i, forall ch, exists sy', run_step sy i ch = RunTo sy'.
Proof. exact some_call_goes_on. Qed.
Print Assumptions C64_some_call_goes_on_partial.
Example C64_waiting_case : exists sy, reaches sy /\ calm_system sy /\ buffers_in_order (fun _ => 0%nat) sy /\ ~ at_rest sy /\
  length (s_threads sy) = 6%nat /\
  (forall ch, run_step sy 4 ch = RunBlocked) /\ (forall ch, run_step sy 5 ch = RunBlocked).
Proof. exact waiting_case. Qed.

(** C64.  No run of the calls in progress goes on for ever. *)
Theorem C64_no_endless_run : forall f : nat -> system,
  ~ forall n, exists i ch, run_step (f n) i ch = RunTo (f (S n)).
Proof. exact no_endless_run. Qed.
Print Assumptions C64_no_endless_run.

(** C64.  So all calls return, however they are scheduled. *)
Theorem C64_all_calls_return_partial : forall ord sy, reaches sy -> calm_system sy -> buffers_in_order ord sy ->
  all_return (fun sy => calm_system sy /\ buffers_in_order ord sy) sy.
Proof. exact all_calls_return. Qed.
Print Assumptions C64_all_calls_return_partial.

(** C64 refuted: two buffers copied into each other at the same time. *)
Theorem C64_copies_stuck_refuted : exists sy, reaches sy /\ calm_system sy /\ ~ at_rest sy /\
  forall i ch sy', run_step sy i ch <> RunTo sy'.
Proof. exact copies_stuck. Qed.
Print Assumptions C64_copies_stuck_refuted.
