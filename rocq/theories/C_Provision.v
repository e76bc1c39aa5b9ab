(** C76: provisioning opens exactly the containers it was given, succeeds only if all are genuine, and leaves no key. *)
From Verif Require Import Base M_Provision S_Provision P_Provision.
Local Open Scope Z_scope.

(** Success means that the containers of the structure, in order and nothing else, were opened and found genuine. *)
Theorem C76_success_sound : forall x k input change n p w v, provision x k input change n p w = Answer v Ok ->
  exists s q, input = Some s /\ p = Some q /\ supported k /\
  w_checked v = w_checked w ++ containers k (change s) /\
  (forall c, In c (containers k (change s)) -> x_check x c (given q) = Ok).
Proof. exact success_sound. Qed.
Print Assumptions C76_success_sound.

(** With a proper structure, proper parameters, memory and room the call succeeds exactly if they are genuine. *)
Theorem C76_exact_partial : forall x k s n p w, fine x -> room x w -> supported k -> proper k s -> proper_parameters p -> n <> 0 ->
  exists v, (provision x k (Some s) stays n (Some p) w = Answer v Ok <-> forall c, In c (containers k s) -> x_check x c p = Ok) /\
            (exists st, provision x k (Some s) stays n (Some p) w = Answer v st).
Proof. exact complete. Qed.
Print Assumptions C76_exact_partial.

(** Whatever is given, whatever fails and whatever other threads do: no key stays, and none of the application's is released,
    as long as no pointer of the structure is cleared during the call. *)
Theorem C76_nothing_left_partial : forall x k input change n p w, (forall i, x_client x i = true) -> handles_valid x -> none_of_ours w ->
  (forall s, f_at (s_second (change s)) = None -> f_at (s_second s) = None) ->
  match provision x k input change n p w with
  | Bad => True
  | Answer v s => none_of_ours v /\ w_lost v = w_lost w
  end.
Proof. exact nothing_left. Qed.
Print Assumptions C76_nothing_left_partial.

(** What the checks refuse has no effect; kinds that are not supported are always refused. *)
Theorem C76_refused_early : forall x k input change n p w st, preprocess k input n p = Some st -> st <> Ok ->
  provision x k input change n p w = Answer w st.
Proof. exact refused_early. Qed.
Print Assumptions C76_refused_early.
Theorem C76_unsupported_kinds : forall x k s change n p w, ~ supported k -> n <> 0 ->
  provision x k (Some s) change n (Some p) w = Answer w (match k with OtherKind => InvalidParameter | _ => NotSupported end).
Proof. exact unsupported_kinds. Qed.
Print Assumptions C76_unsupported_kinds.

(** Without memory for the command the call reads through NULL, *)
Theorem C76_no_memory_refuted : exists x, x_session x = true /\ (forall n, x_client x n = true) /\
  provision x Widevine (Some toy) stays 32 (Some (params 624)) fresh = Bad.
Proof. exact no_memory_crashes. Qed.
Print Assumptions C76_no_memory_refuted.
(** the given length is not compared with the structure's, *)
Theorem C76_short_structure_refuted : exists s n, 0 < n <= s_there s /\ provision quiet Netflix (Some s) stays n (Some (params 624)) fresh = Bad.
Proof. exact short_structure. Qed.
Print Assumptions C76_short_structure_refuted.
(** parameters extended as documented overrun the stack, *)
Theorem C76_long_parameters_refuted : exists p, told p = Some (zlen p) /\ provision quiet Widevine (Some toy) stays 32 (Some p) fresh = Bad.
Proof. exact long_parameters. Qed.
Print Assumptions C76_long_parameters_refuted.
(** a model type that does not exist is accepted, *)
Theorem C76_wrong_model_refuted : exists s w, s_model s <> 0 /\ s_model s <> 1 /\ provision quiet PlayReady (Some s) stays 32 (Some (params 624)) fresh = Answer w Ok.
Proof. exact wrong_model. Qed.
Print Assumptions C76_wrong_model_refuted.
(** and a pointer cleared during the call makes it release a key of another thread. *)
Theorem C76_other_key_lost_refuted : exists x change w, (forall n, x_client x n = true) /\ handles_valid x /\
  provision x Netflix (Some toy) change 48 (Some (params 624)) fresh = Answer w NullParameter /\ w_lost w = true.
Proof. exact other_key_lost. Qed.
Print Assumptions C76_other_key_lost_refuted.

(** A Netflix structure with two containers, of which the second is genuine or not; another thread takes the slot that the
    first container's key has just left, and keeps its key. *)
Example C76_example :
  let x ok := MkSurroundings true true true (fun _ => true) (fun n => match n with O => Some 4 | _ => Some 5 end)
                (fun c _ => if (ok : bool) then Ok else if nth 0 c 0 =? 9 then InvalidKeyFormat else Ok)
                (fun n => match n with 2%nat => [Adds 4] | _ => [] end) in
  let s := MkStructure 0 (MkField 3 (Some [1; 2; 3; 4])) (MkField 2 (Some [9; 8])) good 48 in
  proper Netflix s /\ proper_parameters (params 624) /\ fine (x true) /\ room quiet fresh /\ handles_valid (x true) /\
  (exists w, provision (x true) Netflix (Some s) stays 48 (Some (params 624)) fresh = Answer w Ok /\
             w_checked w = [[1; 2; 3]; [9; 8]] /\ w_keys w 4 = Some App /\ w_keys w 5 = None) /\
  (exists w, provision (x false) Netflix (Some s) stays 48 (Some (params 624)) fresh = Answer w InvalidKeyFormat /\ w_keys w 4 = Some App).
Proof.
  cbv zeta. split.
  - split; [vm_compute; discriminate|]. split; [|split; [|intros _]]; (eexists; split; [reflexivity|]); vm_compute; split; congruence.
  - split; [split; [vm_compute; discriminate|eexists; vm_compute; reflexivity]|]. split; [unfold fine; auto|]. split.
    + intros n. exists 1. split; [reflexivity|]. split; [reflexivity|]. split; [discriminate|intros m []].
    + split; [intros [|n]; discriminate|]. split; eexists; (split; [vm_compute; reflexivity|]); auto.
Qed.
