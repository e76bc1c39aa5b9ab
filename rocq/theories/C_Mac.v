(** C28: MAC contexts, over every history of calls on one context.  [alg] 0 is CMAC and
    1 HMAC with digest [d]; [cs] are the calls made so far, [h] the calls with their results,
    [x] the context they lead to. *)
From Verif Require Import Base M_Rights M_Mac S_Mac P_Mac.

(** The MAC delivered is that of everything accepted so far, in order; it fills the first
    bytes of the buffer and the rest is left alone.  OpenSSL must not have failed while it was
    fed: it does not say what a failed update leaves behind. *)
Theorem C28_value : forall L alg d key cs x h, good_lib L -> mac_known alg d -> Forall (sound_call alg d) cs ->
  mac_history L (mac_new alg d key) cs = (x, h) ->
  forall b n a x' b' n', sound_call alg d (CallCompute (Some b) n a) -> ~ Exists feeding_failed h ->
  mac_step L x (CallCompute (Some b) n a) = (x', Ret OK b' n') ->
  n' = mac_size alg d /\ b' = mac_of L alg d key (fed h) ++ skipn (Z.to_nat n') b.
Proof. exact mac_value. Qed.
Print Assumptions C28_value.

Example C28_value_case :
  let cs := [CallProcess (Bytes [1; 2; 3]) (MkLibAns true []); CallProcess (Null 4) (MkLibAns true []);
             CallCompute None 0 (MkLibAns true []); CallCompute (Some [9]) 1 (MkLibAns true (repeat 0 32));
             CallProcessKey (OK, Some (MkKey (MkRights [] 0 0 0 0 []) 0 no_params 16 (repeat 5 16))) (MkLibAns true []);
             CallProcess (Bytes [7]) (MkLibAns true [])] in
  let '(x, h) := mac_history toy_lib (mac_new 1 1 (repeat 8 16)) cs in
  fed h = [1; 2; 3] ++ repeat 5 16 ++ [7] /\
  snd (mac_step toy_lib x (CallCompute (Some (repeat 0 40)) 40 (MkLibAns true (repeat 0 32)))) =
    Ret OK (l_hmac toy_lib 1 (repeat 8 16) ([1; 2; 3] ++ repeat 5 16 ++ [7]) ++ repeat 0 8) 32.
Proof. vm_compute. split; reflexivity. Qed.

(** It is delivered as long as none has been asked for before, data too is accepted. *)
Theorem C28_available : forall L alg d key cs x h, good_lib L -> mac_known alg d -> Forall (sound_call alg d) cs ->
  mac_history L (mac_new alg d key) cs = (x, h) ->
  forall b n a, sound_call alg d (CallCompute (Some b) n a) -> ~ Exists finishing h ->
  mac_size alg d <= n -> la_ok a = true ->
  exists x' b', mac_step L x (CallCompute (Some b) n a) = (x', Ret OK b' (mac_size alg d)).
Proof. exact mac_available. Qed.
Print Assumptions C28_available.
Theorem C28_data_accepted : forall L alg d key cs x h, good_lib L -> mac_known alg d -> Forall (sound_call alg d) cs ->
  mac_history L (mac_new alg d key) cs = (x, h) ->
  forall i a, ~ Exists finishing h -> bad_input i = false -> la_ok a = true ->
  snd (mac_step L x (CallProcess i a)) = Ret OK [] 0.
Proof. exact data_accepted. Qed.
Print Assumptions C28_data_accepted.

(** Asking for the length answers it and changes nothing. *)
Theorem C28_length_query : forall L alg d key cs x h, good_lib L -> mac_known alg d -> Forall (sound_call alg d) cs ->
  mac_history L (mac_new alg d key) cs = (x, h) ->
  forall n a, exists x', mac_step L x (CallCompute None n a) = (x', Ret OK [] (mac_size alg d)) /\ x' = x.
Proof. exact length_query. Qed.
Print Assumptions C28_length_query.

(** Too small a buffer is refused, untouched, and changes nothing. *)
Theorem C28_small_buffer : forall L alg d key cs x h, good_lib L -> mac_known alg d -> Forall (sound_call alg d) cs ->
  mac_history L (mac_new alg d key) cs = (x, h) ->
  forall b n a, sound_call alg d (CallCompute (Some b) n a) -> n < mac_size alg d ->
  mac_step L x (CallCompute (Some b) n a) = (x, Ret INVALID_PARAMETER b n).
Proof. exact small_buffer. Qed.
Print Assumptions C28_small_buffer.

(** Once a MAC has been delivered every further call that feeds data or asks for the MAC is
    refused; the context and the buffer offered stay as they are. *)
Theorem C28_refused_after : forall L alg d key cs x h, good_lib L -> mac_known alg d -> Forall (sound_call alg d) cs ->
  mac_history L (mac_new alg d key) cs = (x, h) ->
  forall c, sound_call alg d c -> Exists finishing h -> feeds c \/ asks_for_mac c ->
  exists s b n, mac_step L x c = (x, Ret s b n) /\ s <> OK /\
    match c with CallCompute (Some b0) n0 _ => b = b0 /\ n = n0 | _ => True end.
Proof. exact refused_after. Qed.
Print Assumptions C28_refused_after.

Example C28_refused_case :
  let '(x, h) := mac_history toy_lib (mac_new 0 0 (repeat 8 16))
    [CallProcess (Bytes [1]) (MkLibAns true []); CallCompute (Some (repeat 0 16)) 16 (MkLibAns true (repeat 0 16))] in
  Exists finishing h /\ ~ Exists feeding_failed h /\
  snd (mac_step toy_lib x (CallProcess (Bytes [2]) (MkLibAns true []))) = Ret INVALID_PARAMETER [] 0.
Proof.
  cbn -[toy_lib]. split; [right; left; left; reflexivity|]. split; [|reflexivity].
  intros H. inversion H as [? ? X|? ? X]; [exact X|]. inversion X as [? ? Y|? ? Y]; [exact Y|inversion Y].
Qed.

(** No call writes outside the buffer it was given. *)
Theorem C28_in_bounds : forall L alg d key cs x h, good_lib L -> mac_known alg d -> Forall (sound_call alg d) cs ->
  mac_history L (mac_new alg d key) cs = (x, h) ->
  forall c, sound_call alg d c -> snd (mac_step L x c) <> Oob.
Proof. exact in_bounds. Qed.
Print Assumptions C28_in_bounds.
