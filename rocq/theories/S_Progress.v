(** Vocabulary for waiting and finishing. *)
From Verif Require Import Base M_ObjectStore M_Rights M_Svp M_Prog M_ApiKey M_ApiCipher M_Api S_Api M_World S_World S_Safe.

(** Calls that take the lock of a buffer while they use another one take them in the order
    [ord].  A call that uses one buffer at a time does so whatever the order. *)
Definition buffers_in_order (ord : Z -> nat) (sy : system) : Prop :=
  forall i t p q c x k, nth_error (s_threads sy) i = Some t -> t_prog t = Do (CLock q) k ->
    1 <= refs (t_hist t) (SSvps c) x p -> p <> q -> (ord p < ord q)%nat.
(** Some call can take its next step, whatever is chosen in it. *)
Definition goes_on (sy : system) : Prop := exists i, forall ch, exists sy', run_step sy i ch = RunTo sy'.
(** However the calls are scheduled and whatever is chosen, as long as [ok] holds all calls
    come to return: some call can always go on and this ends. *)
Inductive all_return (ok : system -> Prop) (sy : system) : Prop :=
| returned : at_rest sy -> all_return ok sy
| later : goes_on sy -> (forall i ch sy', run_step sy i ch = RunTo sy' -> ok sy' -> all_return ok sy') ->
          all_return ok sy.
