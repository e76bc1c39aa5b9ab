(** Property theorems: digests through the OpenSSL provider. *)
From Verif Require Import Base M_ProvDigest S_ProvDigest P_ProvDigest.

(** ** C69: digests through the provider are those of the data given *)
(** What is written is the digest of all data since the initialisation, in whatever pieces, and
    whether to the context itself or to the one it is a copy of; it fits. *)
Theorem C69_digest_of_the_data : forall hash l c out outl n f late b k m a, hash_sizes hash ->
  history hash (l ++ [Final (Some c) out outl n f late]) = (Final (Some c) out outl n f late, Written b k) :: history hash l ->
  message (history hash l) c = Some m -> made_for (history hash l) c = Some a ->
  b = hash a m /\ k = digest_size a /\ k <= n.
Proof. exact (fun hash l c out outl n f late b k m a H => final_value hash H l c out outl n f late b k m a). Qed.
Print Assumptions C69_digest_of_the_data.

(** And it is written, unless the calls below fail. *)
Theorem C69_digest_given : forall hash l c n late m a, hash_sizes hash ->
  message (history hash l) c = Some m -> made_for (history hash l) c = Some a ->
  List.In c (held (history hash l)) -> digest_size a <= n ->
  history hash (l ++ [Final (Some c) true true n None late]) =
    (Final (Some c) true true n None late, Written (hash a m) (digest_size a)) :: history hash l.
Proof. exact (fun hash l c n late m a H => final_given hash H l c n late m a). Qed.
Print Assumptions C69_digest_given.

(** What is taken from OpenSSL belongs to the contexts the caller holds, and is given back with them. *)
Theorem C69_nothing_left : forall hash l, let k := zlen (held (history hash l)) in
  w_blocks (after hash l) = k /\ w_refs (after hash l) = k /\ w_evps (after hash l) = k.
Proof. exact accounts. Qed.
Print Assumptions C69_nothing_left.

(** A call touches memory given back only if the caller names a context they do not hold. *)
Theorem C69_no_stale_context : forall hash l o, history hash (l ++ [o]) = (o, Misuse) :: history hash l ->
  exists c, ~ List.In c (held (history hash l)) /\
    match o with New _ _ _ => False | Dup x _ | Init x _ | Update x _ _ | Final x _ _ _ _ _ | Free x => x = Some c end.
Proof. exact misuse_only. Qed.
Print Assumptions C69_no_stale_context.

(** Nothing is written behind the caller's buffer.  Missing: copies, refuted below. *)
Theorem C69_within_the_buffer_partial : forall hash l o b, hash_sizes hash ->
  history hash (l ++ [o]) = (o, Overrun b) :: history hash l ->
  exists c n f late a, o = Final (Some c) true true n f late /\ copied (history hash l) c = true /\
    made_for (history hash l) c = Some a /\ n < digest_size a.
Proof. exact (fun hash l o b H => overrun_copies hash H l o b). Qed.
Print Assumptions C69_within_the_buffer_partial.

(** Finding: a copy does not know the size of its digest and writes it into any buffer. *)
Theorem C69_copy_overruns_refuted : exists hash l o b, hash_sizes hash /\
  history hash (l ++ [o]) = (o, Overrun b) :: history hash l.
Proof. exact copy_overruns. Qed.
Print Assumptions C69_copy_overruns_refuted.

(** Finding: the parameters announced as writable are the readable ones, and conversely. *)
Theorem C69_listed_parameters_refuted : exists (name : Type) (can_get can_set : name -> bool) names n,
  List.In n (settable_ctx_params name can_get can_set names) /\ set_ctx_param name can_get can_set n = false /\
  ~ List.In n (gettable_ctx_params name can_get can_set names) /\ get_ctx_param name can_get can_set n = true.
Proof. exact listed_wrong. Qed.
Print Assumptions C69_listed_parameters_refuted.

(** Data before and after a copy; a refused call in between; the original given back. *)
Example C69_nontrivial :
  let h := history toy example_life in
  message h 1 = Some [1; 2; 3] /\ made_for h 1 = Some SHA1 /\ held h = [1%nat] /\ message h 0 = None /\
  List.In (Final (Some 0%nat) true true 20 None None, Written (toy SHA1 [1; 2; 9]) 20) h /\
  history toy (example_life ++ [Final (Some 1%nat) true true 20 None None]) =
    (Final (Some 1%nat) true true 20 None None, Written (toy SHA1 [1; 2; 3]) 20) :: h.
Proof. vm_compute. intuition reflexivity. Qed.
