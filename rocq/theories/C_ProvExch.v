(** C81: key exchange through the provider. *)
From Verif Require Import Base M_ProvExch S_ProvExch P_ProvExch.

(** For every history in which the secure API does not give a handle again while a context has it: what a context derives is
    a key with the value that the key it was told and the public key it was told agree on; it does so only for keys of one
    group that can be exchanged and with room for a handle; other keys are untouched; and otherwise nothing changes. *)
Theorem C81_value_partial : forall L l, handles_new (snd (run L l start)) nothing -> forall c q h g x g' p room ok h',
  s_ctx (heard (snd (run L l start))) c = Some q -> q_key q = Some (h, g, x) -> q_peer q = Some (g', p) ->
  let w := fst (run L l start) in
  let '(w', a) := step L (Derive c room ok h') w in
  (a = Secret h' -> 8 <= room /\ exchanges (g_kind g) /\ g = g' /\ w_keys w' h' = Some (Shared (l_agree L g x p)) /\ forall y, y <> h' -> w_keys w' y = w_keys w y) /\
  (a <> Secret h' -> w' = w /\ a <> Crash).
Proof. exact value. Qed.
Print Assumptions C81_value_partial.
Example C81_case : handles_new (snd (run toy both start)) nothing /\ commutes toy /\
  s_ctx (heard (snd (run toy both start))) 2%nat = Some (Say (Some (1, P256, 5)) (Some (P256, 21))) /\
  (let '(w, a) := step toy (Derive 2 8 true 3) (fst (run toy both start)) in a = Secret 3 /\ w_keys w 3 = Some (Shared 105) /\
   let '(w, a) := step toy (Derive 1 8 true 4) w in a = Secret 4 /\ w_keys w 4 = Some (Shared 105)).
Proof. exact both_right. Qed.

(** It does derive it, if the key was not released and nothing fails. *)
Theorem C81_given_partial : forall L l, handles_new (snd (run L l start)) nothing -> forall c q h g x p room h',
  s_ctx (heard (snd (run L l start))) c = Some q -> q_key q = Some (h, g, x) -> q_peer q = Some (g, p) -> exchanges (g_kind g) -> 8 <= room ->
  s_key (heard (snd (run L l start))) h <> None -> w_keys (fst (run L l start)) h' = None -> snd (step L (Derive c room true h') (fst (run L l start))) = Secret h'.
Proof. exact given. Qed.
Print Assumptions C81_given_partial.

(** Two contexts with each other's public keys derive the same. *)
Theorem C81_agree_partial : forall L l, handles_new (snd (run L l start)) nothing -> forall c d p q h1 h2 g x y room ok h room' ok' h' w1 w2,
  commutes L -> s_ctx (heard (snd (run L l start))) c = Some p -> s_ctx (heard (snd (run L l start))) d = Some q ->
  q_key p = Some (h1, g, x) -> q_peer p = Some (g, l_pub L g y) -> q_key q = Some (h2, g, y) -> q_peer q = Some (g, l_pub L g x) ->
  step L (Derive c room ok h) (fst (run L l start)) = (w1, Secret h) -> step L (Derive d room' ok' h') w1 = (w2, Secret h') ->
  exists v, w_keys w2 h = Some (Shared v) /\ w_keys w2 h' = Some (Shared v).
Proof. exact agree. Qed.
Print Assumptions C81_agree_partial.

(** Contexts with a key and another's public key can be used and copied, and announce the size of a handle. *)
Theorem C81_usable_partial : forall L l, handles_new (snd (run L l start)) nothing -> forall c q,
  s_ctx (heard (snd (run L l start))) c = Some q -> q_key q <> None -> q_peer q <> None ->
  (forall room ok h, snd (step L (Derive c room ok h) (fst (run L l start))) <> Crash) /\ (forall d ok, snd (step L (Dup c d ok) (fst (run L l start))) <> Crash) /\
  snd (step L (Size c) (fst (run L l start))) = Told 8.
Proof. exact no_crash. Qed.
Print Assumptions C81_usable_partial.
Theorem C81_refused_keeps : forall L o w, snd (step L o w) = Refused -> fst (step L o w) = w.
Proof. exact refused_keeps. Qed.
Print Assumptions C81_refused_keeps.
Example C81_refused_case : snd (step toy (Derive 0 7 true 9) (fst (run toy both start))) = Refused.
Proof. exact eq_refl. Qed.

(** Finding: deriving before the other's key or the own key is set reads through NULL, and so does copying such a context. *)
Theorem C81_empty_refuted : Forall (fun e => snd e = Fine) (snd (run toy no_peer start)) /\ snd (step toy (Derive 0 8 true 2) (fst (run toy no_peer start))) = Crash /\
  snd (step toy (Dup 0 1 true) (fst (run toy no_peer start))) = Crash /\
  Forall (fun e => snd e = Fine) (snd (run toy no_key start)) /\ snd (step toy (Derive 0 8 true 2) (fst (run toy no_key start))) = Crash.
Proof. exact empty_wrong. Qed.
Print Assumptions C81_empty_refuted.
(** Finding: contexts remember handles only; a handle given again makes a context derive from another key than the one it was
    initialised with. *)
Theorem C81_again_refuted : exists q, s_ctx (heard (snd (run toy again start))) 0%nat = Some q /\ q_key q = Some (1, P256, 5) /\ q_peer q = Some (P256, 21) /\
  let '(w, a) := step toy (Derive 0 8 true 2) (fst (run toy again start)) in a = Secret 2 /\ w_keys w 2 = Some (Shared (l_agree toy P256 9 21)) /\ l_agree toy P256 9 21 <> l_agree toy P256 5 21.
Proof. exact again_wrong. Qed.
Print Assumptions C81_again_refuted.
