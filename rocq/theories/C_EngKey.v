(** C80: keys loaded through the engine. *)
From Verif Require Import Base M_EngKey S_EngKey P_EngKey.

(** While there is memory, and no structure of libcrypto is larger than what is set aside for it: in every history in which
    only keys loaded through the engine are used with it, no call reads or writes outside its memory. *)
Theorem C80_no_harm_partial : forall l, Forall memory_suffices l -> proper (snd (run l start)) nothing -> Forall (fun e => snd e <> Crash) (snd (run l start)).
Proof. exact no_harm. Qed.
Print Assumptions C80_no_harm_partial.
Example C80_case : Forall memory_suffices two_keys /\ proper (snd (run two_keys start)) nothing /\ map snd (snd (run two_keys start)) = [Key 1; Key 2; Key 3; Key 4; Handle 7 Rsa; Fine] /\
  key (heard (snd (run two_keys start))) 1 = Some (7, Rsa) /\ key (heard (snd (run two_keys start))) 3 = Some (8, Curve).
Proof. exact two_keys_right. Qed.

(** A loaded key stands for the handle it was loaded from, with the type in its header, until it is freed, whatever else
    is loaded, made, used and freed. *)
Theorem C80_handle_partial : forall l p h t, Forall memory_suffices l -> key (heard (snd (run l start))) p = Some (h, t) ->
  snd (step (Data p) (fst (run l start))) = Handle h t /\ snd (step (Derive p) (fst (run l start))) = Handle h t.
Proof. exact handle_kept. Qed.
Print Assumptions C80_handle_partial.

(** Loading yields a key with the public key of the handle, tied to the engine; other keys stay as they were. *)
Theorem C80_load : forall w h t k pub u lk p, l_evp lk = true -> l_room lk = true -> l_eng lk = true -> u <= 512 -> t <> Sym -> w_pkeys w p = None ->
  let '(w', a) := step (Load h (Some t) (Some (k, pub, u)) lk p) w in a = Key p /\ w_pkeys w' p = Some (MkKey (Some k) (Some (Extended pub h t)) true) /\
  forall q, q <> p -> w_pkeys w' q = w_pkeys w q.
Proof. exact load_right. Qed.
Print Assumptions C80_load.
Theorem C80_load_symmetric : forall w h public lk p, l_raw lk = true -> l_eng lk = true -> w_pkeys w p = None ->
  let '(w', a) := step (Load h (Some Sym) public lk p) w in a = Key p /\ w_pkeys w' p = Some (MkKey (Some Sym) (Some (Extended 0 h Sym)) true) /\
  forall q, q <> p -> w_pkeys w' q = w_pkeys w q.
Proof. exact load_symmetric. Qed.
Print Assumptions C80_load_symmetric.

(** A load that answers NULL because of the secure API leaves nothing behind. *)
Theorem C80_failed_partial : forall w h header public lk p, memory_suffices (Load h header public lk p) -> snd (step (Load h header public lk p) w) = Null ->
  fst (step (Load h header public lk p) w) = w.
Proof. exact failed_load. Qed.
Print Assumptions C80_failed_partial.
Example C80_failed_case : step (Load 7 (Some Rsa) None all_well 1) start = (start, Null) /\ step (Load 7 None None all_well 1) start = (start, Null).
Proof. exact (conj eq_refl eq_refl). Qed.

(** Once all keys are freed, nothing is left of them. *)
Theorem C80_nothing_left_partial : forall l, Forall memory_suffices l -> (forall p, key (heard (snd (run l start))) p = None /\ own (heard (snd (run l start))) p = false) ->
  w_evps (fst (run l start)) = 0 /\ w_structs (fst (run l start)) = 0 /\ w_inner (fst (run l start)) = 0.
Proof. exact nothing_left. Qed.
Print Assumptions C80_nothing_left_partial.

(** Finding: when there is no memory for the handle, the load answers a key all the same.  It is an empty one for RSA, EC
    and DH (the structure and its numbers are never freed); for the other curves it is a public key without handle, and
    using it with the engine reads past its structure. *)
Theorem C80_no_memory_refuted :
  (forall k, k = Rsa \/ k = Ec \/ k = Dh -> map snd (snd (run (no_memory k) start)) = [Key 1] /\ snd (step (Data 1) (fst (run (no_memory k) start))) = Refused /\
    let w := fst (step (Free 1) (fst (run (no_memory k) start))) in w_evps w = 0 /\ w_structs w = 1 /\ w_inner w = 1) /\
  map snd (snd (run no_memory_curve start)) = [Key 1] /\ snd (step (Data 1) (fst (run no_memory_curve start))) = Crash.
Proof. exact no_memory_wrong. Qed.
Print Assumptions C80_no_memory_refuted.

(** Finding: whether a key was loaded through the engine is read from an offset past the structures of other keys: a key
    the application made itself, used with the engine, is read beyond its end instead of being refused. *)
Theorem C80_own_key_refuted : map snd (snd (run own_key start)) = [Key 1] /\ snd (step (Data 1) (fst (run own_key start))) = Crash /\ snd (step (Derive 1) (fst (run own_key start))) = Crash.
Proof. exact own_key_wrong. Qed.
Print Assumptions C80_own_key_refuted.

(** Finding: a key that could not be tied to the engine is answered as loaded. *)
Theorem C80_no_engine_refuted : map snd (snd (run no_engine start)) = [Key 1] /\ option_map p_engine (w_pkeys (fst (run no_engine start)) 1) = Some false.
Proof. exact no_engine_wrong. Qed.
Print Assumptions C80_no_engine_refuted.
