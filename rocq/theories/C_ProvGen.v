(** C77: keys made and imported through the provider. *)
From Coq Require Import String.
From Verif Require Import Base M_ProvGen S_ProvGen P_ProvGen.

(** For every careful history of contexts, settings, templates, generated and imported objects: a context to make keys
    asks the secure API for what was asked of it, or its defaults, or what its template is, and of its type; *)
Theorem C77_asked_partial : forall l c t wi o ok, careful l start unheard ->
  of_ctx (heard (snd (run l start))) c = Some (t, true, wi) -> of_key (heard (snd (run l start))) o = None ->
  exists r, snd (step (Gen c o ok) (fst (run l start))) = Asked r /\ serves r wi /\ of_type t r.
Proof. exact asked. Qed.
Print Assumptions C77_asked_partial.
(** and the key behind every object is of the object's type and what was asked for or imported. *)
Theorem C77_kinds_partial : forall l o x r, careful l start unheard -> w_k (fst (run l start)) o = Some x -> k_key x = Some r ->
  of_type (k_ty x) r /\ exists wi, of_key (heard (snd (run l start))) o = Some wi /\ serves r wi.
Proof. exact kinds. Qed.
Print Assumptions C77_kinds_partial.
(** Importing numbers that can be read and are not too large does no harm to memory. *)
Theorem C77_import_safe_partial : forall t s, readable s -> import t s <> inr OutOfBounds /\ import t s <> inr FreedTwice.
Proof. exact import_safe. Qed.
Print Assumptions C77_import_safe_partial.

(** False: that a modulus is of the bits asked for. *)
Theorem C77_bits_refuted : fine [Init 0 RSA true (bits_are 2049)] /\ asks [Init 0 RSA true (bits_are 2049)] (AskRsa 256).
Proof. exact odd_bits. Qed.
Print Assumptions C77_bits_refuted.
(** False: that a setting refused leaves the context as it was. *)
Theorem C77_refused_changes_refuted : map snd (snd (run spoilt start)) = [Fine; Refused] /\ asks spoilt (AskEc 4294967295).
Proof. exact refused_changes. Qed.
Print Assumptions C77_refused_changes_refuted.
(** False: that a context is not given out with parameters that it cannot read or does not know. *)
Theorem C77_init_refuted : fine unknown /\ asks unknown (AskRsa 256).
Proof. exact init_ignores. Qed.
Print Assumptions C77_init_refuted.
(** False: that keys are of the type asked for, generated or imported. *)
Theorem C77_other_curve_refuted : asks [Init 0 X25519 true (group_is "P-256")] (AskEc 0) /\
  exists x, w_k (fst (run wrong_curve start)) 1%nat = Some x /\ k_ty x = X25519 /\ k_key x = Some (AskEc 0).
Proof. exact other_curve. Qed.
Print Assumptions C77_other_curve_refuted.
Theorem C77_other_type_refuted : exists x, w_k (fst (run [Import 0 EC (Handle (AskRsa 256))] start)) 0%nat = Some x /\ k_ty x = EC /\ k_key x = Some (AskRsa 256).
Proof. exact other_type. Qed.
Print Assumptions C77_other_type_refuted.
(** False: that a DH key is modulo the default prime unless another is given: a curve's name changes its first bytes. *)
Theorem C77_dh_group_refuted : exists p, fine [Init 0 DH true (group_is "P-384")] /\ asks [Init 0 DH true (group_is "P-384")] (AskDh p [2]) /\
  firstn 4 p = [1; 0; 0; 0] /\ skipn 4 p = skipn 4 MODP_2048_P.
Proof. exact dh_group. Qed.
Print Assumptions C77_dh_group_refuted.
(** False: that a DH key is modulo the prime of its template: bytes of an imported one are the wrong way round. *)
Theorem C77_dh_template_refuted : fine small_group /\ of_ctx (heard (snd (run small_group start))) 0%nat = Some (DH, true, Modulo [11; 3] [2]) /\
  asks small_group (AskDh [3; 11] [2]).
Proof. exact dh_template. Qed.
Print Assumptions C77_dh_template_refuted.
(** False: that importing does no harm to memory. *)
Theorem C77_import_wild_refuted : import DH (Public true (I (Some (Some (256 ^ 512))) (Some (Some 2)) None None)) = inr OutOfBounds /\
  import DH (Public true (I (Some (Some 2819)) (Some None) None None)) = inr FreedTwice.
Proof. exact import_wild. Qed.
Print Assumptions C77_import_wild_refuted.
(** False: that an object with a public key says that it has one. *)
Theorem C77_has_refuted : exists x, w_k (fst (run [Import 0 X25519 (Public true (I None None None None))] start)) 0%nat = Some x /\
  k_public x = true /\ has x PublicPart = false.
Proof. exact has_public. Qed.
Print Assumptions C77_has_refuted.

(** The hypotheses are met: RSA by bits, EC by name and by parameters made before, DH by a template that was generated. *)
Example C77_example :
  let l := [Init 0 RSA true (bits_are 3072); Init 1 EC false (group_is "secp521r1"); Gen 1 0 true; Init 2 EC true (group_is "P-224"); SetTemplate 2 0;
            Init 3 DH true no; Gen 3 1 true; Init 4 DH true (bits_are 4096); SetTemplate 4 1; Init 5 ED448 true no;
            Import 2 RSA (Public true (I None None None (Some 1024))); Init 6 RSA true no; SetTemplate 6 2; Import 3 X25519 (Handle (AskEc 4))] in
  let w := fst (run l start) in let k := heard (snd (run l start)) in
  careful l start unheard /\
  of_ctx k 0%nat = Some (RSA, true, Rsa 3072) /\ snd (step (Gen 0 9 true) w) = Asked (AskRsa 384) /\
  of_ctx k 2%nat = Some (EC, true, Curve 2) /\ snd (step (Gen 2 9 true) w) = Asked (AskEc 2) /\
  snd (step (Gen 4 9 true) w) = Asked (AskDh MODP_2048_P [2]) /\ snd (step (Gen 5 9 true) w) = Asked (AskEc 5) /\
  snd (step (Gen 6 9 true) w) = Asked (AskRsa 128) /\
  (exists x, w_k w 3%nat = Some x /\ k_key x = Some (AskEc 4)) /\ readable (Public true (I (Some (Some 2819)) (Some (Some 2)) None None)).
Proof.
  cbn zeta. split; [cbn [careful]; repeat (split; [vm_compute; repeat split; auto; discriminate|]); exact Logic.I|].
  do 7 (split; [vm_compute; reflexivity|]). split; [eexists; vm_compute; auto|].
  split; [discriminate|]. split; [discriminate|]. intros v [H|H]; injection H as <-; vm_compute; reflexivity.
Qed.
