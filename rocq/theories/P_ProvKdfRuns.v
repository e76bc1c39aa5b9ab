(** Key derivation with the provider: concrete runs. *)
From Verif Require Import Base M_Rights M_Mac M_Kdf S_Rights S_Mac S_Kdf P_Mac P_Kdf M_ProvKdf S_ProvKdf P_ProvKdf P_ProvKdf2 P_ProvKdf3.
From Coq Require Import String.
Local Open Scope Z_scope.
Local Open Scope list_scope.

Definition toy_env (n : nat) : env := MkEnv toy_lib 5 (Some (repeat 9 n)) (repeat 9 64) (repeat 9 64) (fun _ => true) true true 9 (repeat 9 8).
Definition toy_table : table := fun h => if (h =? 0) || (h =? 5) || (h =? 6) then Some (toy_parent 16) else None.
Definition none : params := MkParams None None None None None None None None.
Definition give (h : Z) : params := MkParams None (Some (Some h)) None None None None None None.
Definition full (sep l : option Z) : params :=
  MkParams None (Some (Some 5)) (Some (Some 1)) (Some (Some "SHA2-256"%string)) (Some (Copied [1; 2])) (Some (Copied [3])) (option_map Some sep) (option_map Some l).

Lemma toy_sound : sound toy_table.
Proof. intros h k H. unfold toy_table in H. destruct (_ || _); [injection H as <-; reflexivity|discriminate]. Qed.
Lemma toy_surroundings : forall n, surroundings (toy_env n) toy_table (Z.of_nat n).
Proof.
  intros n. split; [exact toy_good|]. split; [unfold memory_for, toy_env; cbn; unfold zlen; rewrite repeat_length; reflexivity|].
  split; [reflexivity|]. split; [reflexivity|]. split; [reflexivity|]. cbn. lia.
Qed.
Lemma full_proper : forall sep l, (sep = None \/ sep = Some 0 \/ sep = Some 1) -> (l = None \/ l = Some 0 \/ l = Some 1) -> proper (full sep l).
Proof.
  intros sep l S L. split; [discriminate|]. cbn. split; intros n H.
  - destruct S as [->|[->| ->]]; cbn in H; [discriminate| |]; injection H as <-; auto.
  - destruct L as [->|[->| ->]]; cbn in H; [discriminate| |]; injection H as <-; auto.
Qed.
Lemma give_proper : forall h, proper (give h). Proof. intros h. split; [discriminate|]. split; discriminate. Qed.
Lemma none_proper : proper none. Proof. split; [discriminate|]. split; discriminate. Qed.

(** Two keys for one context: the first, still the application's, is gone. *)
Lemma second_key : exists t c t' h, life (kdf_newctx 1, t) [Set_ (give h) []; Set_ (give 6) []] = Some (c, t') /\
  all_proper [Set_ (give h) []; Set_ (give 6) []] /\ a_delete (ask nothing (give h)) = false /\ h <> 6 /\ t h <> None /\ t' h = None.
Proof.
  exists toy_table. eexists _, _. exists 5. split; [reflexivity|].
  split; [intros v p [<-|[<-|[]]] [<-|[]]; apply give_proper|]. split; [reflexivity|]. split; [discriminate|]. split; [discriminate|reflexivity].
Qed.
Lemma same_key : exists t c t' h, life (kdf_newctx 1, t) [Set_ (give h) []; Set_ (give h) []] = Some (c, t') /\
  a_delete (ask nothing (give h)) = false /\ t h <> None /\ t' h = None.
Proof. exists toy_table. eexists _, _. exists 5. split; [reflexivity|]. split; [reflexivity|]. split; [discriminate|reflexivity]. Qed.
(** A copy given a key releases the key with handle 0. *)
Lemma copy_steals : exists c c2 t c3 t3 h, kdf_dupctx c = Some c2 /\ life (kdf_newctx 1, t) [] = Some (c, t) /\ h <> 0 /\
  life (c2, t) [Set_ (give h) []] = Some (c3, t3) /\ t 0 <> None /\ t3 0 = None.
Proof.
  exists (kdf_newctx 1). eexists. exists toy_table. eexists _, _. exists 5.
  split; [reflexivity|]. split; [reflexivity|]. split; [discriminate|]. split; [reflexivity|]. split; [discriminate|reflexivity].
Qed.
Lemma copy_crash : exists t l c t', life (kdf_newctx 1, t) l = Some (c, t') /\ all_proper l /\ kdf_dupctx c = None.
Proof.
  exists toy_table, [Set_ (full None None) []; Reset]. eexists _, _. split; [reflexivity|].
  split; [intros v p [<-|[<-|[]]] I; [destruct I as [<-|[]]; apply full_proper; auto|destruct I]|reflexivity].
Qed.
Lemma l_overrun : exists t p e out n, surroundings e t n /\ n <= zlen out /\ q_l p = Some (Some 2) /\ kdf_derive (kdf_newctx 4) t out n (Some p) e = Overrun.
Proof.
  exists toy_table, (full None (Some 2)), (toy_env 16), (repeat 0 16), 16. split; [apply (toy_surroundings 16)|]. split; [cbn; lia|]. split; reflexivity.
Qed.
(** The length is counted in bytes. *)
Lemma l_in_bytes : differs (full (Some 1) (Some 1)) 16.
Proof.
  exists toy_table, (toy_env 16), (repeat 0 16). eexists 5, _, _, _, _, _. split; [apply full_proper; auto|]. split; [apply (toy_surroundings 16)|].
  split; [exact toy_sound|]. split; [cbn; lia|]. split; [vm_compute; reflexivity|]. split; [reflexivity|]. split; [reflexivity|]. split; [vm_compute; reflexivity|].
  vm_compute. discriminate.
Qed.
Lemma second_block : differs (full (Some 1) None) 32.
Proof.
  exists toy_table, (toy_env 32), (repeat 0 32). eexists 5, _, _, _, _, _. split; [apply full_proper; auto|]. split; [apply (toy_surroundings 32)|].
  split; [exact toy_sound|]. split; [cbn; lia|]. split; [vm_compute; reflexivity|]. split; [reflexivity|]. split; [reflexivity|]. split; [vm_compute; reflexivity|].
  vm_compute. discriminate.
Qed.
(** Other digests are taken for those of the API. *)
Lemma other_digest : exists name t e out n p c' t' out' parent k,
  digest_named name = None /\ q_digest p = Some (Some name) /\ proper p /\ surroundings e t n /\ sound t /\ n <= zlen out /\
  kdf_derive (kdf_newctx 2) t out n (Some p) e = Answer true c' t' out' /\ t (le_value [5]) = Some parent /\ t' (e_handle e) = Some k /\
  k_bytes k = sp800_56a (e_lib e) 3 (k_bytes parent) [] (Z.to_nat n).
Proof.
  exists "SHA2-512/256"%string, toy_table, (toy_env 32), (repeat 0 32), 32, (MkParams None (Some (Some 5)) None (Some (Some "SHA2-512/256"%string)) None None None None).
  eexists _, _, _, _, _. split; [reflexivity|]. split; [reflexivity|]. split; [split; [discriminate|split; discriminate]|]. split; [apply (toy_surroundings 32)|].
  split; [exact toy_sound|]. split; [cbn; lia|]. split; [vm_compute; reflexivity|]. split; [reflexivity|]. split; [vm_compute; reflexivity|]. vm_compute. reflexivity.
Qed.
(** After a reset the digest is still there, and the length of the salt. *)
Lemma reset_digest : exists t l c t1 p e out n c' t' out', life (kdf_newctx 2, t) l = Some (c, t1) /\ all_proper l /\ proper p /\
  surroundings e t1 n /\ n <= zlen out /\ a_digest (ask (settings l) p) = None /\ kdf_derive c t1 out n (Some p) e = Answer true c' t' out'.
Proof.
  exists toy_table, [Set_ (MkParams None (Some (Some 5)) None (Some (Some "SHA1"%string)) None None None None) []; Reset]. eexists _, _. exists (give 6), (toy_env 32), (repeat 0 32), 32. eexists _, _, _.
  split; [reflexivity|]. split; [intros v p [<-|[<-|[]]] I; [destruct I as [<-|[]]; split; [discriminate|split; discriminate]|destruct I]|]. split; [apply give_proper|].
  split.
  { split; [exact toy_good|]. split; [reflexivity|]. split; [reflexivity|]. split; [reflexivity|]. split; [reflexivity|]. cbn. lia. }
  split; [cbn; lia|]. split; [reflexivity|]. vm_compute. reflexivity.
Qed.
Lemma reset_salt : exists t l c t1 p e out n h parent c' t' out', life (kdf_newctx 1, t) l = Some (c, t1) /\ all_proper l /\ proper p /\ readable p t1 /\
  surroundings e t1 n /\ works e /\ n <= zlen out /\ a_key (ask (settings l) p) = Some h /\ t1 h = Some parent /\ may_derive parent (e_now e) /\
  within 1 (ask (settings l) p) parent n /\ kdf_derive c t1 out n (Some p) e = Answer false c' t' out'.
Proof.
  exists toy_table, [Set_ (full None None) []; Reset]. eexists _, _.
  exists (MkParams None (Some (Some 6)) None (Some (Some "SHA2-256"%string)) None None None None), (toy_env 32), (repeat 0 32), 32. eexists 6, _, _, _, _.
  split; [reflexivity|]. split; [intros v p [<-|[<-|[]]] I; [destruct I as [<-|[]]; apply full_proper; auto|destruct I]|].
  split; [split; [discriminate|split; discriminate]|].
  split; [repeat split; try discriminate; intros h H; cbn in H; injection H as <-; discriminate|].
  split.
  { split; [exact toy_good|]. split; [reflexivity|]. split; [reflexivity|]. split; [reflexivity|]. split; [reflexivity|]. cbn. lia. }
  split; [repeat split; discriminate|]. split; [cbn; lia|]. split; [reflexivity|]. split; [reflexivity|].
  split; [repeat split; cbn; lia|]. split; [left; split; [lia|]; split; [exists 1; reflexivity|]; split; [lia|]; cbn; lia|].
  vm_compute. reflexivity.
Qed.
(** A key of fewer than eight bytes is completed with whatever is on the stack. *)
Lemma short_key : exists t p junk1 junk2 c1 c2 t1 t2, q_key p = Some (Some [0]) /\
  kdf_set_ctx_params (Some p) junk1 (kdf_newctx 1) t = (true, c1, t1) /\ kdf_set_ctx_params (Some p) junk2 (kdf_newctx 1) t = (true, c2, t2) /\ x_key c1 <> x_key c2.
Proof.
  exists (fun h => Some (toy_parent 16)), (MkParams (Some (Some [0])) None None None None None None None), (repeat 0 8), (repeat 1 8).
  eexists _, _, _, _. split; [reflexivity|]. split; [vm_compute; reflexivity|]. split; [vm_compute; reflexivity|]. vm_compute. discriminate.
Qed.
