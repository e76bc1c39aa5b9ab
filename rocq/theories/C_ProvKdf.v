(** C68: key derivation with the OpenSSL provider.  [life] is a sequence of successful calls
    on one context, [settings] what they asked for, [t] the keys behind the API by handle;
    2^64-1 is the invalid handle. *)
From Verif Require Import Base M_Rights M_Mac M_Kdf S_Rights S_Mac S_Kdf P_Mac P_Kdf M_ProvKdf S_ProvKdf P_ProvKdf2 P_ProvKdf3 P_ProvKdfRuns.
From Coq Require Import String.
Local Open Scope Z_scope.
Local Open Scope list_scope.

(** A derivation answers with the handle of a new key, with unrestricted rights as the parent
    allows, whose bytes are those the standard defines for the latest settings; or it fails
    and leaves the buffer alone.  It never writes outside a buffer.  Missing: CMAC with the
    length in the data or with more than one block ([limits]), and switches other than 0 and
    1 and short keys ([proper]), all refuted below; calls that failed before. *)
Theorem C68_derives_partial : forall alg t l c t1 out n p e,
  life (kdf_newctx alg, t) l = Some (c, t1) -> all_proper l -> proper p -> t1 (2 ^ 64 - 1) = None -> sound t1 -> surroundings e t1 n -> 0 <= n <= zlen out ->
  match kdf_derive c t1 out n (Some p) e with
  | Answer true _ t' out' => exists h parent k r, a_key (ask (settings l) p) = Some h /\ t' h = Some parent /\ t' (e_handle e) = Some k /\
      le_value (firstn 8 out') = e_handle e /\ skipn 8 out' = skipn 8 out /\ unrestricted r /\ derived_key k r parent n (k_bytes k) /\
      (forall v, standard (e_lib e) alg (ask (settings l) p) (k_bytes parent) (Z.to_nat n) = Some v -> limits alg (ask (settings l) p) n -> k_bytes k = v)
  | Answer false _ _ out' => out' = out
  | Overrun => False
  end.
Proof. exact derives. Qed.
Print Assumptions C68_derives_partial.

(** Requests within the limits are accepted.  Missing: contexts that were reset, refuted
    below. *)
Theorem C68_accepted_partial : forall alg t l c t1 out n p e h parent,
  life (kdf_newctx alg, t) l = Some (c, t1) -> all_proper l -> ~ In Reset l -> proper p -> readable p t1 -> one_key (settings l) p ->
  sound t1 -> surroundings e t1 n -> works e -> n <= zlen out ->
  a_key (ask (settings l) p) = Some h -> t1 h = Some parent -> may_derive parent (e_now e) -> within alg (ask (settings l) p) parent n ->
  exists c' t' out', kdf_derive c t1 out n (Some p) e = Answer true c' t' out'.
Proof. exact accepted. Qed.
Print Assumptions C68_accepted_partial.

(** Over the whole life of a context up to its release, the keys it was told to delete are
    released, at the reset or release that follows, and no others.  Missing: contexts given
    a second key and copies, refuted below; calls that failed. *)
Theorem C68_keys_kept_partial : forall alg t l c t1 h, life (kdf_newctx alg, t) l = Some (c, t1) -> all_proper l -> one_key_each nothing l ->
  t (2 ^ 64 - 1) = None -> ~ In (2 ^ 64 - 1) (made l) -> ~ In h (made l) ->
  let gone := given_up nothing l ++ to_delete (settings l) in
  (In h gone -> kdf_freectx c t1 h = None) /\ (~ In h gone -> kdf_freectx c t1 h = t h).
Proof. exact keys_kept. Qed.
Print Assumptions C68_keys_kept_partial.

(** A context for each algorithm, used twice with a reset in between, key 5 to be deleted. *)
Example C68_case : forall alg, In alg [1; 2; 3; 4] -> exists c t1,
  let l := [Set_ (full (Some 1) None) []; Derive (repeat 0 16) 16 none (toy_env 16); Reset; Set_ (give 6) []] in
  life (kdf_newctx alg, toy_table) l = Some (c, t1) /\ all_proper l /\ one_key_each nothing l /\
  given_up nothing l ++ to_delete (settings l) = [5] /\ t1 5 = None /\ t1 6 = toy_table 6 /\ t1 9 <> None.
Proof.
  intros alg I. assert (AP : all_proper [Set_ (full (Some 1) None) []; Derive (repeat 0 16) 16 none (toy_env 16); Reset; Set_ (give 6) []]).
  { intros v p [<-|[<-|[<-|[<-|[]]]]] J; [| |destruct J|]; destruct J as [<-|[]]; [apply full_proper; auto|apply none_proper|apply give_proper]. }
  cbn [In] in I. destruct I as [<-|[<-|[<-|[<-|[]]]]]; eexists _, _;
    (split; [vm_compute; reflexivity|]; split; [exact AP|]; split;
     [cbn; split; [intros p [<-|[]]; split; auto|]; split; [intros p [<-|[]]; split; [discriminate|auto]|]; split; [intros p []|]; split; [intros p [<-|[]]; split; auto|exact Logic.I]|];
     split; [reflexivity|]; split; [vm_compute; reflexivity|]; split; [vm_compute; reflexivity|]; vm_compute; discriminate).
Qed.

(** Without parameters nothing is ever derived, whatever was set before. *)
Theorem C68_no_parameters_refuted : forall c t out n e, kdf_derive c t out n None e = Answer false c t out.
Proof. exact no_params_refused. Qed.
Print Assumptions C68_no_parameters_refuted.
(** A copy of a context never derives anything, whatever is set. *)
Theorem C68_copy_refuted : forall c c2 t l c3 t3 out n q e, kdf_dupctx c = Some c2 -> life (c2, t) l = Some (c3, t3) ->
  exists c' t', kdf_derive c3 t3 out n q e = Answer false c' t' out.
Proof. exact copy_useless. Qed.
Print Assumptions C68_copy_refuted.
(** With CMAC no more than 32 bytes are ever derived, though 64 are announced. *)
Theorem C68_cmac_long_refuted : forall t l c t1 out n q e, life (kdf_newctx 4, t) l = Some (c, t1) -> 32 < n ->
  forall c' t' out', kdf_derive c t1 out n q e <> Answer true c' t' out'.
Proof. exact cmac_long. Qed.
Print Assumptions C68_cmac_long_refuted.
(** 32 bytes are the second and third block; the length is counted in bytes. *)
Theorem C68_cmac_block_refuted : differs (full (Some 1) None) 32.
Proof. exact second_block. Qed.
Print Assumptions C68_cmac_block_refuted.
Theorem C68_cmac_length_refuted : differs (full (Some 1) (Some 1)) 16.
Proof. exact l_in_bytes. Qed.
Print Assumptions C68_cmac_length_refuted.
(** A switch for the length that is neither 0 nor 1: a write outside the buffer. *)
Theorem C68_switch_refuted : exists t p e out n, surroundings e t n /\ n <= zlen out /\ q_l p = Some (Some 2) /\ kdf_derive (kdf_newctx 4) t out n (Some p) e = Overrun.
Proof. exact l_overrun. Qed.
Print Assumptions C68_switch_refuted.
(** A second key, or the same again: the first is released though it is the application's. *)
Theorem C68_second_key_refuted : exists t c t' h, life (kdf_newctx 1, t) [Set_ (give h) []; Set_ (give 6) []] = Some (c, t') /\
  all_proper [Set_ (give h) []; Set_ (give 6) []] /\ a_delete (ask nothing (give h)) = false /\ h <> 6 /\ t h <> None /\ t' h = None.
Proof. exact second_key. Qed.
Print Assumptions C68_second_key_refuted.
Theorem C68_same_key_refuted : exists t c t' h, life (kdf_newctx 1, t) [Set_ (give h) []; Set_ (give h) []] = Some (c, t') /\
  a_delete (ask nothing (give h)) = false /\ t h <> None /\ t' h = None.
Proof. exact same_key. Qed.
Print Assumptions C68_same_key_refuted.
(** A copy given a key releases the key with handle 0, which it was never given. *)
Theorem C68_copy_key_refuted : exists c c2 t c3 t3 h, kdf_dupctx c = Some c2 /\ life (kdf_newctx 1, t) [] = Some (c, t) /\ h <> 0 /\
  life (c2, t) [Set_ (give h) []] = Some (c3, t3) /\ t 0 <> None /\ t3 0 = None.
Proof. exact copy_steals. Qed.
Print Assumptions C68_copy_key_refuted.
(** Copying a context that was reset reads through NULL. *)
Theorem C68_copy_crash_refuted : exists t l c t', life (kdf_newctx 1, t) l = Some (c, t') /\ all_proper l /\ kdf_dupctx c = None.
Proof. exact copy_crash. Qed.
Print Assumptions C68_copy_crash_refuted.
(** A reset keeps the digest; and it keeps the length of a salt, so that a derivation
    without salt is refused. *)
Theorem C68_reset_digest_refuted : exists t l c t1 p e out n c' t' out', life (kdf_newctx 2, t) l = Some (c, t1) /\ all_proper l /\ proper p /\
  surroundings e t1 n /\ n <= zlen out /\ a_digest (ask (settings l) p) = None /\ kdf_derive c t1 out n (Some p) e = Answer true c' t' out'.
Proof. exact reset_digest. Qed.
Print Assumptions C68_reset_digest_refuted.
Theorem C68_reset_salt_refuted : exists t l c t1 p e out n h parent c' t' out', life (kdf_newctx 1, t) l = Some (c, t1) /\ all_proper l /\ proper p /\ readable p t1 /\
  surroundings e t1 n /\ works e /\ n <= zlen out /\ a_key (ask (settings l) p) = Some h /\ t1 h = Some parent /\ may_derive parent (e_now e) /\
  within 1 (ask (settings l) p) parent n /\ kdf_derive c t1 out n (Some p) e = Answer false c' t' out'.
Proof. exact reset_salt. Qed.
Print Assumptions C68_reset_salt_refuted.
(** SHA2-512/256 is taken for SHA-512. *)
Theorem C68_digest_refuted : exists name t e out n p c' t' out' parent k,
  digest_named name = None /\ q_digest p = Some (Some name) /\ proper p /\ surroundings e t n /\ sound t /\ n <= zlen out /\
  kdf_derive (kdf_newctx 2) t out n (Some p) e = Answer true c' t' out' /\ t (le_value [5]) = Some parent /\ t' (e_handle e) = Some k /\
  k_bytes k = sp800_56a (e_lib e) 3 (k_bytes parent) [] (Z.to_nat n).
Proof. exact other_digest. Qed.
Print Assumptions C68_digest_refuted.
(** Which key is taken may depend on what the stack holds. *)
Theorem C68_short_key_refuted : exists t p junk1 junk2 c1 c2 t1 t2, q_key p = Some (Some [0]) /\
  kdf_set_ctx_params (Some p) junk1 (kdf_newctx 1) t = (true, c1, t1) /\ kdf_set_ctx_params (Some p) junk2 (kdf_newctx 1) t = (true, c2, t2) /\ x_key c1 <> x_key c2.
Proof. exact short_key. Qed.
Print Assumptions C68_short_key_refuted.
