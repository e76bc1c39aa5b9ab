(** C66: RSA encryption and decryption with the OpenSSL provider.  [E] is the encryption of OpenSSL in
    the caller's process, [U] the decryption of OpenSSL behind the API, [c] a context, [k] the key
    behind the handle of the key data [kd]. *)
From Verif Require Import Base S_Bytes M_Rights M_Mac M_Unwrap M_Asym S_Rights S_Unwrap S_Asym P_Unwrap P_Asym2 M_ProvSign S_ProvSign P_ProvSignRuns M_ProvAsym S_ProvAsym P_ProvAsym P_ProvAsymRuns.

(** A text that is made decrypts to the message, by the algorithm that the settings stand for.
    Missing: OAEP without a digest, with a digest the API does not have, and with another digest for
    MGF1. *)
Theorem C66_encrypts_partial : forall L U E c k kd alg buf msg coins null_md out n, good_elib L U E -> data_of L k kd -> x_key c = Some kd -> settled c -> asked c = Some alg ->
  asym_encrypt E c (Some buf) msg coins null_md = ADone 1 out n ->
  exists text, out = text ++ skipn (length text) buf /\ n = Some (zlen text) /\ zlen text <= zlen buf /\ decryption_of U alg k text msg.
Proof. exact encrypt_asked. Qed.
Print Assumptions C66_encrypts_partial.
(** A text is decrypted exactly if the key may, the sizes are right and it decrypts by that algorithm;
    the message is written and nothing else, inside the buffer; otherwise nothing changes. *)
Theorem C66_decrypts_partial : forall U c k kd alg now buf text room answer, good_ulib U -> rsa_key U k -> x_key c = Some kd -> d_private kd = Some k -> settled c -> asked c = Some alg ->
  exists ret buf' n, asym_decrypt U c now (Some buf) text room answer = Some (ADone ret buf' n) /\
    (ret <> 1 -> ret = 0 /\ buf' = buf /\ n = None) /\
    (ret = 1 <-> may_decrypt_clear k now /\ k_size k <= zlen buf /\ zlen text = k_size k /\ room = true /\ answer = true /\
       exists msg, decryption_of U alg k text msg) /\
    (forall msg, ret = 1 -> decryption_of U alg k text msg -> buf' = msg ++ skipn (length msg) buf /\ n = Some (zlen msg)).
Proof. exact decrypt_asked. Qed.
Print Assumptions C66_decrypts_partial.
Example C66_decrypts_case : good_elib mlib flib fenc /\ good_ulib flib /\ rsa_key flib small_pair /\ data_of mlib small_pair (kd_of small_pair) /\ may_decrypt_clear small_pair 5 /\
  let c := oaep_with (Some 1) (Some 1) [7; 8] in settled c /\ asked c = Some (DOaep 1 1 [7; 8]) /\
  exists out, asym_encrypt fenc c (Some room) [5; 6; 7] 0 false = ADone 1 out (Some 128) /\
    asym_decrypt flib c 5 (Some room) out true true = Some (ADone 1 ([5; 6; 7] ++ repeat 0 125) (Some 3)).
Proof. split; [exact fenc_good|]. split; [exact flib_good|]. split; [exact small_rsa|]. split; [exact small_data|]. split; [exact small_may|exact oaep_case]. Qed.

(** What one context encrypts another with the same settings decrypts, with any digest for MGF1. *)
Theorem C66_round_trip_partial : forall L U E c c' k kd kd' now buf msg coins null_md out n buf2,
  good_elib L U E -> good_ulib U -> rsa_key U k -> data_of L k kd' -> data_of L k kd ->
  x_key c = Some kd -> x_key c' = Some kd' -> settings_of c' = settings_of c -> half_settled c -> may_decrypt_clear k now ->
  asym_encrypt E c (Some buf) msg coins null_md = ADone 1 out (Some n) -> k_size k <= zlen buf2 ->
  asym_decrypt U c' now (Some buf2) (firstn (Z.to_nat n) out) true true = Some (ADone 1 (msg ++ skipn (length msg) buf2) (Some (zlen msg))).
Proof. exact asym_round_trip. Qed.
Print Assumptions C66_round_trip_partial.
Example C66_round_trip_case : let c := oaep_with (Some 2) (Some 0) [3] in half_settled c /\
  exists out, asym_encrypt fenc c (Some room) [1; 2] 0 false = ADone 1 out (Some 128).
Proof. cbv zeta. split; [right; split; [reflexivity|]; exists 2; split; [reflexivity|right; right; left; reflexivity]|]. eexists. vm_compute. reflexivity. Qed.

(** Parameters that are accepted are those in force afterwards; what is not given stays. *)
Theorem C66_parameters : forall c o c', set_aparams c o = (true, c') ->
  x_key c' = x_key c /\ x_md c' = latest (p_md o) (x_md c) /\ x_mgf1 c' = latest (p_mgf1 o) (x_mgf1 c) /\ x_label c' = latest (p_label o) (x_label c) /\
  (forall n, p_pad o = Some (ANumber n) \/ p_pad o = Some (AName (Some n)) -> x_pad c' = n) /\ (p_pad o = None -> x_pad c' = x_pad c).
Proof. exact set_latest. Qed.
Print Assumptions C66_parameters.
Example C66_parameters_case : exists c', set_aparams (oaep_with (Some 2) (Some 0) [3]) (MkAp None (Some (ANumber 1)) (Some (Some 3)) None) = (true, c') /\
  settings_of c' = (1, Some 2, Some 3, [3]).
Proof. eexists. split; reflexivity. Qed.

(** ** Where it is false *)
(** A digest for MGF1 is not used: others cannot decrypt the texts, and theirs are refused. *)
Theorem C66_mgf1_refuted : exists L U E k kd c alg text, good_elib L U E /\ good_ulib U /\ rsa_key U k /\ data_of L k kd /\ x_key c = Some kd /\ may_decrypt_clear k 5 /\
  asked c = Some alg /\ asym_encrypt E c (Some room) [5; 6; 7] 0 true = ADone 1 text (Some 128) /\ decrypt_with U alg k text = None /\
  exists text', decryption_of U alg k text' [5; 6; 7] /\ zlen text' = 128 /\ asym_decrypt U c 5 (Some room) text' true true = Some (ADone 0 room None).
Proof. exact mgf1_ignored. Qed.
Print Assumptions C66_mgf1_refuted.
(** With the default digests, or with a digest that the API does not have, no text at all is decrypted. *)
Theorem C66_default_refuted : forall U c k kd now buf text ok answer, refuses_unknown U -> good_ulib U -> rsa_key U k -> x_key c = Some kd -> d_private kd = Some k -> x_pad c = 4 ->
  (x_md c = None /\ x_mgf1 c = None) \/ (exists d, x_md c = Some d /\ ~ known_digest d) ->
  asym_decrypt U c now (Some buf) text ok answer = Some (ADone 0 buf None).
Proof. exact never. Qed.
Print Assumptions C66_default_refuted.
Example C66_default_case : refuses_unknown flib /\ let c := oaep_with None None [] in asked c = Some (DOaep 0 0 []) /\
  exists text, asym_encrypt fenc c (Some room) [5; 6; 7] 0 true = ADone 1 text (Some 128) /\ decryption_of flib (DOaep 0 0 []) small_pair text [5; 6; 7].
Proof. split; [exact flib_refuses|exact default_case]. Qed.
(** Without padding, decryption takes a padding away. *)
Theorem C66_no_padding_refuted : exists L U E k kd c msg text buf, good_elib L U E /\ good_ulib U /\ rsa_key U k /\ data_of L k kd /\ x_key c = Some kd /\ x_pad c = RSA_NONE /\
  asym_encrypt E c (Some room) msg 0 true = ADone 1 text (Some 128) /\ asym_decrypt U c 5 (Some room) text true true = Some (ADone 1 buf (Some 3)) /\ zlen msg = 128.
Proof. exact no_padding. Qed.
Print Assumptions C66_no_padding_refuted.
(** Any name of a padding is accepted and decrypts as PKCS#1 v1.5. *)
Theorem C66_padding_name_refuted : forall c, exists c', set_aparams c (MkAp None (Some (AName None)) None None) = (true, c') /\ asked c' = None /\ decrypt_alg c' = DPkcs1.
Proof. exact name_accepted. Qed.
Print Assumptions C66_padding_name_refuted.
(** A failing call takes the digest away. *)
Theorem C66_digest_lost_refuted : forall c d, x_md c = Some d -> exists c', set_aparams c (MkAp (Some None) None None None) = (false, c') /\ x_md c' = None.
Proof. exact digest_lost. Qed.
Print Assumptions C66_digest_lost_refuted.
(** A copy of a context is never one: it crashes without both digests, there is none without a
    label, and else the label is some uninitialised memory. *)
Theorem C66_copy_refuted : forall c fresh, match dup_acx c fresh with
  | None => x_key c = None \/ x_md c = None \/ x_mgf1 c = None
  | Some None => x_label c = []
  | Some (Some c') => x_label c <> [] /\ x_label c' = fresh
  end.
Proof. exact copies. Qed.
Print Assumptions C66_copy_refuted.
Example C66_copy_case : exists c c' fresh, settled c /\ zlen fresh = zlen (x_label c) /\ dup_acx c fresh = Some (Some c') /\ settings_of c' <> settings_of c.
Proof. exact copy_differs. Qed.
