(** Accounts of last cipher processing and unwrapping: see P_ApiAccount.v. *)
From Verif Require Import Base M_ObjectStore M_Rights S_Rights P_Rights M_Svp M_Prog M_ApiKey
  M_ApiCipher M_ApiMac M_ApiSvp M_Api S_Api P_Prog P_ApiAccount.

Lemma a_KCipherProcessLast slot u out context input n tag : wp (pays (KCipherProcessLast out context input n tag)) (api (KCipherProcessLast out context input n tag) slot u) [] (final (KCipherProcessLast out context input n tag)).
Proof. go. Qed.
Lemma a_KKeyUnwrap slot u r key_type curve alg wrapping input : wp (pays (KKeyUnwrap r key_type curve alg wrapping input)) (api (KKeyUnwrap r key_type curve alg wrapping input) slot u) [] (final (KKeyUnwrap r key_type curve alg wrapping input)).
Proof. go. Qed.
