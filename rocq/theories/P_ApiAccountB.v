(** Accounts of cipher initialisation and processing: see P_ApiAccount.v. *)
From Verif Require Import Base M_ObjectStore M_Rights S_Rights P_Rights M_Svp M_Prog M_ApiKey
  M_ApiCipher M_ApiMac M_ApiSvp M_Api S_Api P_Prog P_ApiAccount.

Lemma a_KCipherInit slot u alg mode key pstat vstat : wp (pays (KCipherInit alg mode key pstat vstat)) (api (KCipherInit alg mode key pstat vstat) slot u) [] (final (KCipherInit alg mode key pstat vstat)).
Proof. go. Qed.
Lemma a_KCipherProcess slot u out context input n : wp (pays (KCipherProcess out context input n)) (api (KCipherProcess out context input n) slot u) [] (final (KCipherProcess out context input n)).
Proof. go. Qed.
