(** Accounts of the key exchange: see P_ApiAccount.v. *)
From Verif Require Import Base M_ObjectStore M_Rights S_Rights P_Rights M_Svp M_Prog M_ApiKey
  M_ApiCipher M_ApiMac M_ApiSvp M_Api S_Api P_Prog P_ApiAccount.

Lemma a_KKeyExchange slot u r alg private other_public : wp (pays (KKeyExchange r alg private other_public)) (api (KKeyExchange r alg private other_public) slot u) [] (final (KKeyExchange r alg private other_public)).
Proof. go. Qed.
