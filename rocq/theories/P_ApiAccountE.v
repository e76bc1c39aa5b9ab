(** Accounts of all calls. *)
From Verif Require Import Base M_ObjectStore M_Rights S_Rights P_Rights M_Svp M_Prog M_ApiKey
  M_ApiCipher M_ApiMac M_ApiSvp M_Api S_Api P_Prog P_ApiAccount P_ApiAccountA
  P_ApiAccountB P_ApiAccountC P_ApiAccountD.

Lemma account_all the slot u : wp (pays the) (api the slot u) [] (final the).
Proof.
  destruct the.
  - apply a_KInit.
  - apply a_KClose.
  - apply a_KRandom.
  - apply a_KKeyGenerate.
  - apply a_KKeyImport.
  - apply a_KKeyUnwrap.
  - apply a_KKeyDerive.
  - apply a_KKeyExchange.
  - apply a_KKeyExport.
  - apply a_KKeyHeader.
  - apply a_KKeyDigest.
  - apply a_KKeyRelease.
  - apply a_KKeyPublic.
  - apply a_KSign.
  - apply a_KCipherInit.
  - apply a_KCipherProcess.
  - apply a_KCipherProcessLast.
  - apply a_KCipherUpdateIv.
  - apply a_KCipherRelease.
  - apply a_KCenc.
  - apply a_KMacInit.
  - apply a_KMacProcess.
  - apply a_KMacProcessKey.
  - apply a_KMacCompute.
  - apply a_KMacRelease.
  - apply a_KSvpCreate.
  - apply a_KSvpRelease.
  - apply a_KSvpWrite.
  - apply a_KSvpCopy.
  - apply a_KSvpCheck.
  - apply a_KSvpKeyCheck.
Qed.
