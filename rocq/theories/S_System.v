(** Vocabulary for C61 and C62. *)
From Verif Require Import Base M_ObjectStore M_Rights M_Svp M_Prog M_ApiKey M_ApiCipher M_ApiMac M_Api S_Api M_World S_World.

(** The calls that run a cipher or MAC context they are given. *)
Definition runs_cipher (k : call) : Prop :=
  match k with KCipherProcess _ _ _ _ | KCipherProcessLast _ _ _ _ _ | KCenc _ => True | _ => False end.
Definition runs_mac (k : call) : Prop :=
  match k with KMacProcess _ _ | KMacCompute _ _ _ => True | _ => False end.
(** The direction of a use of a cipher. *)
Definition direction (r : role) : Z := match r with REncrypt => ENCRYPT | _ => DECRYPT end.
