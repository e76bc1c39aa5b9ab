(** What a MAC context is meant to do. *)
From Verif Require Import Base M_Rights M_Mac.

(** OpenSSL's digests have the lengths of FIPS 180-4 (0 SHA-1, 1 SHA-256, 2 SHA-384,
    3 SHA-512), its AES-CMAC 16 bytes. *)
Definition good_lib (L : lib) : Prop :=
  (forall m, length (l_hash L 0 m) = 20%nat) /\ (forall m, length (l_hash L 1 m) = 32%nat) /\
  (forall m, length (l_hash L 2 m) = 48%nat) /\ (forall m, length (l_hash L 3 m) = 64%nat) /\
  (forall k m, length (l_cmac L k m) = 16%nat).

(** The algorithms, 0 CMAC and 1 HMAC with a digest, their results and result lengths. *)
Definition mac_known (alg d : Z) : Prop := alg = 0 \/ (alg = 1 /\ 0 <= d <= 3).
Definition mac_size (alg d : Z) : Z :=
  match alg with 0 => 16 | _ => match d with 0 => 20 | 1 => 32 | 2 => 48 | _ => 64 end end.
Definition mac_of (L : lib) (alg d : Z) (key msg : list Z) : list Z :=
  match alg with 0 => l_cmac L key msg | _ => l_hmac L d key msg end.

(** The bytes a call has contributed: the data or the key, if it was accepted. *)
Definition accepted (e : mac_call * out) : list Z :=
  match e with
  | (CallProcess (Bytes l) _, Ret OK _ _) => l
  | (CallProcessKey (_, Some k) _, Ret OK _ _) => k_bytes k
  | _ => []
  end.
Definition fed (h : list (mac_call * out)) : list Z := concat (map accepted h).

(** OpenSSL failed while data was being fed. *)
Definition feeding_failed (e : mac_call * out) : Prop :=
  match e with
  | (CallProcess _ a, Ret INTERNAL_ERROR _ _) => la_ok a = false
  | (CallProcessKey (OK, _) a, Ret INTERNAL_ERROR _ _) => la_ok a = false
  | _ => False
  end.
(** A call has asked for the MAC and got it, or OpenSSL failed to deliver it. *)
Definition finishing (e : mac_call * out) : Prop :=
  match e with
  | (CallCompute (Some _) _ _, Ret s _ _) => s = OK \/ s = INTERNAL_ERROR
  | _ => False
  end.
Definition asks_for_mac (c : mac_call) : Prop :=
  match c with CallCompute (Some _) _ _ => True | _ => False end.
Definition feeds (c : mac_call) : Prop :=
  match c with CallCompute _ _ _ => False | _ => True end.
(** The caller's buffer is as long as they say, and OpenSSL writes as many bytes as a MAC
    has even if its context is of no use any more. *)
Definition sound_call (alg d : Z) (c : mac_call) : Prop :=
  match c with
  | CallCompute (Some b) n a => zlen b = n /\ zlen (la_junk a) = mac_size alg d
  | _ => True
  end.
