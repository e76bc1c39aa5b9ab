(** What encryption with the provider is for. *)
From Verif Require Import Base S_Bytes M_Rights M_Mac M_Unwrap M_Asym S_Rights S_Unwrap S_Asym M_ProvSign S_ProvSign M_ProvAsym.

(** What one side of OpenSSL encrypts the other side decrypts; a text is as long as the modulus. *)
Record good_elib (L : alib) (U : ulib) (E : elib) : Prop := {
  ge_pkcs1 : forall key msg coins text, E EPkcs1 (a_public L key) msg coins = Some text -> u_pkcs1 U key text = Some msg;
  ge_oaep : forall key d m label msg coins text, E (EOaep d m label) (a_public L key) msg coins = Some text -> u_oaep U key d m label text = Some msg;
  ge_length : forall s key msg coins text, E s (a_public L key) msg coins = Some text -> zlen text = u_rsa_size U key }.
(** The algorithm that the settings stand for: without a digest for OAEP it is SHA-1, without one for
    MGF1 it is that of OAEP.  There is no decryption without padding in the API. *)
Definition asked (c : acx) : option dalg :=
  let d := match x_md c with Some d => d | None => 0 end in
  match x_pad c with
  | 1 => Some DPkcs1
  | 4 => Some (DOaep d (match x_mgf1 c with Some m => m | None => d end) (x_label c))
  | _ => None
  end.
(** PKCS#1 v1.5, or OAEP with a digest of the API that is set, for MGF1 too. *)
Definition settled (c : acx) : Prop :=
  x_pad c = 1 \/ x_pad c = 4 /\ exists d, x_md c = Some d /\ known_digest d /\ (x_mgf1 c = None \/ x_mgf1 c = Some d).
(** The same with any digest for MGF1. *)
Definition half_settled (c : acx) : Prop := x_pad c = 1 \/ x_pad c = 4 /\ exists d, x_md c = Some d /\ known_digest d.
Definition settings_of (c : acx) : Z * option Z * option Z * list Z := (x_pad c, x_md c, x_mgf1 c, x_label c).
(** [k] is an RSA key of the API. *)
Definition rsa_key (U : ulib) (k : stored_key) : Prop := k_type k = 2 /\ size_allowed 2 0 (k_size k) /\ u_rsa_size U (k_bytes k) = k_size k.
(** The API refuses a digest it does not have. *)
Definition refuses_unknown (U : ulib) : Prop := forall key d m label text, ~ known_digest d \/ ~ known_digest m -> u_oaep U key d m label text = None.
(** What a parameter that is given, if it is, makes of a setting. *)
Definition latest {A} (given : option A) (old : A) : A := match given with Some v => v | None => old end.
