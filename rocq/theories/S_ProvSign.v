(** What signatures made with the provider are for. *)
From Verif Require Import Base S_Bytes M_Rights M_Mac M_Unwrap M_Asym S_Rights S_Asym M_ProvSign.

(** ** DER (X.690) and the structure ECDSA-Sig-Value of RFC 3279, for short signatures *)
(** A nonnegative INTEGER: the content is the number in base 256, its first bit is 0, and there is
    no byte less than needed. *)
Inductive der_integer : Z -> list Z -> Prop :=
| der_integer_intro : forall z first rest, Forall byte_ok (first :: rest) -> number_of 0 (first :: rest) = z ->
    first < 128 -> (first = 0 -> rest = [] \/ exists next rest', rest = next :: rest' /\ 128 <= next) ->
    zlen (first :: rest) < 128 -> der_integer z (2 :: zlen (first :: rest) :: first :: rest).
Definition der_sequence (body l : list Z) : Prop :=
  (zlen body < 128 /\ l = 48 :: zlen body :: body) \/ (128 <= zlen body < 256 /\ l = 48 :: 129 :: zlen body :: body).
Definition ecdsa_der (r s : Z) (l : list Z) : Prop :=
  exists a b, der_integer r a /\ der_integer s b /\ der_sequence (a ++ b) l.

(** ** OpenSSL's verification *)
(** The salt is as long as the number says; -1: as the digest; -3: as long as it can be, where the
    encoded message has one bit less than the modulus (RFC 8017 9.1.1); -2: any length. *)
Definition salt_means (bits d n salt : Z) : Prop :=
  (0 <= n /\ salt = n) \/ (n = -1 /\ salt = digest_length d) \/ n = -2 \/ (n = -3 /\ salt = (bits - 1 + 7) / 8 - digest_length d - 2).
(** Without a digest for MGF1, it is the digest of the message. *)
Definition mgf1_of (d : Z) (mgf1 : option Z) : Z := match mgf1 with Some m => m | None => d end.
Record good_vlib (L : alib) (V : vlib) : Prop := {
  gv_pkcs1 : forall d public msg sig, V (VPkcs1 (Some d)) public msg sig = a_verify L (Pkcs1 d) public msg sig;
  gv_pss : forall d mgf1 n key bits msg sig, a_parse L 6 key = Some bits ->
    (V (VPss (Some d) mgf1 n) (a_public L key) msg sig = true <->
     exists salt, 0 <= salt /\ salt_means bits d n salt /\ a_verify L (Pss d (mgf1_of d mgf1) salt) (a_public L key) msg sig = true);
  gv_ecdsa : forall d public msg r s sig, ecdsa_der r s sig -> V (VEcdsa (Some d)) public msg sig = a_ecdsa_verify L d public msg (r, s);
  gv_ed : forall public msg sig, V VEd public msg sig = a_verify L Ed public msg sig }.

(** ** Contexts *)
(** What the provider knows of a private key is right. *)
Definition data_of (L : alib) (k : stored_key) (d : kdata) : Prop :=
  d_private d = Some k /\ d_type d = k_type k /\ d_curve d = p_curve (k_params k) /\ d_public d = a_public L (k_bytes k) /\
  (k_type k = 2 -> a_parse L 6 (k_bytes k) = Some (d_bits d)).
(** [sig] is what the settings ask for: the digest [d], which has been set, the padding, and with
    PSS the digest of MGF1 and the length of the salt. *)
Definition as_asked (L : alib) (c : sctx) (k : stored_key) (d : Z) (msg sig : list Z) : Prop :=
  let public := a_public L (k_bytes k) in
  (k_type k = 2 /\ c_pad c = 1 /\ a_verify L (Pkcs1 d) public msg sig = true) \/
  (k_type k = 2 /\ c_pad c = 6 /\ exists bits salt, a_parse L 6 (k_bytes k) = Some bits /\ 0 <= salt /\ salt_means bits d (c_salt c) salt /\
    a_verify L (Pss d (mgf1_of d (c_mgf1 c)) salt) public msg sig = true) \/
  (k_type k = 1 /\ nist (p_curve (k_params k)) /\ exists r s, ecdsa_der r s sig /\ a_ecdsa_verify L d public msg (r, s) = true).
Definition uses_pss (c : sctx) (k : stored_key) : Prop := k_type k = 2 /\ c_pad c = 6.
(** The digest of MGF1 is set, or SHA-256 is the digest. *)
Definition mgf1_settled (c : sctx) (d : Z) : Prop :=
  match c_mgf1 c with Some m => known_digest m | None => d = 1 end.
(** The length of the salt is an int. *)
Definition int_salt (c : sctx) : Prop := - 2 ^ 31 <= c_salt c < 2 ^ 31.
(** What a context is set to. *)
Definition settings (c : sctx) : option Z * option Z * Z * Z := (c_md c, c_mgf1 c, c_pad c, c_salt c).
(** Data in pieces. *)
Fixpoint updates (c : sctx) (pieces : list (list Z)) : option sctx :=
  match pieces with
  | [] => Some c
  | p :: ps => match digest_update c p with Some (true, c) => updates c ps | _ => None end
  end.
(** The AlgorithmIdentifiers of RFC 8017 A.2.4, RFC 3279 2.2.3, RFC 5758 3.2 and RFC 8410 3. *)
Definition identifier (k : stored_key) (pss : bool) (d : Z) : option (list Z) :=
  if k_type k =? 2 then
    if pss then None
    else match d with
         | 0 => Some [48; 13; 6; 9; 42; 134; 72; 134; 247; 13; 1; 1; 5; 5; 0]
         | 1 => Some [48; 13; 6; 9; 42; 134; 72; 134; 247; 13; 1; 1; 11; 5; 0]
         | 2 => Some [48; 13; 6; 9; 42; 134; 72; 134; 247; 13; 1; 1; 12; 5; 0]
         | 3 => Some [48; 13; 6; 9; 42; 134; 72; 134; 247; 13; 1; 1; 13; 5; 0]
         | _ => None
         end
  else match p_curve (k_params k), d with
       | 3, _ => Some [48; 5; 6; 3; 43; 101; 112]
       | 5, _ => Some [48; 5; 6; 3; 43; 101; 113]
       | _, 0 => Some [48; 9; 6; 7; 42; 134; 72; 206; 61; 4; 1]
       | _, 1 => Some [48; 10; 6; 8; 42; 134; 72; 206; 61; 4; 3; 2]
       | _, 2 => Some [48; 10; 6; 8; 42; 134; 72; 206; 61; 4; 3; 3]
       | _, 3 => Some [48; 10; 6; 8; 42; 134; 72; 206; 61; 4; 3; 4]
       | _, _ => None
       end.
(** What the provider knows of a public key is right. *)
Definition public_of (L : alib) (k : stored_key) (d : kdata) : Prop :=
  d_type d = k_type k /\ d_curve d = p_curve (k_params k) /\ d_public d = a_public L (k_bytes k).
(** The settings can be met with the key. *)
Definition can_sign (c : sctx) (k : stored_key) (d : Z) : Prop :=
  (k_type k = 1 /\ nist (p_curve (k_params k)) /\ size_allowed 1 (p_curve (k_params k)) (k_size k)) \/
  (k_type k = 2 /\ size_allowed 2 0 (k_size k) /\
   (c_pad c = 1 \/
    (c_pad c = 6 /\ let room := k_size k - digest_length d - 2 in
     (c_salt c = -1 /\ digest_length d <= room) \/ c_salt c = -2 \/ c_salt c = -3 \/ 0 <= c_salt c <= room))).
(** The size that is announced. *)
Definition announced (k : stored_key) : Z := if k_type k =? 1 then 2 * k_size k + 9 else k_size k.
