(** Generating and importing keys through the OpenSSL provider: client/src/sa_provider_keymgt.c,
    [ec_get_curve_from_name] 176-205, [keymgmt_has] 266-277, [keymgmt_import] 299-525,
    [keymgmt_gen_init] 764-835, [keymgmt_gen_set_template] 837-856, [keymgmt_gen] 858-946,
    [keymgmt_gen_set_params] 958-1000.  The lives of key objects and of the keys behind them are in
    M_ProvKeys.v; here it is what keys are asked for, so an object is made at once and only its
    header and the key it stands for are kept.

    Around them: OpenSSL 3's EVP_PKEY_keygen_init with parameters, EVP_PKEY_CTX_set_params,
    EVP_PKEY_CTX_new_from_pkey (a template, always of the context's type), EVP_PKEY_keygen and
    EVP_PKEY_fromdata.  Failing OPENSSL_zalloc and NULL arguments are left out. *)
From Coq Require Import String.
From Verif Require Import Base.

(** EVP_PKEY_RSA and so on *)
Inductive kty := RSA | DH | EC | X25519 | X448 | ED25519 | ED448.
Definition kty_eqb (a b : kty) : bool :=
  match a, b with
  | RSA, RSA | DH, DH | EC, EC | X25519, X25519 | X448, X448 | ED25519, ED25519 | ED448, ED448 => true
  | _, _ => false
  end.
(** [sa_type_parameters], sa_types.h 503-518: a union; the curve, an enum of four bytes, shares its place
    with the first bytes of p. *)
Record tp := Tp { t_p : list Z; t_plen : Z; t_g : list Z; t_glen : Z }.
Definition DH_MAX_MOD_SIZE := 512%nat.
Definition zeros : tp := Tp (repeat 0 DH_MAX_MOD_SIZE) 0 (repeat 0 DH_MAX_MOD_SIZE) 0.
Definition word (c : Z) : list Z := [c mod 256; c / 256 mod 256; c / 65536 mod 256; c / 16777216 mod 256].
Definition put_curve (c : Z) (t : tp) : tp := Tp (word c ++ skipn 4 (t_p t)) (t_plen t) (t_g t) (t_glen t).
Definition curve (t : tp) : Z :=
  match t_p t with a :: b :: c :: d :: _ => a + 256 * b + 65536 * c + 16777216 * d | _ => 0 end.
Definition pad (l : list Z) : list Z := l ++ repeat 0 (DH_MAX_MOD_SIZE - length l).

(** sa_elliptic_curve *)
Definition UINT32_MAX := 4294967295.
(** 176-205 *)
Definition curve_of_name (n : string) : Z :=
  let is a := String.eqb a n in
  (if is "prime192v1" || is "P-192" then 7 else if is "secp224r1" || is "P-224" then 8
   else if is "prime256v1" || is "P-256" then 0 else if is "secp384r1" || is "P-384" then 1
   else if is "secp521r1" || is "P-521" then 2 else if is "ED25519" then 3 else if is "X25519" then 4
   else if is "ED448" then 5 else if is "X448" then 6 else UINT32_MAX)%string%Z.
(** sa_public_key.c: [ec_get_key_size], only kept in headers *)
Definition ec_size (c : Z) : Z :=
  if c =? 0 then 32 else if c =? 1 then 48 else if c =? 2 then 66 else if (c =? 3) || (c =? 4) then 32
  else if c =? 5 then 57 else if c =? 6 then 56 else if c =? 7 then 24 else if c =? 8 then 28 else 0.

(** What is asked of the secure API: a modulus of so many bytes, a key on a curve, a key modulo p. *)
Inductive request := AskRsa (bytes : Z) | AskEc (c : Z) | AskDh (p g : list Z).
(** The type parameters and the size in the header of such a key: ta_sa_key_generate.c. *)
Definition made (r : request) : Z * tp :=
  match r with
  | AskRsa n => (n, zeros)
  | AskEc c => (ec_size c, put_curve c zeros)
  | AskDh p g => (zlen p, Tp (pad p) (zlen p) (pad g) (zlen g))
  end.

(** MODP_2048_P, 41-64 *)
Definition MODP_2048_P : list Z := [
  255;255;255;255;255;255;255;255;201;15;218;162;33;104;194;52;196;198;98;139;128;220;28;209;41;2;78;8;138;103;204;116;2;11;190;166;
  59;19;155;34;81;74;8;121;142;52;4;221;239;149;25;179;205;58;67;27;48;43;10;109;242;95;20;55;79;225;53;109;109;81;194;69;
  228;133;181;118;98;94;126;198;244;76;66;233;166;55;237;107;11;255;92;182;244;6;183;237;238;56;107;251;90;137;159;165;174;159;36;17;
  124;75;31;230;73;40;102;81;236;228;91;61;194;0;124;184;161;99;191;5;152;218;72;54;28;85;211;154;105;22;63;168;253;36;207;95;
  131;101;93;35;220;163;173;150;28;98;243;86;32;133;82;187;158;213;41;7;112;150;150;109;103;12;53;78;74;188;152;4;241;116;108;8;
  202;24;33;124;50;144;94;70;46;54;206;59;227;158;119;44;24;14;134;3;155;39;131;162;236;7;162;143;181;197;93;240;111;76;82;201;
  222;43;203;246;149;88;23;24;57;149;73;124;234;149;106;229;21;210;38;24;152;250;5;16;21;114;142;90;138;172;170;104;255;255;255;255;
  255;255;255;255].
Definition MODP_2048_G : list Z := [2].

(** ** Parameters *)

(** RSA_BITS: [Some None] is a value that OSSL_PARAM_get_size_t cannot read.  The group's name. *)
Record params := Params { bits : option (option Z); group : option string }.
Definition MAX_NAME_SIZE := 50%nat.

(** [sa_provider_key_gen_context]; [g_pair]: a key pair is selected, not parameters alone. *)
Record gctx := G { g_ty : kty; g_pair : bool; g_size : Z; g_tp : tp }.
(** [sa_provider_key_data]: type, header, and the key behind it; [k_public]: public_key is not NULL *)
Record kobj := K { k_ty : kty; k_size : Z; k_tp : tp; k_key : option request; k_public : bool }.

(** 958-1000; the answer, and the context as it is left *)
Definition set_group (g : gctx) (p : params) : gctx * bool :=
  match group p with
  | None => (g, true)
  | Some n =>
      if (MAX_NAME_SIZE <=? String.length n)%nat then (g, false)
      else let c := curve_of_name n in (G (g_ty g) (g_pair g) (g_size g) (put_curve c (g_tp g)), negb (c =? UINT32_MAX))
  end.
Definition set_params (g : gctx) (p : params) : gctx * bool :=
  match bits p with
  | Some None => (g, false)
  | Some (Some b) => set_group (G (g_ty g) (g_pair g) (b / 8) (g_tp g)) p
  | None => set_group g p
  end.
(** 783-832 *)
Definition fresh (t : kty) (pair : bool) : gctx :=
  match t with
  | RSA => G t pair 256 (put_curve UINT32_MAX zeros)
  | DH => G t pair 256 (Tp (pad MODP_2048_P) 256 (pad MODP_2048_G) 1)
  | EC => G t pair 0 (put_curve 0 zeros)
  | X25519 => G t pair 0 (put_curve 4 zeros)
  | X448 => G t pair 0 (put_curve 6 zeros)
  | ED25519 => G t pair 0 (put_curve 3 zeros)
  | ED448 => G t pair 0 (put_curve 5 zeros)
  end.
(** 870-902: the parameters for sa_key_generate *)
Definition request_of (t : kty) (size : Z) (p : tp) : request :=
  match t with
  | RSA => AskRsa size
  | DH => AskDh (firstn (Z.to_nat (t_plen p)) (t_p p)) (firstn (Z.to_nat (t_glen p)) (t_g p))
  | _ => AskEc (curve p)
  end.

(** ** Import *)

(** What a caller of EVP_PKEY_fromdata gives.  FFC_P and FFC_G as numbers ([Some None]: cannot be
    read), the group's name, and the bits of the modulus, from the public key or from the parameter
    BITS. *)
Record iparams := I { i_p : option (option Z); i_g : option (option Z); i_group : option string; i_bits : option Z }.
Inductive source :=
| Handle (r : request)                        (* SA_KEY: the handle of such a key *)
| Clear (r : request) (taken : bool)          (* a private key in the clear; the answer of sa_key_import *)
| Public (built : bool) (i : iparams).        (* no private key; whether there is a public key *)

(** BN_num_bytes, and BN_bn2nativepad on a machine that puts the low byte first *)
Definition num_bytes (v : Z) : Z := if v <=? 0 then 0 else Z.log2 v / 8 + 1.
Fixpoint low_first (n : nat) (v : Z) : list Z := match n with O => [] | S n => v mod 256 :: low_first n (v / 256) end.

(** [OutOfBounds]: a write beyond p or g; [FreedTwice]: memory freed twice; [Misuse]: the caller's mistake or
    one that OpenSSL does not let pass *)
Inductive answer := Fine | Refused | Asked (r : request) | OutOfBounds | FreedTwice | Misuse.

(** Whether the key is of the object's type, as EVP_PKEY_fromdata has it. *)
Definition fits (t : kty) (r : request) : bool :=
  match t, r with
  | RSA, AskRsa _ | DH, AskDh _ _ => true
  | EC, AskEc c => (c =? 0) || (c =? 1) || (c =? 2) || (c =? 7) || (c =? 8)
  | X25519, AskEc c => c =? 4
  | X448, AskEc c => c =? 6
  | ED25519, AskEc c => c =? 3
  | ED448, AskEc c => c =? 5
  | _, _ => false
  end.

Definition import (t : kty) (s : source) : kobj + answer :=
  match s with
  | Handle r => inl (K t (fst (made r)) (snd (made r)) (Some r) true)          (* 321-332, 405-416; the types are not compared *)
  | Clear r taken =>
      if negb (fits t r) then inr Refused
      else match t with
           | DH => inr Refused                                                 (* 386-389 *)
           | _ => if taken then inl (K t (fst (made r)) (snd (made r)) (Some r) true) else inr Refused
           end
  | Public built i =>
      match t with
      | DH =>                                                                  (* 428-449 *)
          match i_p i, i_g i with
          | Some None, Some _ => inr Refused
          | Some (Some _), Some None => inr FreedTwice                         (* 436-438, then 512 *)
          | Some (Some p), Some (Some g) =>
              if (512 <? num_bytes p) || (512 <? num_bytes g) then inr OutOfBounds
              else inl (K t (num_bytes p)
                     (Tp (pad (low_first (Z.to_nat (num_bytes p)) p)) (num_bytes p) (pad (low_first (Z.to_nat (num_bytes g)) g)) (num_bytes g))
                     None built)
          | _, _ => inl (K t 0 zeros None built)
          end
      | EC =>                                                                  (* 450-463 *)
          match i_group i with
          | None => inl (K t 0 zeros None built)
          | Some n =>
              if (MAX_NAME_SIZE <=? String.length n)%nat then inr Refused
              else let c := curve_of_name n in inl (K t (ec_size c) (put_curve c zeros) None built)
          end
      | RSA => inl (K t (match i_bits i with Some b => b / 8 | None => 0 end) zeros None built)      (* 464-480 *)
      | X25519 => inl (K t 32 (put_curve 4 zeros) None built)
      | X448 => inl (K t 56 (put_curve 6 zeros) None built)
      | ED25519 => inl (K t 32 (put_curve 3 zeros) None built)
      | ED448 => inl (K t 57 (put_curve 5 zeros) None built)
      end
  end.
(** 266-277; the selection (private key, public key, parameters) is not looked at *)
Inductive selection := PrivatePart | PublicPart | Parameters.
Definition has (k : kobj) (_ : selection) : bool := match k_key k with Some _ => true | None => false end.

(** ** Contexts and objects by name *)

Record world := W { w_g : nat -> option gctx; w_k : nat -> option kobj }.
Definition start : world := W (fun _ => None) (fun _ => None).
Definition set_g (w : world) c x : world := W (fun y => if Nat.eqb y c then x else w_g w y) (w_k w).
Definition set_k (w : world) k x : world := W (w_g w) (fun y => if Nat.eqb y k then x else w_k w y).

Inductive op :=
| Init (c : nat) (t : kty) (pair : bool) (p : params)
| SetParams (c : nat) (p : params)
| SetTemplate (c k : nat)
| Gen (c k : nat) (ok : bool)                  (* a new object k; whether sa_key_generate succeeds *)
| Cleanup (c : nat)
| Import (k : nat) (t : kty) (s : source)      (* a new object k *)
| Drop (k : nat).

Definition step (o : op) (w : world) : world * answer :=
  match o with
  | Init c t both p =>
      match w_g w c with
      | Some _ => (w, Misuse)
      | None => (set_g w c (Some (fst (set_params (fresh t both) p))), Fine)   (* 833: the answer is not looked at *)
      end
  | SetParams c p =>
      match w_g w c with
      | None => (w, Misuse)
      | Some g => let '(g, b) := set_params g p in (set_g w c (Some g), if b then Fine else Refused)
      end
  | SetTemplate c k =>
      match w_g w c, w_k w k with
      | Some g, Some x =>
          if kty_eqb (g_ty g) (k_ty x) then (set_g w c (Some (G (g_ty g) (g_pair g) (k_size x) (k_tp x))), Fine) else (w, Misuse)
      | _, _ => (w, Misuse)
      end
  | Gen c k ok =>
      match w_g w c, w_k w k with
      | Some g, None =>
          if g_pair g then
            let r := request_of (g_ty g) (g_size g) (g_tp g) in
            (if ok then set_k w k (Some (K (g_ty g) (fst (made r)) (snd (made r)) (Some r) true)) else w, Asked r)
          else (set_k w k (Some (K (g_ty g) (g_size g) (g_tp g) None false)), Fine)
      | _, _ => (w, Misuse)
      end
  | Cleanup c => match w_g w c with Some _ => (set_g w c None, Fine) | None => (w, Misuse) end
  | Import k t s =>
      match w_k w k with
      | Some _ => (w, Misuse)
      | None => match import t s with inl x => (set_k w k (Some x), Fine) | inr a => (w, a) end
      end
  | Drop k => match w_k w k with Some _ => (set_k w k None, Fine) | None => (w, Misuse) end
  end.
Fixpoint run (l : list op) (w : world) : world * list (op * answer) :=
  match l with
  | [] => (w, [])
  | o :: l => let '(w1, a) := step o w in let '(w2, r) := run l w1 in (w2, (o, a) :: r)
  end.
