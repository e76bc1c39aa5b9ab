(** What callers of EVP_PKEY_sign, verify, encrypt and decrypt with the engine's keys rely on. *)
From Verif Require Import Base M_EngPkey.

(** What was asked of a context: its key and purpose, and the settings accepted since. *)
Record asked := MkAsked {
  q_key : Z; q_type : keytype; q_purpose : purpose;
  q_pad : option Z; q_salt : option Z; q_md : option (option md); q_mgf1 : option md; q_label : list Z }.
Definition upd (k : nat -> option asked) (c : nat) (x : option asked) : nat -> option asked :=
  fun y => if Nat.eqb y c then x else k y.
Definition hear (k : nat -> option asked) (e : op * answer) : nat -> option asked :=
  let change c f := match k c with Some q => upd k c (Some (f q)) | None => k end in
  match e with
  | (New c key t p, Fine) => upd k c (Some (MkAsked key t p None None None None []))
  | (SetPad c p, Fine) =>
      change c (fun q => MkAsked (q_key q) (q_type q) (q_purpose q) (Some p) (q_salt q) (q_md q) (q_mgf1 q) (q_label q))
  | (SetSalt c n, Fine) =>
      change c (fun q => MkAsked (q_key q) (q_type q) (q_purpose q) (q_pad q) (Some n) (q_md q) (q_mgf1 q) (q_label q))
  | (SetMd c m, Fine) | (SetOaepMd c m, Fine) =>
      change c (fun q => MkAsked (q_key q) (q_type q) (q_purpose q) (q_pad q) (q_salt q) (Some m) (q_mgf1 q) (q_label q))
  | (SetMgf1 c m, Fine) =>
      change c (fun q => MkAsked (q_key q) (q_type q) (q_purpose q) (q_pad q) (q_salt q) (q_md q) m (q_label q))
  | (SetLabel c l, Fine) =>
      change c (fun q => MkAsked (q_key q) (q_type q) (q_purpose q) (q_pad q) (q_salt q) (q_md q) (q_mgf1 q) l)
  | (Dup c d _ _, Fine) => upd k d (k c)
  | (Free c, Fine) => upd k c None
  | _ => k
  end.
Definition heard (events : list (op * answer)) : nat -> option asked := fold_left hear events (fun _ => None).

(** Settings never asked for: PKCS #1 v1.5 padding, salts as long as possible, and SHA-1 with RSA keys. *)
Definition padding (q : asked) : Z := match q_pad q with Some p => p | None => PKCS1 end.
Definition salt (q : asked) : Z := match q_salt q with Some n => n | None => SALT_AUTO end.
Definition digest (q : asked) : option md :=
  match q_md q with Some m => m | None => match q_type q with RSA _ => Some (Sha 0) | EC => None end end.
Definition mgf1 (q : asked) : md := match q_mgf1 q with Some m => m | None => Sha 0 end.

(** SHA-1, SHA-256, SHA-384 and SHA-512 in bytes. *)
Definition octets (m : md) : Z :=
  match m with Sha d => if d =? 0 then 20 else if d =? 1 then 32 else if d =? 2 then 48 else 64 | OtherMd n => n end.
(** The longest salt there is room for, RFC 8017 9.1.1: the encoded message is one bit shorter than the modulus. *)
Definition longest_salt (bits : Z) (m : md) : Z := (bits - 1 + 7) / 8 - octets m - 2.
Definition salt_of (bits : Z) (m : md) (setting : Z) : Z :=
  if setting =? SALT_DIGEST then octets m
  else if (setting =? SALT_AUTO) || (setting =? SALT_MAX) then longest_salt bits m else setting.

(** Whether OpenSSL, set to verify so, takes signatures of the scheme. *)
Definition takes (t : keytype) (pad : Z) (m g : option md) (setting : Z) (s : scheme) : Prop :=
  match t, s with
  | RSA _, Pkcs1v15 d => pad = PKCS1 /\ m = Some (Sha d)
  | RSA bits, RsaPss d g' n =>
      pad = PSS /\ m = Some (Sha d) /\ g = Some (Sha g') /\
      (if setting =? SALT_DIGEST then n = octets (Sha d)
       else if setting =? SALT_AUTO then True
       else if setting =? SALT_MAX then n = longest_salt bits (Sha d) else n = setting)
  | EC, Ecdsa d => m = Some (Sha d)
  | _, _ => False
  end.
(** Two contexts with the same key and settings. *)
Definition alike (p q : asked) : Prop :=
  q_key p = q_key q /\ q_type p = q_type q /\ q_pad p = q_pad q /\ q_salt p = q_salt q /\ q_md p = q_md q /\
  q_mgf1 p = q_mgf1 q /\ q_label p = q_label q.

(** ** Conditions on the caller and on memory *)

(** A label is set only where there is none. *)
Fixpoint once (l : list op) (w : world) : Prop :=
  match l with
  | [] => True
  | o :: l =>
      match o with SetLabel c _ => match w_ctxs w c with Some a => a_label a = None | None => True end | _ => True end /\
      once l (fst (step o w))
  end.
Definition all_freed (w : world) : Prop := forall c, w_ctxs w c = None.
