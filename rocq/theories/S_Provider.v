(** What applications expect of the ciphers and keys of the OpenSSL provider. *)
From Verif Require Import Base S_Bytes M_Mac M_Cipher S_Cipher M_Provider.

(** ** Messages *)

(** A context that has been initialised and has not been used since. *)
Definition good_key (a : calg) (k : list Z) : Prop :=
  match a with CHACHA20 | POLY1305 => zlen k = 32 | _ => zlen k = 16 \/ zlen k = 32 end.
Definition ready (ks : keys) (p : pctx) (a : calg) (encrypt : bool) (key : list Z) : Prop :=
  p_alg p = a /\ p_encrypt p = encrypt /\ p_cipher p = None /\ length (p_iv p) = 16%nat /\ length (p_tag p) = 16%nat /\
  good_key a key /\ exists h, p_key p = Some h /\ lookup ks h = Some key.
(** Its vector. *)
Definition vector (p : pctx) : list Z :=
  match p_alg p with ECB | ECB7 => [] | GCM | POLY1305 => firstn 12 (p_iv p) | _ => p_iv p end.

(** Nothing fails below.  EVP_*Update with input and a buffer of the size that its manual asks
    for; with associated data and no output buffer; EVP_*Final_ex. *)
Definition update (L : clib) (ks : keys) (p : pctx) (out data : list Z) : presult :=
  cipher_cipher L ks p (Some out) (Some data) false [] no_faults.
Definition update_aad (L : clib) (ks : keys) (p : pctx) (data : list Z) : presult :=
  cipher_cipher L ks p None (Some data) false [] no_faults.
Definition final (L : clib) (ks : keys) (p : pctx) (out : option (list Z)) : presult :=
  cipher_cipher L ks p out None false [] no_faults.
(** Associated data, if there are any. *)
Inductive begins (L : clib) (ks : keys) (p : pctx) : option (list Z) -> pctx -> Prop :=
| begins_plain : begins L ks p None p
| begins_aad : forall d p1 n, update_aad L ks p d = Done true p1 [] n -> begins L ks p (Some d) p1.
Definition associated (a : calg) (aad : option (list Z)) : list Z :=
  if is_aead a then match aad with Some d => d | None => [] end else [].
Definition aad_short (aad : option (list Z)) : Prop := match aad with Some d => zlen d < 2 ^ 31 | None => True end.
(** Updates with these pieces of a message succeed and report this output. *)
Inductive updates (L : clib) (ks : keys) : pctx -> list (list Z) -> pctx -> list Z -> Prop :=
| updates_nil : forall p, updates L ks p [] p []
| updates_cons : forall p d ds out p1 out1 n p2 outs,
    zlen out = update_room (p_alg p) (zlen d) ->
    update L ks p out d = Done true p1 out1 (Some n) -> updates L ks p1 ds p2 outs ->
    updates L ks p (d :: ds) p2 (firstn (Z.to_nat n) out1 ++ outs).

(** No piece is lost: for block ciphers every piece completes the block that the pieces before
    it have left incomplete ([rem] bytes), unless it or that rest is empty. *)
Fixpoint completes (rem : Z) (ds : list (list Z)) : Prop :=
  match ds with
  | [] => True
  | d :: ds => (rem = 0 \/ d = [] \/ 16 <= rem + zlen d) /\ completes ((rem + zlen d) mod 16) ds
  end.
(** What becomes of the pieces otherwise: a piece that does not complete the block replaces
    the rest. *)
Definition joined (rest d : list Z) : list Z :=
  match rest, d with
  | _ :: _, _ :: _ => if zlen rest + zlen d <? 16 then d else rest ++ d
  | _, _ => rest ++ d
  end.
Fixpoint kept (rest : list Z) (ds : list (list Z)) : list Z :=
  match ds with
  | [] => rest
  | d :: ds =>
      let all := joined rest d in
      let n := (16 * (length all / 16))%nat in
      firstn n all ++ kept (skipn n all) ds
  end.

(** The message has a length the mode can process. *)
Definition complete (a : calg) (msg : list Z) : bool :=
  match a with ECB | CBC => zlen msg mod 16 =? 0 | _ => true end.

(** A context that has its key, whatever it has been used for; and the vector it has been given. *)
Definition has_key (ks : keys) (p : pctx) (a : calg) (key : list Z) : Prop :=
  p_alg p = a /\ length (p_iv p) = 16%nat /\ length (p_tag p) = 16%nat /\ good_key a key /\
  exists h, p_key p = Some h /\ lookup ks h = Some key.
Definition new_vector (a : calg) (iv : list Z) : list Z := match a with ECB | ECB7 => [] | _ => iv end.

(** ** Keys *)

(** An application's use of a cipher context, as far as it matters for keys: initialisation,
    setting parameters, processing.  Handles that sa_key_import answers were free. *)
Definition free_handle (ks : keys) (key : option (list Z * option Z)) : Prop :=
  match key with Some (_, Some h) => lookup ks h = None | _ => True end.
Inductive use :=
| Init (key : option (list Z * option Z)) (header : bool) (iv : option (list Z)) (o : params) (encrypt : bool)
| Set_params (o : params)
| Cipher (out : option (list Z)) (inp : option (list Z)) (refused : bool) (pf : list (option evp)) (lf : faults).
Definition used (L : clib) (ks : keys) (p : pctx) (u : use) (ks2 : keys) (p2 : pctx) : Prop :=
  match u with
  | Init key header iv o encrypt => free_handle ks key /\ exists b, init ks p key header iv o encrypt = (b, ks2, p2)
  | Set_params o => exists b, set_ctx_params ks p o = (b, ks2, p2)
  | Cipher out inp refused pf lf => ks2 = ks /\ exists b o n, cipher_cipher L ks p out inp refused pf lf = Done b p2 o n
  end.
Inductive uses (L : clib) : keys -> pctx -> list use -> keys -> pctx -> Prop :=
| uses_nil : forall ks p, uses L ks p [] ks p
| uses_cons : forall ks p u ks1 p1 us ks2 p2, used L ks p u ks1 p1 -> uses L ks1 p1 us ks2 p2 -> uses L ks p (u :: us) ks2 p2.
(** The application gives the context the key [h]. *)
Definition gives (u : use) (h : Z) : Prop :=
  match u with Init _ _ _ o _ => o_key o = Some h | Set_params o => o_key o = Some h | Cipher _ _ _ _ _ => False end.
(** It gives it no key and does not change who owns the one it has. *)
Definition same_key (u : use) : Prop :=
  match u with
  | Init key _ _ o _ => key = None /\ o_key o = None /\ o_delete o = None
  | Set_params o => o_key o = None /\ o_delete o = None
  | Cipher _ _ _ _ _ => True
  end.

(** The two forms of a block mode: with and without padding. *)
Definition padded (a : calg) : calg := match a with ECB | ECB7 => ECB7 | CBC | CBC7 => CBC7 | _ => a end.
Definition unpadded (a : calg) : calg := match a with ECB | ECB7 => ECB | CBC | CBC7 => CBC | _ => a end.
(** The application does not speak of padding. *)
Definition no_padding (u : use) : Prop :=
  match u with Init _ _ _ o _ => o_padding o = None | Set_params o => o_padding o = None | Cipher _ _ _ _ _ => True end.

(** The same for the contexts of MACs. *)
Inductive mac_use :=
| Mac_init (key : option (list Z * option Z)) (header : bool) (okey : option Z) (delete : option bool) (refused : bool)
| Mac_set_params (okey : option Z) (delete : option bool).
Definition mac_used (ks : keys) (m : pmac) (u : mac_use) (ks2 : keys) (m2 : pmac) : Prop :=
  match u with
  | Mac_init key header okey delete refused => free_handle ks key /\ exists b, mac_init ks m key header okey delete refused = (b, ks2, m2)
  | Mac_set_params okey delete => exists b, mac_set_ctx_params ks m okey delete = (b, ks2, m2)
  end.
Inductive mac_uses : keys -> pmac -> list mac_use -> keys -> pmac -> Prop :=
| mac_uses_nil : forall ks m, mac_uses ks m [] ks m
| mac_uses_cons : forall ks m u ks1 m1 us ks2 m2, mac_used ks m u ks1 m1 -> mac_uses ks1 m1 us ks2 m2 -> mac_uses ks m (u :: us) ks2 m2.
Definition mac_gives (u : mac_use) (h : Z) : Prop :=
  match u with Mac_init _ _ okey _ _ => okey = Some h | Mac_set_params okey _ => okey = Some h end.
Definition mac_same_key (u : mac_use) : Prop :=
  match u with
  | Mac_init key _ okey delete _ => key = None /\ okey = None /\ delete = None
  | Mac_set_params okey delete => okey = None /\ delete = None
  end.
