(** MACs through the OpenSSL provider: client/src/sa_provider_mac.c ([mac_newctx] 58-79,
    [mac_freectx] 81-96, [mac_init] 98-167, [mac_update] 169-185, [mac_final] 187-211,
    [mac_get_ctx_params] 213-263, [mac_set_ctx_params] 265-335), with
    [digest_algorithm_from_name] of util/src/digest_util.c, and OpenSSL 3's EVP_MAC_init,
    EVP_MAC_update, EVP_MAC_final and EVP_MAC_CTX_set_params around them (EVP_MAC_final compares the
    caller's room with the size that the context tells before it calls the provider).

    The MAC contexts and the keys of the secure API are tables by handle; handles of new ones are
    the secure API's choice, any not in use.  What the keys are that end up released is also in
    C60.  Failing OPENSSL_zalloc, NULL arguments and the property query are left out. *)
From Verif Require Import Base M_Mac.
From Verif Require M_ProvKdf.
From Coq Require Import String.

(** Digests that OpenSSL's default provider has, with EVP_MD_get0_name and EVP_MD_get_size. *)
Inductive md := Md5 | Sha1 | Sha224 | Sha256 | Sha384 | Sha512 | Sha512_224 | Sha512_256.
Definition md_name (m : md) : string :=
  match m with
  | Md5 => "MD5" | Sha1 => "SHA1" | Sha224 => "SHA2-224" | Sha256 => "SHA2-256" | Sha384 => "SHA2-384" | Sha512 => "SHA2-512"
  | Sha512_224 => "SHA2-512/224" | Sha512_256 => "SHA2-512/256"
  end.
Definition md_size (m : md) : Z :=
  match m with Md5 => 16 | Sha1 => 20 | Sha224 => 28 | Sha256 => 32 | Sha384 => 48 | Sha512 => 64 | Sha512_224 => 28 | Sha512_256 => 32 end.

(** A MAC context of the secure API (M_Mac.v): CMAC, or HMAC with a digest; its key's bytes. *)
Inductive alg := Cmac | Hmac (d : Z).
Record mac := MkMac { m_alg : alg; m_key : list Z; m_data : list Z; m_lost : bool; m_done : bool }.
Definition size_of (a : alg) : Z := match a with Hmac d => digest_length d | Cmac => 16 end.
Definition value (L : lib) (a : alg) (key data : list Z) : list Z :=
  match a with Hmac d => l_hmac L d key data | Cmac => l_cmac L key data end.

(** [sa_provider_mac_context] *)
Record pctx := MkCtx { c_hmac : bool; c_mac : option Z; c_md : option md; c_key : option Z; c_delete : bool }.
Record world := MkWorld { w_ctxs : nat -> option pctx; w_macs : Z -> option mac; w_keys : Z -> option (list Z); w_mds : nat (* digests fetched and not freed *) }.
Definition start : world := MkWorld (fun _ => None) (fun _ => None) (fun _ => None) 0.
Definition set_ctx (w : world) c x := MkWorld (fun y => if Nat.eqb y c then x else w_ctxs w y) (w_macs w) (w_keys w) (w_mds w).
Definition set_mac (w : world) h x := MkWorld (w_ctxs w) (fun y => if y =? h then x else w_macs w y) (w_keys w) (w_mds w).
Definition set_key (w : world) h x := MkWorld (w_ctxs w) (w_macs w) (fun y => if y =? h then x else w_keys w y) (w_mds w).
Definition set_mds (w : world) n := MkWorld (w_ctxs w) (w_macs w) (w_keys w) n.
(** sa_crypto_mac_release and sa_key_release: the handle is valid or nothing happens. *)
Definition drop_mac (w : world) (h : option Z) : world := match h with Some h => set_mac w h None | None => w end.
Definition drop_key (w : world) (h : option Z) : world := match h with Some h => set_key w h None | None => w end.

(** Parameters: DIGEST (not readable, not known to OpenSSL, or fetched), SA_KEY and SA_KEY_DELETE ([Some
    None]: not readable). *)
Inductive mdparam := Unreadable | Unknown | Fetched (m : md).
Record params := Params { p_md : option mdparam; p_key : option (option Z); p_delete : option (option bool) }.

Inductive op :=
| NewKey (h : Z) (b : list Z)                  (* the application makes a key of its own *)
| DropKey (h : Z)
| New (c : nat) (hmac : bool)
| SetParams (c : nat) (p : params)
| Init (c : nat) (key : option (list Z * option Z)) (header : bool) (p : params) (h : Z) (ok : bool)
    (* the caller's bytes with the handle that sa_key_import gives, if it succeeds; the answer of
       sa_key_header; the handle and the answer of sa_crypto_mac_init *)
| Update (c : nat) (l : list Z) (ok : bool)
| Final (c : nat) (room : Z) (ok : bool) (junk : list Z)
| Size (c : nat)
| Free (c : nat).
(** [Crash]: a NULL pointer used; [Misuse]: a call or a choice that cannot be. *)
Inductive answer := Fine | Refused | Tag (t : list Z) | Told (n : Z) | Crash | Misuse.

(** 265-335, on the world and a context taken out of it *)
Definition set_md (w : world) (x : pctx) (p : option mdparam) : world * pctx * bool :=
  match p with
  | None => (w, x, true)
  | Some Unreadable => (w, x, false)
  | Some Unknown => (w, MkCtx (c_hmac x) (c_mac x) None (c_key x) (c_delete x), false)            (* 297-301 *)
  | Some (Fetched m) => (set_mds w (S (w_mds w)), MkCtx (c_hmac x) (c_mac x) (Some m) (c_key x) (c_delete x), true)
  end.
Definition set_sa_key (w : world) (x : pctx) (p : option (option Z)) : world * pctx * bool :=
  match p with
  | None => (w, x, true)
  | Some None => (w, x, false)
  | Some (Some h) =>                                                                            (* 313-322 *)
      let w := drop_key w (c_key x) in
      (w, MkCtx (c_hmac x) (c_mac x) (c_md x) (Some h) (c_delete x), match w_keys w h with Some _ => true | None => false end)
  end.
Definition set_delete (w : world) (x : pctx) (p : option (option bool)) : world * pctx * bool :=
  match p with
  | None => (w, x, true)
  | Some None => (w, x, false)
  | Some (Some d) => (w, MkCtx (c_hmac x) (c_mac x) (c_md x) (c_key x) d, true)
  end.
Definition set_params (w : world) (x : pctx) (p : params) : world * pctx * bool :=
  match set_md w x (p_md p) with
  | (w, x, true) => match set_sa_key w x (p_key p) with (w, x, true) => set_delete w x (p_delete p) | r => r end
  | r => r
  end.
(** 148-163: the algorithm and the digest that are asked for; [None]: EVP_MD_get0_name answers NULL, which
    [digest_algorithm_from_name] reads. *)
Definition algorithm (x : pctx) : option alg :=
  if c_hmac x then match c_md x with Some m => Some (Hmac (M_ProvKdf.digest_from_name (md_name m))) | None => None end else Some Cmac.
Definition known (a : alg) : bool := match a with Hmac d => negb (d =? M_ProvKdf.NO_DIGEST) | Cmac => true end.
(** 140-163 *)
Definition begin (w : world) (x : pctx) (h : Z) (ok : bool) : world * pctx * answer :=
  match c_key x with
  | None => (w, x, Refused)
  | Some k =>
      match algorithm x with
      | None => (w, x, Crash)
      | Some a =>
          match w_keys w k, ok && known a, w_macs w h with
          | Some b, true, None => (set_mac w h (Some (MkMac a b [] false false)), MkCtx (c_hmac x) (Some h) (c_md x) (c_key x) (c_delete x), Fine)
          | _, _, _ => (w, x, Refused)
          end
      end
  end.
(** 98-167 *)
Definition init (w : world) (x : pctx) (key : option (list Z * option Z)) (header : bool) (p : params) (h : Z) (ok : bool) : world * pctx * answer :=
  let w := drop_mac w (c_mac x) in
  let x := MkCtx (c_hmac x) None (c_md x) (c_key x) (c_delete x) in
  let go w x := match set_params w x p with (w, x, true) => begin w x h ok | (w, x, false) => (w, x, Refused) end in
  match key with
  | None => go w x
  | Some (b, new) =>
      let w := drop_key w (c_key x) in                                                         (* 119-120 *)
      match new with
      | None => (w, x, Refused)
      | Some k =>
          let w := set_key w k (Some b) in
          let x := MkCtx (c_hmac x) None (c_md x) (Some k) (c_delete x) in
          if header then go w (MkCtx (c_hmac x) None (c_md x) (Some k) true) else (w, x, Refused)
      end
  end.
(** 213-236: EVP_MD_get_size of NULL is -1, converted to size_t *)
Definition told_size (x : pctx) : Z := if c_hmac x then match c_md x with Some m => md_size m | None => 2 ^ 64 - 1 end else 16.

Definition step (L : lib) (o : op) (w : world) : world * answer :=
  match o with
  | NewKey h b => match w_keys w h with None => (set_key w h (Some b), Fine) | Some _ => (w, Misuse) end
  | DropKey h => (set_key w h None, Fine)
  | New c hmac => match w_ctxs w c with None => (set_ctx w c (Some (MkCtx hmac None None None false)), Fine) | Some _ => (w, Misuse) end
  | SetParams c p =>
      match w_ctxs w c with
      | None => (w, Misuse)
      | Some x => let '(w, x, b) := set_params w x p in (set_ctx w c (Some x), if b : bool then Fine else Refused)
      end
  | Init c key header p h ok =>
      match w_ctxs w c with
      | None => (w, Misuse)
      | Some x =>
          if match key with Some (_, Some k) => match w_keys (drop_key w (c_key x)) k with Some _ => true | None => false end | _ => false end then (w, Misuse)
          else let '(w, x, a) := init w x key header p h ok in (set_ctx w c (Some x), a)
      end
  | Update c l ok =>
      match w_ctxs w c with
      | None => (w, Misuse)
      | Some x =>
          match c_mac x with
          | None => (w, Refused)
          | Some h =>
              match w_macs w h with
              | None => (w, Refused)
              | Some m =>
                  if m_done m then (w, Refused)
                  else if ok then (set_mac w h (Some (MkMac (m_alg m) (m_key m) (m_data m ++ l) (m_lost m) false)), Fine)
                  else (set_mac w h (Some (MkMac (m_alg m) (m_key m) (m_data m) true false)), Refused)
              end
          end
      end
  | Final c room ok junk =>
      match w_ctxs w c with
      | None => (w, Misuse)
      | Some x =>
          if room <? told_size x then (w, Refused)                                             (* OpenSSL *)
          else
            match c_mac x with
            | None => (w, Refused)
            | Some h =>
                match w_macs w h with
                | None => (w, Refused)
                | Some m =>
                    if m_done m then (w, Refused)
                    else if room <? size_of (m_alg m) then (w, Refused)
                    else (set_mac w h (Some (MkMac (m_alg m) (m_key m) (m_data m) (m_lost m) true)),
                          if ok then Tag (if m_lost m then junk else value L (m_alg m) (m_key m) (m_data m)) else Refused)
                end
            end
      end
  | Size c => match w_ctxs w c with None => (w, Misuse) | Some x => (w, Told (told_size x)) end
  | Free c =>
      match w_ctxs w c with
      | None => (w, Misuse)
      | Some x =>
          let w := drop_mac w (c_mac x) in
          let w := if c_delete x then drop_key w (c_key x) else w in
          (set_ctx (set_mds w (match c_md x with Some _ => Nat.pred (w_mds w) | None => w_mds w end)) c None, Fine)
      end
  end.
Definition crashed (a : answer) : bool := match a with Crash => true | _ => false end.
Fixpoint run (L : lib) (l : list op) (w : world) : world * list (op * answer) :=
  match l with
  | [] => (w, [])
  | o :: l =>
      let '(w1, a) := step L o w in
      if crashed a then (w1, [(o, a)])
      else let '(w2, r) := run L l w1 in (w2, (o, a) :: r)
  end.
