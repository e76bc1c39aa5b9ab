(** MACs through the engine: client/src/sa_engine_pkey.c, the parts for symmetric keys
    ([pkey_init] 75-116, [pkey_copy] 118-153, [pkey_cleanup] 155-166, [pkey_mac_init]
    587-632, [pkey_mac_update] 634-670, [pkey_signctx_init] 673-707, [pkey_signctx] 710-741,
    [pkey_ctrl] 1032-1070), sa_engine_digest.c, and OpenSSL 1.1.1's EVP_DigestSignInit,
    EVP_DigestSignUpdate, EVP_DigestSignFinal, EVP_MD_CTX_copy_ex and EVP_MD_CTX_reset around
    them, which say when they are called.  The MAC contexts of the secure API are a table by
    handle with what M_Mac.v says of them; the handle of a new one is the choice of the secure
    API, any that is not in use (handles are slots, and slots are used again).

    Simplified: data is never NULL; a context whose initialisation failed can be copied
    (OpenSSL refuses if no digest was set); calls on contexts that OpenSSL would crash on (not
    allocated, never initialised) are the caller's fault and do nothing here. *)
From Verif Require Import Base M_Mac.

(** The digest given to EVP_DigestSignInit: none, one of the engine's (by sa_digest_algorithm), or another. *)
Inductive md := MdNone | MdSha (d : Z) | MdOther.

(** A MAC context of the secure API. [m_lost]: an update failed inside, nothing is known of its value. *)
Record mac := MkMac { m_key : Z; m_alg : md; m_data : list Z; m_lost : bool; m_done : bool }.
(** The [EVP_PKEY_CTX] inside an [EVP_MD_CTX]: its key, and the handle in [pkey_app_data]. *)
Record pctx := MkPctx { p_key : Z; p_mac : option Z }.
Record mdctx := MkMdctx { c_pctx : option pctx; c_flag : bool (* EVP_MD_CTX_FLAG_FINALISE *) }.
Record world := MkWorld { w_macs : Z -> option mac; w_ctxs : nat -> option mdctx }.
Definition start : world := MkWorld (fun _ => None) (fun _ => None).

Inductive op :=
| New (c : nat)
| SetFlag (c : nat)
| Init (c : nat) (key : Z) (m : md) (h : Z) (ok : bool)      (* [h], [ok]: the secure API's choices *)
| Update (c : nat) (l : list Z) (ok : bool)
| Final (c : nat) (room : Z) (ok : bool) (junk : list Z)
| Length (c : nat)
| Copy (c d : nat)                                            (* from [c] into [d] *)
| Reset (c : nat)
| Free (c : nat).
Inductive answer := Fine | Refused | Tag (t : list Z) | Size (n : Z) | Misuse.

Definition set_mac (w : world) (h : Z) (m : option mac) : world :=
  MkWorld (fun x => if x =? h then m else w_macs w x) (w_ctxs w).
Definition set_ctx (w : world) (c : nat) (x : option mdctx) : world :=
  MkWorld (w_macs w) (fun y => if Nat.eqb y c then x else w_ctxs w y).

(** ta_sa_crypto_mac_release.c: the handle is valid or nothing happens. *)
Definition release (w : world) (h : option Z) : world :=
  match h with Some h => set_mac w h None | None => w end.
(** [pkey_cleanup], sa_engine_pkey.c:155-166, when OpenSSL frees the [EVP_PKEY_CTX]. *)
Definition cleanup (w : world) (p : option pctx) : world :=
  match p with Some p => release w (p_mac p) | None => w end.

Definition size_of (m : md) : Z := match m with MdSha d => digest_length d | _ => 16 end.
(** ta_sa_crypto_mac_init.c by way of [mac_algorithm], sa_engine_pkey.c:609-620: no digest is CMAC. *)
Definition mac_value (L : lib) (bytes : Z -> list Z) (m : mac) : list Z :=
  match m_alg m with MdSha d => l_hmac L d (bytes (m_key m)) (m_data m) | _ => l_cmac L (bytes (m_key m)) (m_data m) end.

(** ta_sa_crypto_mac_process.c *)
Definition process (w : world) (h : option Z) (l : list Z) (ok : bool) : world * answer :=
  match h with
  | None => (w, Refused)
  | Some h =>
      match w_macs w h with
      | None => (w, Refused)
      | Some m =>
          if m_done m then (w, Refused)
          else if ok then (set_mac w h (Some (MkMac (m_key m) (m_alg m) (m_data m ++ l) (m_lost m) false)), Fine)
          else (set_mac w h (Some (MkMac (m_key m) (m_alg m) (m_data m) true false)), Refused)
      end
  end.
(** ta_sa_crypto_mac_compute.c *)
Definition compute (L : lib) (bytes : Z -> list Z) (w : world) (h : option Z) (room : Z) (ok : bool) (junk : list Z) : world * answer :=
  match h with
  | None => (w, Refused)
  | Some h =>
      match w_macs w h with
      | None => (w, Refused)
      | Some m =>
          if m_done m then (w, Refused)
          else if room <? size_of (m_alg m) then (w, Refused)
          else
            (set_mac w h (Some (MkMac (m_key m) (m_alg m) (m_data m) (m_lost m) true)),
             if ok then Tag (if m_lost m then junk else mac_value L bytes m) else Refused)
      end
  end.
Definition compute_size (w : world) (h : option Z) : answer :=
  match h with
  | None => Refused
  | Some h => match w_macs w h with Some m => Size (size_of (m_alg m)) | None => Refused end
  end.

Definition step (L : lib) (bytes : Z -> list Z) (o : op) (w : world) : world * answer :=
  match o with
  | New c => match w_ctxs w c with None => (set_ctx w c (Some (MkMdctx None false)), Fine) | Some _ => (w, Misuse) end
  | SetFlag c =>
      match w_ctxs w c with None => (w, Misuse) | Some x => (set_ctx w c (Some (MkMdctx (c_pctx x) true)), Fine) end
  | Init c key m h ok =>
      match w_ctxs w c with
      | None => (w, Misuse)
      | Some x =>
          (* do_sigver_init makes the EVP_PKEY_CTX if there is none, and keeps its key if there is one *)
          let p := match c_pctx x with Some p => p | None => MkPctx key None end in
          let w1 := set_ctx w c (Some (MkMdctx (Some p) (c_flag x))) in
          match m with
          | MdOther => (w1, Refused)                           (* EVP_DigestInit_ex: the engine has no such digest *)
          | _ =>
              match ok, w_macs w h with
              | true, None =>
                  (set_ctx (set_mac w1 h (Some (MkMac (p_key p) m [] false false))) c
                     (Some (MkMdctx (Some (MkPctx (p_key p) (Some h))) (c_flag x))), Fine)
              | _, _ => (w1, Refused)                          (* the handle in [pkey_app_data] stays *)
              end
          end
      end
  | Update c l ok =>
      match w_ctxs w c with
      | Some (MkMdctx (Some p) _) => process w (p_mac p) l ok
      | _ => (w, Misuse)
      end
  | Final c room ok junk =>
      match w_ctxs w c with
      | Some (MkMdctx (Some p) flag) =>
          let '(w1, a) := compute L bytes w (p_mac p) room ok junk in
          if flag then (w1, a)
          else (cleanup w1 (Some p), a)                        (* EVP_PKEY_CTX_dup, signctx, EVP_PKEY_CTX_free *)
      | _ => (w, Misuse)
      end
  | Length c =>
      match w_ctxs w c with
      | Some (MkMdctx (Some p) _) => (w, compute_size w (p_mac p))
      | _ => (w, Misuse)
      end
  | Copy c d =>
      match w_ctxs w c, w_ctxs w d with
      | Some (MkMdctx (Some p) flag), Some y =>
          if Nat.eqb c d then (w, Misuse)
          else (set_ctx (cleanup w (c_pctx y)) d (Some (MkMdctx (Some p) flag)), Fine)
      | _, _ => (w, Misuse)
      end
  | Reset c =>
      match w_ctxs w c with Some x => (set_ctx (cleanup w (c_pctx x)) c (Some (MkMdctx None false)), Fine) | None => (w, Misuse) end
  | Free c =>
      match w_ctxs w c with Some x => (set_ctx (cleanup w (c_pctx x)) c None, Fine) | None => (w, Misuse) end
  end.
Fixpoint run (L : lib) (bytes : Z -> list Z) (l : list op) (w : world) : world * list (op * answer) :=
  match l with
  | [] => (w, [])
  | o :: l => let '(w1, a) := step L bytes o w in let '(w2, r) := run L bytes l w1 in (w2, (o, a) :: r)
  end.
