(** Key exchange through the provider: client/src/sa_provider_keyexch.c (all), with the keys of the secure API by handle and
    what sa_key_exchange makes of them (ta_sa_key_exchange.c:37-128 and 130-242: the algorithm has to be that of the key,
    and the other public key of the same group).

    Loading a handle as an EVP_PKEY and initialising with it are one step; how long the handles live is M_ProvKeys.v.
    Failures of the secure API or of memory are a choice [ok].  Simplified: encoding a public key that has an encoding
    does not fail the second time (lines 173 and 186 compare an unsigned length with 0, so that -1 is not seen). *)
From Verif Require Import Base.

Inductive kind := Dh | Ec | X25519 | X448 | Ed | Rsa.
Record group := MkGroup { g_kind : kind; g_id : Z }.
Definition kind_eqb (a b : kind) : bool := match a, b with Dh, Dh | Ec, Ec | X25519, X25519 | X448, X448 | Ed, Ed | Rsa, Rsa => true | _, _ => false end.
Definition group_eqb (a b : group) : bool := kind_eqb (g_kind a) (g_kind b) && (g_id a =? g_id b).
(** The primitive: the value two keys agree on *)
Record lib := MkLib { l_pub : group -> Z -> Z; l_agree : group -> Z -> Z -> Z }.
Inductive secret := Private (g : group) (x : Z) | Shared (v : Z).

(** Lines 33-37: the key (its group, by the header, and its handle) and the other's public key *)
Record ctx := MkCtx { c_key : option (group * Z); c_peer : option (group * Z) }.
Record world := MkWorld { w_keys : Z -> option secret; w_ctx : nat -> option ctx }.
Definition start : world := MkWorld (fun _ => None) (fun _ => None).
Inductive op :=
| Make (h : Z) (g : group) (x : Z) | Release (h : Z)        (* the application's keys in the secure API *)
| New (c : nat) | Init (c : nat) (h : Z) | SetPeer (c : nat) (g : group) (p : Z) | Dup (c d : nat) (ok : bool)
| Size (c : nat) | Derive (c : nat) (room : Z) (ok : bool) (h : Z) | Free (c : nat).
Inductive answer := Fine | Refused | Told (n : Z) | Secret (h : Z) | Crash | Misuse.

Definition set_key (w : world) h s := MkWorld (fun y => if y =? h then s else w_keys w y) (w_ctx w).
Definition set_ctx (w : world) (c : nat) x := MkWorld (w_keys w) (fun d => if Nat.eqb d c then x else w_ctx w d).
(** [true]: SA_KEY_EXCHANGE_ALGORITHM_DH; lines 160-170 *)
Definition algorithm (k : kind) : option bool := match k with Dh => Some true | Ec | X25519 | X448 => Some false | Ed | Rsa => None end.
Definition algorithm_fits (a : bool) (k : kind) : bool := match algorithm k with Some b => Bool.eqb a b | None => false end.
(** sa_key_exchange: a key with the value agreed on *)
Definition exchange (L : lib) (w : world) (a : bool) (h : Z) (g : group) (p : Z) (ok : bool) (h' : Z) : world * answer :=
  match w_keys w h with
  | Some (Private g' x) =>
      if ok && algorithm_fits a (g_kind g') && group_eqb g' g
      then match w_keys w h' with
           | Some _ => (w, Misuse)
           | None => (set_key w h' (Some (Shared (l_agree L g' x p))), Secret h')
           end
      else (w, Refused)
  | _ => (w, Refused)
  end.
Definition step (L : lib) (o : op) (w : world) : world * answer :=
  match o with
  | Make h g x => match w_keys w h with Some _ => (w, Misuse) | None => (set_key w h (Some (Private g x)), Fine) end
  | Release h => match w_keys w h with Some _ => (set_key w h None, Fine) | None => (w, Refused) end
  | New c => match w_ctx w c with Some _ => (w, Misuse) | None => (set_ctx w c (Some (MkCtx None None)), Fine) end   (* 51-72 *)
  | Init c h =>                                                                                                    (* 103-121 *)
      match w_ctx w c, w_keys w h with
      | Some x, Some (Private g _) => (set_ctx w c (Some (MkCtx (Some (g, h)) (c_peer x))), Fine)
      | Some _, _ => (w, Refused)
      | None, _ => (w, Misuse)
      end
  | SetPeer c g p =>                                                                                               (* 209-226 *)
      match w_ctx w c with Some x => (set_ctx w c (Some (MkCtx (c_key x) (Some (g, p)))), Fine) | None => (w, Misuse) end
  | Dup c d ok =>                                                                                                  (* 84-101, keymgt.c:1080-1083 *)
      match w_ctx w c, w_ctx w d with
      | Some x, None =>
          if negb ok then (w, Refused)
          else match c_key x, c_peer x with
               | Some k, Some p => (set_ctx w d (Some (MkCtx (Some k) (Some p))), Fine)
               | _, _ => (w, Crash)
               end
      | _, _ => (w, Misuse)
      end
  | Size c => match w_ctx w c with Some _ => (w, Told 8) | None => (w, Misuse) end                                 (* 139-142 *)
  | Derive c room ok h' =>                                                                                         (* 144-206 *)
      match w_ctx w c with
      | None => (w, Misuse)
      | Some x =>
          if room <? 8 then (w, Refused)
          else match c_key x with
               | None => (w, Crash)
               | Some (g, h) =>
                   match algorithm (g_kind g) with
                   | None => (w, Refused)
                   | Some a => match c_peer x with
                               | None => (w, Crash)
                               | Some (g', p) => exchange L w a h g' p ok h'
                               end
                   end
               end
      end
  | Free c => match w_ctx w c with Some _ => (set_ctx w c None, Fine) | None => (w, Misuse) end                    (* 74-82 *)
  end.
Definition crashed (a : answer) : bool := match a with Crash => true | _ => false end.
Fixpoint run (L : lib) (l : list op) (w : world) : world * list (op * answer) :=
  match l with
  | [] => (w, [])
  | o :: l =>
      let '(w1, a) := step L o w in
      if crashed a then (w1, [(o, a)]) else let '(w2, r) := run L l w1 in (w2, (o, a) :: r)
  end.
