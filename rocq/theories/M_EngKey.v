(** Keys loaded through the OpenSSL engine, and how the handle is attached to them: client/src/sa_engine_pkey.c:1270-1325
    ([sa_load_engine_private_pkey]), sa_engine_pkey_data.c (all), sa_engine_pkey_asn1_method.c:46-52 and 77-113, for
    OpenSSL 1.1.1, which has no extra data on keys: the structure of the key is copied byte by byte into a larger one.

    The secure API (the header and the public key of a handle), the allocator and libcrypto are choices of each call.
    An EVP_PKEY has one holder. *)
From Verif Require Import Base.

Inductive kind := Rsa | Ec | Dh | Curve (* Ed25519, Ed448, X25519, X448 *) | Sym.
Definition counted (k : kind) : bool := match k with Rsa | Ec | Dh => true | _ => false end.
Definition MAX_KEY_DATA_LEN : Z := 512.   (* sa_engine_internal.h:47 *)
Definition TYPE_END : Z := 516.           (* the end of [type], sa_engine_internal.h:49-54 *)

(** What an EVP_PKEY points to: a structure of libcrypto with the public key [pub] in a block of [u] bytes, or a pkey_data
    with a copy of it, the handle and the type of the header. *)
Inductive body := Plain (pub u : Z) | Extended (pub h : Z) (t : kind).
Record pkey := MkKey { p_kind : option kind; p_body : option body; p_engine : bool }.
(** Blocks in use: the EVP_PKEYs, the structures, and what the structures of RSA, EC and DH keys point to. *)
Record world := MkWorld { w_pkeys : Z -> option pkey; w_evps : Z; w_structs : Z; w_inner : Z }.
Definition start : world := MkWorld (fun _ => None) 0 0 0.

(** What happens in one load. [room]: OPENSSL_malloc of the pkey_data; [evp]: EVP_PKEY_new; [raw]: EVP_PKEY_new_raw_private_key;
    [eng]: EVP_PKEY_set1_engine. *)
Record luck := MkLuck { l_evp : bool; l_room : bool; l_raw : bool; l_eng : bool }.
Inductive op :=
| Load (h : Z) (header : option kind) (public : option (kind * Z * Z)) (lk : luck) (p : Z)
| Own (k : kind) (pub u : Z) (p : Z)      (* a key the application makes with OpenSSL alone *)
| Free (p : Z)                            (* EVP_PKEY_free *)
| Data (p : Z)                            (* [sa_get_pkey_data] in signing, verifying, encrypting, decrypting *)
| Derive (p : Z).                         (* [sa_get_pkey_data] in deriving, sa_engine_pkey.c:1014-1068: NULL is not checked *)
Inductive answer := Key (p : Z) | Null | Fine | Handle (h : Z) (t : kind) | Refused | Crash | Misuse.

Definition put (w : world) (p : Z) (x : option pkey) : Z -> option pkey := fun y => if y =? p then x else w_pkeys w y.
Definition b2z (b : bool) : Z := if b then 1 else 0.

(** sa_set_pkey_data for a key [k] with structure [pub] in a block of [u] bytes, 68-174: the resulting EVP_PKEY (or NULL),
    the blocks added, and the result. *)
Inductive outcome := Done (x : option pkey) (evps structs inner : Z) (ok : bool) | Overflow.
Definition set_data (k : kind) (pub u h : Z) (t : kind) (lk : luck) : outcome :=
  let '(x, evps) := if counted k                                                          (* 76-112 *)
                    then (if l_evp lk then Some (MkKey None None false) else None, b2z (l_evp lk) - 1)
                    else (Some (MkKey (Some k) (Some (Plain pub u)) false), 0) in         (* 114-129 *)
  if negb (l_room lk) then Done x evps 0 0 false                                          (* 137-141 *)
  else if MAX_KEY_DATA_LEN <? u then Overflow                                             (* 146-147 *)
  else match x with                                                                       (* 149-163 *)
       | Some _ => Done (Some (MkKey (Some k) (Some (Extended pub h t)) false)) evps 0 0 true   (* both: one structure freed, one added *)
       | None => Done None evps (-1) 0 false
       end.
(** sa_load_engine_private_pkey: what was there before [set_data] *)
Definition loaded (w : world) (p : Z) (x : option pkey) (evps structs inner : Z) : world * answer :=
  match x with
  | None => (MkWorld (w_pkeys w) (w_evps w + evps) (w_structs w + structs) (w_inner w + inner), Null)
  | Some q => match w_pkeys w p with
              | Some _ => (w, Misuse)
              | None => (MkWorld (put w p x) (w_evps w + evps) (w_structs w + structs) (w_inner w + inner), Key p)
              end
  end.
Definition with_engine (x : option pkey) (b : bool) : option pkey := match x with Some q => Some (MkKey (p_kind q) (p_body q) b) | None => None end.
Definition step (o : op) (w : world) : world * answer :=
  match o with
  | Load h header public lk p =>
      match header with
      | None => (w, Null)
      | Some Sym =>
          if negb (l_raw lk) then (w, Null)
          else loaded w p (Some (MkKey (Some Sym) (Some (Extended 0 h Sym)) (l_eng lk))) 1 1 0   (* 1293-1299; data.c:165-168 *)
      | Some t =>
          match public with
          | None => (w, Null)
          | Some (k, pub, u) =>
              match set_data k pub u h t lk with
              | Overflow => (w, Crash)
              | Done x evps structs inner true => loaded w p (with_engine x (l_eng lk)) (1 + evps) (1 + structs) (b2z (counted k) + inner)
              | Done x evps structs inner false => loaded w p x (1 + evps) (1 + structs) (b2z (counted k) + inner)   (* 1303-1306, 1325 *)
              end
          end
      end
  | Own k pub u p =>
      match w_pkeys w p with
      | Some _ => (w, Misuse)
      | None => (MkWorld (put w p (Some (MkKey (Some k) (Some (Plain pub u)) false))) (w_evps w + 1) (w_structs w + 1) (w_inner w + b2z (counted k)), Key p)
      end
  | Free p =>
      match w_pkeys w p with
      | None => (w, Misuse)
      | Some q =>
          let has := b2z (match p_body q with Some _ => true | None => false end) in
          (MkWorld (put w p None) (w_evps w - 1) (w_structs w - has) (w_inner w - has * b2z (match p_kind q with Some k => counted k | None => false end)), Fine)
      end
  | Data p | Derive p =>
      let null := match o with Derive _ => Crash | _ => Refused end in
      match w_pkeys w p with
      | None => (w, Misuse)
      | Some q =>
          match p_body q with
          | None => (w, Refused)                                                   (* for [Derive] the types differ, 1015-1020 *)
          | Some (Extended _ h t) => (w, Handle h t)
          | Some (Plain _ u) => if u <? TYPE_END then (w, Crash) else (w, null)   (* data.c:57: [type] is read beyond the structure *)
          end
      end
  end.
Definition crashed (a : answer) : bool := match a with Crash => true | _ => false end.
Fixpoint run (l : list op) (w : world) : world * list (op * answer) :=
  match l with
  | [] => (w, [])
  | o :: l =>
      let '(w1, a) := step o w in
      if crashed a then (w1, [(o, a)]) else let '(w2, r) := run l w1 in (w2, (o, a) :: r)
  end.
