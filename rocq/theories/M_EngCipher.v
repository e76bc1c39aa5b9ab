(** Model of the ciphers of the OpenSSL engine, reference/src/client/src/sa_engine_cipher.c
    (OpenSSL 1.x).  Around it, what OpenSSL 1.1.1 does with a cipher method (crypto/evp/evp_enc.c):
    - EVP_CipherInit_ex on a context that has this engine's cipher keeps the context and its
      application data ("skip_to_init") and calls the method's init with the caller's pointers;
    - ciphers with EVP_CIPH_FLAG_CUSTOM_CIPHER (GCM, ChaCha20-Poly1305): do_cipher returns a negative
      number for failure; NULL output passes associated data, NULL input finishes;
    - other ciphers: whole blocks are passed to do_cipher, which returns 0 for failure;
    - EVP_CIPHER_CTX_copy copies the pointer to the application data;
    - EVP_CIPHER_CTX_reset and _free call the method's cleanup.
    The secure API below is the machine of [sa]: contexts of its own, each with key, vector,
    associated data and the data processed; any of its calls may fail ([bool] arguments, [true]: it
    works).  Simplifications: one thread; the buffering and padding of the block ciphers is
    OpenSSL's and not shown; the size of a key does not change. *)
From Verif Require Import Base.

Definition bytes := list Z.
Inductive alg := ECB | CBC | CTR | GCM | CHACHA20 | POLY1305.
(** Flags, sa_engine_cipher.c:400-416 *)
Definition custom (a : alg) : bool := match a with GCM | POLY1305 => true | _ => false end.
Definition needs_iv (a : alg) : bool := match a with ECB => false | _ => true end.
Definition TAG : Z := 16.   (* MAX_GCM_TAG_LENGTH *)

(** A context of the secure API. *)
Record sactx := MkSa { s_alg : alg; s_enc : bool; s_key : Z; s_iv : bytes; s_aad : bytes; s_data : bytes; s_done : bool }.

(** sa_engine_cipher.c:102-111.  Pointers to the caller's memory are addresses; [a_tag = None]:
    never written; [a_ctx = None]: INVALID_HANDLE. *)
Record app := MkApp { a_key : option Z; a_iv : option Z; a_enc : bool; a_alg : alg; a_ctx : option nat; a_tag : option bytes }.
(** An EVP_CIPHER_CTX: the cipher, its key length, the application data. *)
Record evp := MkEvp { e_alg : alg; e_len : Z; e_app : option nat }.

Definition upd {X} (f : nat -> X) (i : nat) (x : X) : nat -> X := fun j => if Nat.eqb j i then x else f j.
Definition updz {X} (f : Z -> X) (i : Z) (x : X) : Z -> X := fun j => if Z.eqb j i then x else f j.
Record world := MkWorld {
  w_evp : nat -> option evp;        (* the caller's contexts *)
  w_app : nat -> option app;        (* application data; [None]: freed *)
  w_apps : nat;
  w_sa : nat -> option sactx;       (* contexts of the secure API; [None]: released *)
  w_sas : nat;
  w_keys : Z -> option Z;           (* the caller's memory: key handles and vectors *)
  w_ivs : Z -> option bytes
}.
Definition start : world := MkWorld (fun _ => None) (fun _ => None) 0 (fun _ => None) 0 (fun _ => None) (fun _ => None).
Definition set_evp (w : world) i x := MkWorld (upd (w_evp w) i x) (w_app w) (w_apps w) (w_sa w) (w_sas w) (w_keys w) (w_ivs w).
Definition set_app (w : world) i x := MkWorld (w_evp w) (upd (w_app w) i x) (w_apps w) (w_sa w) (w_sas w) (w_keys w) (w_ivs w).
Definition set_sa (w : world) i x := MkWorld (w_evp w) (w_app w) (w_apps w) (upd (w_sa w) i x) (w_sas w) (w_keys w) (w_ivs w).
Definition new_app (w : world) x :=
  MkWorld (w_evp w) (upd (w_app w) (w_apps w) (Some x)) (S (w_apps w)) (w_sa w) (w_sas w) (w_keys w) (w_ivs w).
Definition new_sa (w : world) x :=
  MkWorld (w_evp w) (w_app w) (w_apps w) (upd (w_sa w) (w_sas w) (Some x)) (S (w_sas w)) (w_keys w) (w_ivs w).
Definition set_key (w : world) i x := MkWorld (w_evp w) (w_app w) (w_apps w) (w_sa w) (w_sas w) (updz (w_keys w) i x) (w_ivs w).
Definition set_iv (w : world) i x := MkWorld (w_evp w) (w_app w) (w_apps w) (w_sa w) (w_sas w) (w_keys w) (updz (w_ivs w) i x).

Inductive op :=
| SetKey (addr : Z) (x : option Z)         (* the caller writes or frees ([None]) a key variable *)
| SetIv (addr : Z) (x : option bytes)      (* the same for the memory of a vector *)
| Open (c : nat) (a : alg) (len : Z)       (* a context with this cipher *)
| Init (c : nat) (key iv : option Z) (enc : bool) (memory : bool)
| Aad (c : nat) (data : bytes) (ok : bool)
| Data (c : nat) (data : bytes) (ok1 ok2 : bool)
| Final (c : nat) (ok1 ok2 : bool)
| GetTag (c : nat) (n : Z)
| SetTag (c : nat) (n : Z) (tag : bytes)
| Copy (c c' : nat)
| Reset (c : nat).
(** Success; failure; success with these bytes; success although nothing was written; success with
    bytes nobody wrote; undefined behaviour. *)
Inductive answer := Done | Refused | Bytes (b : bytes) | Nothing | Unset | Crash.

Section Engine.
(** What the secure API computes: a piece of output, given all that went before; a tag. *)
Variable crypt : alg -> bool -> Z -> bytes -> bytes -> bytes -> bytes -> bytes.
Variable mac : alg -> Z -> bytes -> bytes -> bytes -> bytes.
(** sa_key_header: the size of a key, if there is one. *)
Variable key_size : Z -> option Z.

(** sa_engine_cipher.c:160-206 *)
Definition cipher_init (e : evp) (c : nat) (key iv : option Z) (enc memory : bool) (w : world) : world * answer :=
  let have := match e_app e with
    | Some i => match w_app w i with Some a => Some (w, i, a) | None => None end
    | None =>
        if memory then
          let a := MkApp None None enc (e_alg e) None None in
          Some (set_evp (new_app w a) c (Some (MkEvp (e_alg e) (e_len e) (Some (w_apps w)))), w_apps w, a)
        else None                                             (* malloc: not checked *)
    end in
  match have with
  | None => (w, Crash)
  | Some (w, i, a) =>
      let '(w, a, st) := match key with
        | None => (w, a, Done)
        | Some k =>
            let a := MkApp (Some k) (a_iv a) (a_enc a) (a_alg a) (a_ctx a) (a_tag a) in
            (set_app w i (Some a), a,
             match w_keys w k with
             | None => Crash
             | Some h => match key_size h with Some n => if n =? e_len e then Done else Refused | None => Refused end
             end)
        end in
      match st with
      | Done =>
          match iv with
          | None => (w, Done)
          | Some v => (set_app w i (Some (MkApp (a_key a) (Some v) (a_enc a) (a_alg a) (a_ctx a) (a_tag a))), Done)
          end
      | _ => (w, st)
      end
  end.

(** sa_engine_cipher.c:208-325.  The result as the method returns it, and the bytes written. *)
Inductive dres := DCrash | DRes (n : Z) (written : option bytes).

(** Lines 222-290: the context of the secure API. *)
Definition open_sa (i : nat) (a : app) (aad : bytes) (ok : bool) (w : world) : world * option nat * bool :=
  match a_ctx a with
  | Some h => (w, Some h, false)
  | None =>
      match a_key a with
      | None => (w, None, false)
      | Some k =>
          match w_keys w k, (if needs_iv (a_alg a) then match a_iv a with Some v => Some (w_ivs w v) | None => None end else Some (Some [])) with
          | None, _ => (w, None, true)                                   (* the key variable is gone *)
          | Some _, Some None => (w, None, true)                         (* the vector's memory is gone *)
          | Some _, None => (w, None, false)                             (* no vector: refused below *)
          | Some key, Some (Some iv) =>
              if negb ok then (w, None, false) else
              let s := MkSa (a_alg a) (a_enc a) key iv (if custom (a_alg a) then aad else []) [] false in
              (set_app (new_sa w s) i (Some (MkApp (a_key a) (a_iv a) (a_enc a) (a_alg a) (Some (w_sas w)) (a_tag a))), Some (w_sas w), false)
          end
      end
  end.
(** sa_crypto_cipher_process *)
Definition sa_process (h : nat) (data : bytes) (ok : bool) (w : world) : world * option bytes :=
  match w_sa w h with
  | None => (w, None)
  | Some s =>
      if negb ok || s_done s then (w, None) else
      (set_sa w h (Some (MkSa (s_alg s) (s_enc s) (s_key s) (s_iv s) (s_aad s) (s_data s ++ data) false)),
       Some (crypt (s_alg s) (s_enc s) (s_key s) (s_iv s) (s_aad s) (s_data s) data))
  end.
Definition same (x y : bytes) : bool := if list_eq_dec Z.eq_dec x y then true else false.
(** sa_crypto_cipher_process_last: the tag written by an encryption; a decryption compares. *)
Definition sa_last (h : nat) (tag : bytes) (ok : bool) (w : world) : world * option (option bytes) :=
  match w_sa w h with
  | None => (w, None)
  | Some s =>
      if negb ok || s_done s then (w, None) else
      let w' := set_sa w h (Some (MkSa (s_alg s) (s_enc s) (s_key s) (s_iv s) (s_aad s) (s_data s) true)) in
      let t := mac (s_alg s) (s_key s) (s_iv s) (s_aad s) (s_data s) in
      if s_enc s then (w', Some (Some t)) else (w', if same tag t then Some None else None)
  end.

(** The input: associated data ([out = NULL]), data, or the end ([in = NULL]). *)
Inductive input := InAad (b : bytes) | InData (b : bytes) | InEnd.
Definition do_cipher (e : evp) (inp : input) (ok1 ok2 : bool) (w : world) : world * dres :=
  match e_app e with
  | None => (w, DRes (-1) None)
  | Some i =>
      match w_app w i with
      | None => (w, DCrash)
      | Some a =>
          match a_key a with
          | None => (w, DRes (-1) None)
          | Some _ =>
              let '(w, h, crash) := open_sa i a (match inp with InAad b => b | _ => [] end) ok1 w in
              if crash then (w, DCrash) else
              match h with
              | None => (w, DRes (-1) None)
              | Some h =>
                  match inp with
                  | InAad _ => (w, DRes 1 None)
                  | InData b =>
                      match sa_process h b ok2 w with
                      | (w, Some out) => (w, DRes (zlen b) (Some out))
                      | (w, None) => (w, DRes (-1) None)
                      end
                  | InEnd =>
                      match a_tag a, (match w_sa w h with Some s => s_enc s | None => true end) with
                      | None, false => (w, DCrash)            (* the tag to compare with was never written *)
                      | t, _ =>
                          match sa_last h (match t with Some t => t | None => [] end) ok2 w with
                          | (w, Some (Some tag)) =>
                              (match w_app w i with
                               | Some a => set_app w i (Some (MkApp (a_key a) (a_iv a) (a_enc a) (a_alg a) (a_ctx a) (Some tag)))
                               | None => w
                               end, DRes 0 None)
                          | (w, Some None) => (w, DRes 0 None)
                          | (w, None) => (w, DRes (-1) None)
                          end
                      end
                  end
              end
          end
      end
  end.

(** How OpenSSL reads the result: evp_EncryptDecryptUpdate, EVP_EncryptFinal_ex. *)
Definition reading (e : evp) (r : dres) : answer :=
  match r with
  | DCrash => Crash
  | DRes n out =>
      if custom (e_alg e) then (if n <? 0 then Refused else match out with Some b => Bytes b | None => Done end)
      else (if n =? 0 then Refused else match out with Some b => Bytes b | None => Nothing end)
  end.

(** sa_engine_cipher.c:327-385: EVP_CTRL_AEAD_GET_TAG, EVP_CTRL_AEAD_SET_TAG; [n] is an int. *)
Definition get_tag (e : evp) (n : Z) (w : world) : answer :=
  if 16 <? n then Refused else
  match e_app e with
  | None => Refused
  | Some i =>
      match w_app w i with
      | None => Crash
      | Some a => if n <? 0 then Crash else match a_tag a with Some t => Bytes (firstn (Z.to_nat n) t) | None => if n =? 0 then Bytes [] else Unset end
      end
  end.
Definition set_tag (e : evp) (n : Z) (tag : bytes) (w : world) : world * answer :=
  if 16 <? n then (w, Refused) else
  match e_app e with
  | None => (w, Refused)
  | Some i =>
      match w_app w i with
      | None => (w, Crash)
      | Some a =>
          if n <? 0 then (w, Crash) else
          let t := firstn (Z.to_nat n) tag in
          (set_app w i (Some (MkApp (a_key a) (a_iv a) (a_enc a) (a_alg a) (a_ctx a) (Some (t ++ repeat 0 (16 - length t))))), Done)
      end
  end.

(** sa_engine_cipher.c:387-397 *)
Definition cleanup (e : evp) (w : world) : world * answer :=
  match e_app e with
  | None => (w, Done)
  | Some i =>
      match w_app w i with
      | None => (w, Crash)
      | Some a =>
          let w := match a_ctx a with Some h => set_sa w h None | None => w end in
          (set_app w i None, Done)
      end
  end.

Definition step (o : op) (w : world) : world * answer :=
  let with_ctx c (f : evp -> world * answer) := match w_evp w c with Some e => f e | None => (w, Refused) end in
  match o with
  | SetKey a x => (set_key w a x, Done)
  | SetIv a x => (set_iv w a x, Done)
  | Open c a len => match w_evp w c with Some _ => (w, Refused) | None => (set_evp w c (Some (MkEvp a len None)), Done) end
  | Init c key iv enc memory => with_ctx c (fun e => cipher_init e c key iv enc memory w)
  | Aad c data ok => with_ctx c (fun e =>
      if custom (e_alg e) then let (w, r) := do_cipher e (InAad data) ok true w in (w, reading e r) else (w, Refused))
  | Data c data ok1 ok2 => with_ctx c (fun e => let (w, r) := do_cipher e (InData data) ok1 ok2 w in (w, reading e r))
  | Final c ok1 ok2 => with_ctx c (fun e =>
      if custom (e_alg e) then let (w, r) := do_cipher e InEnd ok1 ok2 w in (w, reading e r) else (w, Done))
  | GetTag c n => with_ctx c (fun e => if custom (e_alg e) then (w, get_tag e n w) else (w, Refused))
  | SetTag c n tag => with_ctx c (fun e => if custom (e_alg e) then set_tag e n tag w else (w, Refused))
  | Copy c c' => with_ctx c (fun e => match w_evp w c' with Some _ => (w, Refused) | None => (set_evp w c' (Some e), Done) end)
  | Reset c => with_ctx c (fun e => let (w, a) := cleanup e w in (set_evp w c None, a))
  end.
Fixpoint run (l : list op) (w : world) : list (op * answer) * world :=
  match l with
  | [] => ([], w)
  | o :: l => let (w1, a) := step o w in let (h, w2) := run l w1 in ((o, a) :: h, w2)
  end.
End Engine.
