(** The ciphers and the keys of the OpenSSL 3 provider: client/src/sa_provider_cipher.c and,
    for the keys, client/src/sa_provider_mac.c.

    A provider's cipher context sits on a cipher context of the API, modelled in M_Cipher.v.
    Not modelled: a library that is out of memory, NULL contexts, the tables of functions,
    reading back parameters, and parameters of a wrong OSSL_PARAM type. *)
From Verif Require Import Base M_Mac M_Cipher.

(** ** Keys *)

(** Symmetric keys by handle.  [sa_key_import] answers with a handle that was free, or fails:
    the choice is an argument. *)
Definition keys := list (Z * list Z).
Fixpoint lookup (ks : keys) (h : Z) : option (list Z) :=
  match ks with
  | [] => None
  | (h', k) :: ks => if h =? h' then Some k else lookup ks h
  end.
(** [sa_key_release]; a handle that is not in use is refused, which the callers ignore. *)
Definition release (ks : keys) (h : Z) : keys := filter (fun e => negb (fst e =? h)) ks.
Definition release_slot (ks : keys) (slot : option Z) : keys :=
  match slot with Some h => release ks h | None => ks end.

(** ** Cipher contexts *)

(** [sa_provider_cipher_context], sa_provider_cipher.c:37-53.  [p_key]: [None] is
    INVALID_HANDLE; [p_cipher]: the API's cipher context; [p_rem]: the first
    remaining_block_length bytes of remaining_block. *)
Record pctx := MkP {
  p_alg : calg; p_ksize : Z; p_encrypt : bool; p_iv : list Z; p_key : option Z; p_delete : bool;
  p_cipher : option ctx; p_tag : list Z; p_rem : list Z }.
(** block_length and iv_length in SA_PROVIDER_CIPHER_FUNCTIONS, 727-742. *)
Definition block_size (a : calg) : Z := if is_block a then 16 else 1.
Definition vector_length (a : calg) : nat := match a with GCM | POLY1305 => 12%nat | _ => 16%nat end.

Definition set_cipher (p : pctx) (c : option ctx) : pctx :=
  MkP (p_alg p) (p_ksize p) (p_encrypt p) (p_iv p) (p_key p) (p_delete p) c (p_tag p) (p_rem p).
Definition set_rem (p : pctx) (r : list Z) : pctx :=
  MkP (p_alg p) (p_ksize p) (p_encrypt p) (p_iv p) (p_key p) (p_delete p) (p_cipher p) (p_tag p) r.
Definition set_tag_bytes (p : pctx) (t : list Z) : pctx :=
  MkP (p_alg p) (p_ksize p) (p_encrypt p) (p_iv p) (p_key p) (p_delete p) (p_cipher p) t (p_rem p).
Definition set_key (p : pctx) (k : option Z) (d : bool) : pctx :=
  MkP (p_alg p) (p_ksize p) (p_encrypt p) (p_iv p) k d (p_cipher p) (p_tag p) (p_rem p).
Definition set_alg (p : pctx) (a : calg) : pctx :=
  MkP a (p_ksize p) (p_encrypt p) (p_iv p) (p_key p) (p_delete p) (p_cipher p) (p_tag p) (p_rem p).

(** [cipher_newctx], 87-120. *)
Definition newctx (a : calg) (ksize : Z) : pctx :=
  MkP a ksize true (repeat 0 16) None false None (repeat 0 16) [].

(** [cipher_freectx], 122-136. *)
Definition freectx (ks : keys) (p : pctx) : keys := if p_delete p then release_slot ks (p_key p) else ks.

(** The parameters of [cipher_set_ctx_params], 589-670: padding, tag, SA_KEY, SA_KEY_DELETE. *)
Record params := MkParams { o_padding : option bool; o_tag : option (list Z); o_key : option Z; o_delete : option bool }.
Definition no_params : params := MkParams None None None None.
Definition with_padding (a : calg) (padded : bool) : calg :=
  match a, padded with
  | ECB, true => ECB7 | CBC, true => CBC7 | ECB7, false => ECB | CBC7, false => CBC | _, _ => a
  end.
(** OSSL_PARAM_get_octet_string into the 16 bytes of the tag: longer ones fail, of shorter
    ones only that many bytes are overwritten. *)
Definition set_ctx_params (ks : keys) (p : pctx) (o : params) : bool * keys * pctx :=
  let p := match o_padding o with Some b => set_alg p (with_padding (p_alg p) b) | None => p end in
  match match o_tag o with Some t => match put (p_tag p) t with Some t => Some (set_tag_bytes p t) | None => None end | None => Some p end with
  | None => (false, ks, p)
  | Some p =>
      let last ks p := (true, ks, match o_delete o with Some d => set_key p (p_key p) d | None => p end) in
      match o_key o with
      | None => last ks p
      | Some h =>
          match lookup ks h with
          | None => (false, ks, p)
          | Some k =>
              if negb (p_ksize p =? zlen k) then (false, ks, p)
              else last (release_slot ks (p_key p)) (set_key p (Some h) (p_delete p))
          end
      end
  end.

(** [cipher_init], 138-206.  [key]: the clear key, if one is given, with the handle that
    sa_key_import answers; [header]: whether sa_key_header then succeeds. *)
Definition init (ks : keys) (p : pctx) (key : option (list Z * option Z)) (header : bool) (iv : option (list Z)) (o : params)
    (encrypt : bool) : bool * keys * pctx :=
  let p := MkP (p_alg p) (p_ksize p) encrypt (p_iv p) (p_key p) (p_delete p) None (p_tag p) (p_rem p) in
  match match iv with
        | Some v => match put (p_iv p) v with
                    | Some v => Some (MkP (p_alg p) (p_ksize p) encrypt v (p_key p) (p_delete p) None (p_tag p) (p_rem p))
                    | None => None
                    end
        | None => Some p
        end with
  | None => (false, ks, p)
  | Some p =>
      match key with
      | None => set_ctx_params ks p o
      | Some (_, None) => (false, release_slot ks (p_key p), p)
      | Some (k, Some h) =>
          let ks := (h, k) :: release_slot ks (p_key p) in
          if negb header then (false, ks, set_key p (Some h) (p_delete p))
          else if negb (p_ksize p =? zlen k) then (false, ks, set_key p (Some h) (p_delete p))
          else set_ctx_params ks (set_key p (Some h) true) o
      end
  end.

(** How [cipher_cipher] ends: its answer, the context, the output buffer and, if it has been
    written, *outl.  [PCorrupts] is a write outside a buffer, [PSpins] a loop that goes on. *)
Inductive presult := Done (ret : bool) (p : pctx) (out : list Z) (outl : option Z) | PCorrupts | PSpins.

(** The creation of the API's context, 273-342; [aad]: the input if there is no output buffer.
    [refused]: sa_crypto_cipher_init fails for another reason than its parameters. *)
Definition start (ks : keys) (p : pctx) (aad : input) (refused : bool) : option ctx :=
  match p_key p with
  | None => None
  | Some h =>
      match lookup ks h, refused with
      | Some k, false =>
          let iv := firstn (vector_length (p_alg p)) (p_iv p) in
          match p_alg p with
          | CHACHA20 => create CHACHA20 (p_encrypt p) k (Bytes (skipn 4 iv)) (Bytes (firstn 4 iv))
          | GCM | POLY1305 => create (p_alg p) (p_encrypt p) k (Bytes iv) aad
          | a => create a (p_encrypt p) k (Bytes iv) (Null 0)
          end
      | _, _ => None
      end
  end.

(** The loop of an update, 349-387.  [out], [off]: the output buffer and its offset; [total],
    [pos]: total_length and position; [st]: the status of the last call of
    sa_crypto_cipher_process, of which [faults] says which fail; [sum]: total_processed.  Only
    as many bytes of the output as are reported are copied back to it. *)
Definition splice (out : list Z) (off : nat) (b : list Z) : list Z :=
  firstn off out ++ b ++ skipn (off + length b) out.
Inductive looped := Loop (st : status) (p : pctx) (c : ctx) (out : list Z) (pos : nat) (sum : Z) | LCorrupts | LSpins.
Fixpoint update_loop (fuel : nat) (L : clib) (p : pctx) (c : ctx) (out : list Z) (off : nat) (inp : list Z) (total : Z)
    (pos : nat) (st : status) (sum : Z) (faults : list (option evp)) : looped :=
  let bs := block_size (p_alg p) in
  if total <? bs then Loop st p c out pos sum
  else
    match fuel with
    | O => LSpins
    | S fuel =>
        let '(p1, block, n, pos1) :=
          match p_rem p with
          | [] => let n := (zlen inp - Z.of_nat pos) / bs * bs in (p, skipn pos inp, n, (pos + Z.to_nat n)%nat)
          | r => let k := (Z.to_nat bs - length r)%nat in (set_rem p [], r ++ firstn k (skipn pos inp), 16, (pos + k)%nat)
          end in
        match process L c (Some (skipn off out)) block n (hd None faults) with
        | Result OK c1 buf1 n1 _ _ =>
            let b := firstn (Z.to_nat n1) buf1 in
            update_loop fuel L p1 c1 (splice out off b) (off + Z.to_nat n1) inp (total - n) pos1 OK (sum + n1) (tl faults)
        | Result s c1 _ n1 _ _ => update_loop fuel L p1 c1 out off inp (total - n) pos1 s (sum + n1) (tl faults)
        | Corrupts => LCorrupts
        end
    end.

(** [cipher_cipher], 247-438: update with input, final without.  [out]: NULL or the [outsize]
    bytes of the output buffer; [inp]: NULL or the input.  [refused], [pf], [lf]: failures
    below. *)
Definition cipher_cipher (L : clib) (ks : keys) (p : pctx) (out : option (list Z)) (inp : option (list Z))
    (refused : bool) (pf : list (option evp)) (lf : faults) : presult :=
  let buf := match out with Some b => b | None => [] end in
  if match p_key p with None => true | Some _ => false end then Done false p buf None
  else
    let aad := match out, inp with None, Some d => Bytes d | _, _ => Null 0 end in
    match match p_cipher p with Some c => Some c | None => start ks p aad refused end with
    | None => Done false p buf None
    | Some c =>
        let p := set_cipher p (Some c) in
        match out, inp with
        | None, _ => Done true p [] (Some 0)
        | Some out, Some data =>
            match update_loop 2 L p c out 0 data (zlen (p_rem p) + zlen data) 0 OK 0 pf with
            | Loop st p1 c1 out1 pos sum =>
                let p1 := set_cipher p1 (Some c1) in
                let p1 := if (pos <? length data)%nat then set_rem p1 (skipn pos data) else p1 in
                match st with OK => Done true p1 out1 (Some sum) | _ => Done false p1 out1 (Some 0) end
            | LCorrupts => PCorrupts
            | LSpins => PSpins
            end
        | Some out, None =>
            if match p_alg p with CBC | ECB => true | _ => false end then
              match p_rem p with
              | [] => Done true p out (Some 0)
              | _ => Done false p out (Some 0)
              end
            else
              let tag := if is_aead (p_alg p) then Some (Bytes (p_tag p)) else None in
              match process_last L c (Some out) (p_rem p) (zlen (p_rem p)) tag lf with
              | Result st c1 buf1 n1 _ t1 =>
                  let p1 := set_cipher p (Some c1) in
                  let p1 := match t1 with Bytes t => set_tag_bytes p1 t | Null _ => p1 end in
                  match st with
                  | OK => Done true p1 (splice out 0 (firstn (Z.to_nat n1) buf1)) (Some n1)
                  | _ => Done false p1 out (Some 0)
                  end
              | Corrupts => PCorrupts
              end
        end
    end.

(** EVP_EncryptUpdate/EVP_DecryptUpdate and EVP_*Final_ex of OpenSSL 3 pass this many bytes of
    the output buffer, which their manual asks the caller to provide (evp_enc.c). *)
Definition update_room (a : calg) (n : Z) : Z := n + (if block_size a =? 1 then 0 else block_size a).
Definition final_room (a : calg) : Z := if block_size a =? 1 then 0 else block_size a.

(** ** MAC contexts: their keys *)

(** [sa_provider_mac_context], sa_provider_mac.c:36-43, without the digest. *)
Record pmac := MkPMac { m_key : option Z; m_delete : bool; m_running : bool }.
Definition mac_newctx : pmac := MkPMac None false false.
(** [mac_freectx], 81-96. *)
Definition mac_freectx (ks : keys) (m : pmac) : keys := if m_delete m then release_slot ks (m_key m) else ks.
(** [mac_set_ctx_params], 265-335: the former key is released before the new one is looked
    at. *)
Definition mac_set_ctx_params (ks : keys) (m : pmac) (key : option Z) (delete : option bool) : bool * keys * pmac :=
  let last ks m := (true, ks, match delete with Some d => MkPMac (m_key m) d (m_running m) | None => m end) in
  match key with
  | None => last ks m
  | Some h =>
      let ks := release_slot ks (m_key m) in
      let m := MkPMac (Some h) (m_delete m) (m_running m) in
      match lookup ks h with Some _ => last ks m | None => (false, ks, m) end
  end.
(** [mac_init], 98-167. *)
Definition mac_init (ks : keys) (m : pmac) (key : option (list Z * option Z)) (header : bool) (okey : option Z) (delete : option bool)
    (refused : bool) : bool * keys * pmac :=
  let m := MkPMac (m_key m) (m_delete m) false in
  let go ks m :=
    match mac_set_ctx_params ks m okey delete with
    | (true, ks, m) =>
        match m_key m with
        | Some h => if refused || match lookup ks h with Some _ => false | None => true end then (false, ks, m)
                    else (true, ks, MkPMac (m_key m) (m_delete m) true)
        | None => (false, ks, m)
        end
    | r => r
    end in
  match key with
  | None => go ks m
  | Some (_, None) => (false, release_slot ks (m_key m), m)
  | Some (k, Some h) =>
      let ks := (h, k) :: release_slot ks (m_key m) in
      if negb header then (false, ks, MkPMac (Some h) (m_delete m) false) else go ks (MkPMac (Some h) true false)
  end.
