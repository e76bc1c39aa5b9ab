(** Cipher contexts on bytes: taimpl/src/internal/symmetric.c, and the parts of
    ta_sa_crypto_cipher_process.c, ta_sa_crypto_cipher_process_last.c and
    ta_sa_crypto_cipher_update_iv.c behind the handles, the rights and the kind of the
    buffers (those are in M_ApiCipher.v).  RSA and ElGamal are not here.

    OpenSSL's cipher contexts are modelled after evp_enc.c: partial blocks are buffered, a
    padded decryption holds back its last block.  The block cipher, the key streams and the
    tags are a record of functions.  Every call of OpenSSL may also fail. *)
From Verif Require Import Base M_Memory M_Mac M_Unwrap.

Inductive calg := ECB | ECB7 | CBC | CBC7 | CTR | GCM | CHACHA20 | POLY1305.
Definition is_block (a : calg) : bool := match a with ECB | ECB7 | CBC | CBC7 => true | _ => false end.
Definition is_padded (a : calg) : bool := match a with ECB7 | CBC7 => true | _ => false end.
Definition is_chained (a : calg) : bool := match a with CBC | CBC7 => true | _ => false end.
Definition is_aead (a : calg) : bool := match a with GCM | POLY1305 => true | _ => false end.

(** EVP_CIPHER_CTX.  [v_iv]: the vector, in CBC mode the last ciphertext block; [v_buf]: bytes
    of an incomplete block; [v_held]: the block held back ([final], [final_used]); [v_pos]:
    bytes processed by a stream cipher; [v_text]: ciphertext so far, for the tag; [v_tag]: the
    tag computed or to be compared; [v_done]: EVP_*Final was called. *)
Record evp := MkEvp {
  v_iv : list Z; v_buf : list Z; v_held : option (list Z); v_pos : Z;
  v_aad : list Z; v_text : list Z; v_tag : option (list Z); v_done : bool }.
Definition fresh (iv aad : list Z) : evp := MkEvp iv [] None 0 aad [] None false.

(** OpenSSL.  [k_enc], [k_dec]: AES under a key; [k_stream a key iv i]: byte [i] of the key
    stream; [k_tag]: the tag over associated data and ciphertext.  [k_ahead]: EVP_DecryptUpdate
    also writes the block it holds back, behind the bytes it reports, as OpenSSL 1.x does (its
    manual demands room for [inl + cipher_block_size] bytes).  [k_again]: what a context of a
    block cipher or of an authenticated one is after EVP_*Final when it is used again, [None]
    if OpenSSL refuses that (versions differ). *)
Record clib := MkClib {
  k_enc : list Z -> list Z -> list Z; k_dec : list Z -> list Z -> list Z;
  k_stream : calg -> list Z -> list Z -> Z -> Z;
  k_tag : calg -> list Z -> list Z -> list Z -> list Z -> list Z;
  k_ahead : bool; k_again : evp -> option evp }.

(** symmetric_context_t, symmetric.c:30-34, with the key that EVP_CIPHER_CTX contains. *)
Record ctx := MkCtx { c_alg : calg; c_encrypt : bool; c_key : list Z; c_evp : evp }.
Definition with_evp (c : ctx) (v : evp) : ctx := MkCtx (c_alg c) (c_encrypt c) (c_key c) v.

(** Byte-wise exclusive or. *)
Definition xor (a b : list Z) : list Z := map (fun p => Z.lxor (fst p) (snd p)) (combine a b).

(** One block; [prev] is the chaining block.  The result and the next chaining block. *)
Definition crypt_block (L : clib) (c : ctx) (prev b : list Z) : list Z * list Z :=
  let a := c_alg c in
  if c_encrypt c
  then if is_chained a then (let o := k_enc L (c_key c) (xor b prev) in (o, o)) else (k_enc L (c_key c) b, prev)
  else if is_chained a then (xor (k_dec L (c_key c) b) prev, b) else (k_dec L (c_key c) b, prev).
Fixpoint crypt_blocks (L : clib) (c : ctx) (prev : list Z) (n : nat) (data : list Z) : list Z * list Z :=
  match n with
  | O => ([], prev)
  | S n =>
      let '(o, prev) := crypt_block L c prev (firstn 16 data) in
      let '(os, prev) := crypt_blocks L c prev n (skipn 16 data) in
      (o ++ os, prev)
  end.
Definition key_stream (L : clib) (c : ctx) (v : evp) (n : nat) : list Z :=
  map (fun i => k_stream L (c_alg c) (c_key c) (v_iv v) (v_pos v + Z.of_nat i)) (seq 0 n).

(** [evp_EncryptDecryptUpdate] of a block cipher: complete blocks are processed, the rest
    is buffered. *)
Definition update_blocks (L : clib) (c : ctx) (v : evp) (data : list Z) : evp * list Z :=
  let all := v_buf v ++ data in
  let n := (length all / 16)%nat in
  let '(o, prev) := crypt_blocks L c (v_iv v) n all in
  (MkEvp prev (skipn (16 * n) all) (v_held v) (v_pos v) (v_aad v) (v_text v) (v_tag v) (v_done v), o).
Definition hold (v : evp) (h : option (list Z)) : evp :=
  MkEvp (v_iv v) (v_buf v) h (v_pos v) (v_aad v) (v_text v) (v_tag v) (v_done v).

(** The context with which a call of OpenSSL begins. *)
Definition reuse (L : clib) (a : calg) (v : evp) : option evp :=
  if v_done v && (is_block a || is_aead a) then k_again L v else Some v.

(** EVP_EncryptUpdate and EVP_DecryptUpdate: the context afterwards and, unless they fail,
    the bytes written and the length reported.  The length is passed as an [int]; a negative
    one is an error.  [fails]: [Some v'] if the call fails, leaving [v']. *)
Definition evp_update (L : clib) (c : ctx) (data : list Z) (fails : option evp) : evp * option (list Z * Z) :=
  let v := c_evp c in
  let k := int_of (zlen data) in
  let data := firstn (Z.to_nat k) data in
  match fails, reuse L (c_alg c) v with
  | Some v', _ => (v', None)
  | None, None => (v, None)
  | None, Some v =>
      if k <? 0 then (v, None)
      else if is_block (c_alg c) then
        if k =? 0 then (v, Some ([], 0))
        else
          let '(v', o) := update_blocks L c v data in
          if is_padded (c_alg c) && negb (c_encrypt c) then
            let all := match v_held v with Some h => h | None => [] end ++ o in
            if (length (v_buf v') =? 0)%nat then
              let n := (length all - 16)%nat in
              (hold v' (Some (skipn n all)), Some (if k_ahead L then all else firstn n all, Z.of_nat n))
            else (hold v' None, Some (all, zlen all))
          else (v', Some (o, zlen o))
      else
        let o := xor data (key_stream L c v (length data)) in
        (MkEvp (v_iv v) (v_buf v) (v_held v) (v_pos v + k) (v_aad v)
               (v_text v ++ (if c_encrypt c then o else data)) (v_tag v) (v_done v), Some (o, k))
  end.

Definition finished (v : evp) (t : option (list Z)) : evp :=
  MkEvp (v_iv v) (v_buf v) (v_held v) (v_pos v) (v_aad v) (v_text v) t true.
Definition list_eqb (a b : list Z) : bool := if list_eq_dec Z.eq_dec a b then true else false.

(** EVP_EncryptFinal and EVP_DecryptFinal: the context and, unless they fail, the bytes
    written. *)
Definition evp_final (L : clib) (c : ctx) (fails : option evp) : evp * option (list Z) :=
  let v := c_evp c in
  let a := c_alg c in
  match fails with
  | Some v' => (v', None)
  | None =>
      if is_aead a then
        let t := k_tag L a (c_key c) (v_iv v) (v_aad v) (v_text v) in
        if c_encrypt c then (finished v (Some t), Some [])
        else match v_tag v with
             | Some g => (finished v (v_tag v), if list_eqb g (firstn (length g) t) then Some [] else None)
             | None => (finished v None, None)
             end
      else if negb (is_block a) then (v, Some [])
      else if negb (is_padded a) then (finished v None, if (length (v_buf v) =? 0)%nat then Some [] else None)
      else if c_encrypt c then
        let p := 16 - zlen (v_buf v) in
        let '(o, prev) := crypt_block L c (v_iv v) (v_buf v ++ repeat p (Z.to_nat p)) in
        (finished (MkEvp prev (v_buf v) (v_held v) (v_pos v) (v_aad v) (v_text v) (v_tag v) (v_done v)) None, Some o)
      else
        (finished v None,
         match v_held v with
         | Some h =>
             let n := last h 0 in
             if (length (v_buf v) =? 0)%nat && (1 <=? n) && (n <=? 16) &&
                list_eqb (skipn (16 - Z.to_nat n) h) (repeat n (Z.to_nat n))
             then Some (firstn (16 - Z.to_nat n) h) else None
         | None => None
         end)
  end.

(** symmetric_create_aes_ecb/cbc/ctr/gcm/chacha20/chacha20_poly1305_encrypt_context and
    _decrypt_context, symmetric.c:126-1235, with OpenSSL 1.1 or later and no failure of OpenSSL
    or of the allocator.  [p1]: vector, counter or nonce; [p2]: associated data, for CHACHA20
    the counter.  Lengths of the vector: 16 bytes, GCM and ChaCha20 12, counter of ChaCha20 4. *)
Definition null (i : input) : bool := match i with Null _ => true | Bytes _ => false end.
Definition create_aead (a : calg) (encrypt : bool) (key : list Z) (iv aad : input) : option ctx :=
  if null iv || negb (in_length iv =? 12) || bad_input aad then None
  else
    let k := int_of (in_length aad) in
    if negb (null aad) && (k <? 0) then None
    else Some (MkCtx a encrypt key (fresh (in_bytes iv) (firstn (Z.to_nat k) (in_bytes aad)))).
Definition create (a : calg) (encrypt : bool) (key : list Z) (p1 p2 : input) : option ctx :=
  let aes := (zlen key =? 16) || (zlen key =? 32) in
  match a with
  | ECB | ECB7 => if negb aes then None else Some (MkCtx a encrypt key (fresh [] []))
  | CBC | CBC7 | CTR =>
      if negb aes || null p1 || negb (in_length p1 =? 16) then None
      else Some (MkCtx a encrypt key (fresh (in_bytes p1) []))
  | GCM => if negb aes then None else create_aead a encrypt key p1 p2
  | CHACHA20 =>
      if negb (zlen key =? 32) || null p2 || negb (in_length p2 =? 4) || null p1 || negb (in_length p1 =? 12) then None
      else Some (MkCtx a encrypt key (fresh (in_bytes p2 ++ in_bytes p1) []))
  | POLY1305 => if negb (zlen key =? 32) then None else create_aead a encrypt key p1 p2
  end.

(** Result of a function that writes to a buffer: [Outside] is a write outside it. *)
Inductive wrote := Wrote (st : status) (c : ctx) (buf : list Z) (len : Z) | Outside.

(** [symmetric_context_encrypt], symmetric.c:1239-1284 ([encrypt]), and
    [symmetric_context_decrypt], 1347-1392, for non-NULL pointers; [buf] is what lies between
    the output pointer and the end of the buffer it points into. *)
Definition context_update (L : clib) (encrypt : bool) (c : ctx) (buf data : list Z) (fails : option evp) : wrote :=
  if negb (Bool.eqb (c_encrypt c) encrypt) then Wrote INVALID_PARAMETER c buf 0
  else if is_block (c_alg c) && negb (zlen data mod 16 =? 0) then Wrote INVALID_PARAMETER c buf 0
  else
    match evp_update L c data fails with
    | (v, None) => Wrote INTERNAL_ERROR (with_evp c v) buf 0
    | (v, Some (w, n)) =>
        match put buf w with Some buf' => Wrote OK (with_evp c v) buf' n | None => Outside end
    end.

(** What [symmetric_context_encrypt_last], symmetric.c:1330-1344, and [..decrypt_last], 1436-
    1450, do in the end: update, then final behind the bytes that update reported. *)
Definition update_final (L : clib) (c : ctx) (buf data : list Z) (fu ff : option evp) : wrote :=
  match evp_update L c data fu with
  | (v, None) => Wrote INTERNAL_ERROR (with_evp c v) buf 0
  | (v, Some (w, n)) =>
      match put buf w with
      | None => Outside
      | Some buf =>
          match evp_final L (with_evp c v) ff with
          | (v, None) => Wrote INTERNAL_ERROR (with_evp c v) buf 0
          | (v, Some f) =>
              match put (skipn (Z.to_nat n) buf) f with
              | None => Outside
              | Some rest => Wrote OK (with_evp c v) (firstn (Z.to_nat n) buf ++ rest) (n + zlen f)
              end
          end
      end
  end.

(** [symmetric_context_encrypt_last], symmetric.c:1286-1345, non-NULL pointers. *)
Definition encrypt_last (L : clib) (c : ctx) (buf data : list Z) (fu ff : option evp) : wrote :=
  if negb (c_encrypt c) then Wrote INVALID_PARAMETER c buf 0
  else if is_block (c_alg c) && negb (is_padded (c_alg c)) then Wrote INVALID_PARAMETER c buf 0
  else if is_padded (c_alg c) && (16 <? zlen data) then Wrote INVALID_PARAMETER c buf 0
  else update_final L c buf data fu ff.

(** [symmetric_context_decrypt_last], symmetric.c:1394-1451, non-NULL pointers. *)
Definition decrypt_last (L : clib) (c : ctx) (buf data : list Z) (fu ff : option evp) : wrote :=
  if c_encrypt c then Wrote INVALID_PARAMETER c buf 0
  else if is_block (c_alg c) && negb (is_padded (c_alg c)) then Wrote INVALID_PARAMETER c buf 0
  else if match c_alg c with POLY1305 => false | _ => 16 <? zlen data end then Wrote INVALID_PARAMETER c buf 0
  else update_final L c buf data fu ff.

(** [symmetric_context_get_tag], symmetric.c:1498-1547, and [symmetric_context_set_tag],
    1549-1595, for a tag of an acceptable length: all callers have checked it.  OpenSSL
    refuses to compare with an empty tag, and to give out a tag before EVP_EncryptFinal. *)
Definition get_tag (c : ctx) (tag : list Z) (fails : bool) : option (list Z) :=
  if fails then None
  else match v_tag (c_evp c) with Some t => put tag (firstn (length tag) t) | None => None end.
Definition set_tag (c : ctx) (tag : list Z) (fails : bool) : option ctx :=
  if fails || (length tag =? 0)%nat then None
  else let v := c_evp c in
       Some (with_evp c (MkEvp (v_iv v) (v_buf v) (v_held v) (v_pos v) (v_aad v) (v_text v) (Some tag) (v_done v))).

(** [symmetric_context_set_iv], symmetric.c:1453-1496, and ta_sa_crypto_cipher_update_iv.c:25-
    96.  EVP_*Init_ex with a vector only forgets buffered and held bytes. *)
Definition update_iv (c : ctx) (iv : input) (fails : option evp) : status * ctx :=
  match iv with
  | Null _ => (NULL_PARAMETER, c)
  | Bytes l =>
      match c_alg c with
      | CBC | CBC7 | CTR =>
          if negb (zlen l =? 16) then (INVALID_PARAMETER, c)
          else match fails with
               | Some v => (INTERNAL_ERROR, with_evp c v)
               | None => (OK, with_evp c (fresh l []))
               end
      | _ => (INVALID_PARAMETER, c)
      end
  end.

(** How a call on a context ends: status, context, the output buffer behind its offset,
    [*bytes_to_process], the number of bytes by which the offset of the input is advanced
    (that of the output is advanced by [*bytes_to_process]) and the tag.  [Corrupts] is a
    write outside the output buffer. *)
Inductive result := Result (st : status) (c : ctx) (buf : list Z) (n : Z) (consumed : Z) (tag : input) | Corrupts.

(** [ta_sa_crypto_cipher_process], ta_sa_crypto_cipher_process.c:375-549, with
    [get_required_length], 30-57, and [ta_sa_crypto_cipher_process_symmetric], 59-147.  [out]:
    NULL or the bytes of the output buffer from its offset on; [inb]: those of the input
    buffer; [n]: *bytes_to_process. *)
Definition process (L : clib) (c : ctx) (out : option (list Z)) (inb : list Z) (n : Z) (fails : option evp) : result :=
  let apply_padding := match out with None => c_encrypt c | Some _ => false end in
  let required := if is_padded (c_alg c) then wrap64 (n + (if apply_padding then 16 else 0)) else n in
  match out with
  | None => Result OK c [] required 0 (Null 0)
  | Some buf =>
      if zlen buf <? required then Result INVALID_PARAMETER c buf n 0 (Null 0)
      else if zlen inb <? n then Result INVALID_PARAMETER c buf n 0 (Null 0)
      else if is_block (c_alg c) && negb (n mod 16 =? 0) then Result INVALID_PARAMETER c buf n 0 (Null 0)
      else
        match context_update L (c_encrypt c) c buf (firstn (Z.to_nat n) inb) fails with
        | Wrote OK c buf len => Result OK c buf len n (Null 0)
        | Wrote s c buf _ => Result s c buf n 0 (Null 0)
        | Outside => Corrupts
        end
  end.

(** What an implementation of process_last does with the result of encrypt_last or
    decrypt_last. *)
Definition last_result (w : wrote) (n : Z) (tag : input) : result :=
  match w with
  | Wrote OK c buf len => Result OK c buf len n tag
  | Wrote s c buf _ => Result s c buf n 0 tag
  | Outside => Corrupts
  end.
(** Failures of OpenSSL during process_last: of update, of final, of the tag. *)
Record faults := MkFaults { f_update : option evp; f_final : option evp; f_tag : bool }.
Definition no_faults : faults := MkFaults None None false.

(** [ta_sa_crypto_cipher_process_last_aes_gcm], ta_sa_crypto_cipher_process_last.c:291-398,
    and [.._chacha20_poly1305], 400-502; [params] is [None] for NULL parameters. *)
Definition last_aead (L : clib) (c : ctx) (buf data : list Z) (n : Z) (params : option input) (f : faults) : result :=
  let tag := match params with Some t => t | None => Null 0 end in
  if match c_alg c with GCM => 16 <? n | _ => false end then Result INVALID_PARAMETER c buf n 0 tag
  else match tag with
  | Null _ => Result NULL_PARAMETER c buf n 0 tag
  | Bytes t =>
      if match c_alg c with GCM => 16 <? zlen t | _ => negb (zlen t =? 16) end then Result INVALID_PARAMETER c buf n 0 tag
      else if c_encrypt c then
        match encrypt_last L c buf data (f_update f) (f_final f) with
        | Wrote OK c buf len =>
            match get_tag c t (f_tag f) with
            | Some t' => Result OK c buf len n (Bytes t')
            | None => Result INTERNAL_ERROR c buf n 0 tag
            end
        | w => last_result w n tag
        end
      else
        match set_tag c t (f_tag f) with
        | None => Result INTERNAL_ERROR c buf n 0 tag
        | Some c => last_result (decrypt_last L c buf data (f_update f) (f_final f)) n tag
        end
  end.

(** [ta_sa_crypto_cipher_process_last], ta_sa_crypto_cipher_process_last.c:504-678, with
    [get_required_length], 29-48, and the functions for PKCS#7, 50-137, AES-CTR, 139-213, and
    ChaCha20, 215-289. *)
Definition process_last (L : clib) (c : ctx) (out : option (list Z)) (inb : list Z) (n : Z) (params : option input)
    (f : faults) : result :=
  let a := c_alg c in
  let tag := match params with Some t => t | None => Null 0 end in
  let required := if is_padded a then wrap64 (PADDED_SIZE n) else if is_block a then 0 else n in
  match out with
  | None => Result OK c [] required 0 tag
  | Some buf =>
      if zlen buf <? required then Result INVALID_PARAMETER c buf n 0 tag
      else if zlen inb <? n then Result INVALID_PARAMETER c buf n 0 tag
      else
        let data := firstn (Z.to_nat n) inb in
        if is_padded a then
          if 16 <? n then Result INVALID_PARAMETER c buf n 0 tag
          else if c_encrypt c then last_result (encrypt_last L c buf data (f_update f) (f_final f)) n tag
          else if negb (n mod 16 =? 0) then Result INVALID_PARAMETER c buf n 0 tag
          else last_result (decrypt_last L c buf data (f_update f) (f_final f)) n tag
        else if is_aead a then last_aead L c buf data n params f
        else if is_block a then Result INVALID_PARAMETER c buf n 0 tag
        else if c_encrypt c then last_result (encrypt_last L c buf data (f_update f) (f_final f)) n tag
        else last_result (decrypt_last L c buf data (f_update f) (f_final f)) n tag
  end.
