(** What a cipher context is meant to compute, over whole messages. *)
From Verif Require Import Base S_Bytes M_Mac M_Cipher.

(** A message in blocks of 16 bytes. *)
Definition in_blocks (msg : list Z) (bs : list (list Z)) : Prop :=
  concat bs = msg /\ Forall (fun b => length b = 16%nat) bs.

(** CBC (SP 800-38A 6.2): c(i) = E(p(i) xor c(i-1)), p(i) = D(c(i)) xor c(i-1). *)
Fixpoint cbc_encryption (E : list Z -> list Z) (prev : list Z) (ps : list (list Z)) : list (list Z) :=
  match ps with [] => [] | p :: ps => let c := E (xor p prev) in c :: cbc_encryption E c ps end.
Fixpoint cbc_decryption (D : list Z -> list Z) (prev : list Z) (cs : list (list Z)) : list (list Z) :=
  match cs with [] => [] | c :: cs => xor (D c) prev :: cbc_decryption D c cs end.

(** A stream cipher: byte [i] of the result is byte [i] of the text xor byte [i] of the key
    stream. *)
Definition streamed (stream : Z -> Z) (text res : list Z) : Prop :=
  length res = length text /\
  forall i, (i < length text)%nat -> nth i res 0 = Z.lxor (nth i text 0) (stream (Z.of_nat i)).

(** [res] is the encryption of [msg] in the modes without padding, then in all. *)
Definition encrypts (L : clib) (a : calg) (key iv msg res : list Z) : Prop :=
  match a with
  | ECB | ECB7 => exists ps, in_blocks msg ps /\ res = concat (map (k_enc L key) ps)
  | CBC | CBC7 => exists ps, in_blocks msg ps /\ res = concat (cbc_encryption (k_enc L key) iv ps)
  | _ => streamed (k_stream L a key iv) msg res
  end.
Definition encryption (L : clib) (a : calg) (key iv msg res : list Z) : Prop :=
  encrypts L a key iv (if is_padded a then pkcs7_pad msg else msg) res.
Definition decrypts (L : clib) (a : calg) (key iv text res : list Z) : Prop :=
  match a with
  | ECB | ECB7 => exists cs, in_blocks text cs /\ res = concat (map (k_dec L key) cs)
  | CBC | CBC7 => exists cs, in_blocks text cs /\ res = concat (cbc_decryption (k_dec L key) iv cs)
  | _ => streamed (k_stream L a key iv) text res
  end.
Definition decryption (L : clib) (a : calg) (key iv text msg : list Z) : Prop :=
  decrypts L a key iv text (if is_padded a then pkcs7_pad msg else msg).
(** The first bytes of the tag. *)
Definition tag_of (L : clib) (a : calg) (key iv aad text : list Z) (n : nat) : list Z :=
  firstn n (k_tag L a key iv aad text).

(** OpenSSL: AES permutes blocks of 16 bytes, tags have 16 bytes. *)
Definition good_clib (L : clib) : Prop :=
  (forall k b, length b = 16%nat -> length (k_enc L k b) = 16%nat) /\
  (forall k b, length b = 16%nat -> length (k_dec L k b) = 16%nat) /\
  (forall k b, length b = 16%nat -> Forall byte_ok b -> Forall byte_ok (k_enc L k b) /\ k_dec L k (k_enc L k b) = b) /\
  (forall a k i d t, length (k_tag L a k i d t) = 16%nat).

(** Vector and associated data of a context that is created. *)
Definition vector_of (a : calg) (p1 p2 : input) : list Z :=
  match a with ECB | ECB7 => [] | CHACHA20 => in_bytes p2 ++ in_bytes p1 | _ => in_bytes p1 end.

(** Calls before the last one: processing [n] bytes of [inb] to an output buffer, or asking
    for the required size.  OpenSSL does not fail in these runs.  [ins], [outs]: what the calls
    that succeeded took from the input and reported in the output. *)
Inductive call := Process (buf inb : list Z) (n : Z) | Ask (n : Z) | AskLast (n : Z).
Inductive runs (L : clib) : ctx -> list call -> ctx -> list Z -> list Z -> Prop :=
| runs_nil : forall c, runs L c [] c [] []
| runs_ok : forall c buf inb n c1 buf1 n1 k1 t calls c2 ins outs,
    process L c (Some buf) inb n None = Result OK c1 buf1 n1 k1 t ->
    runs L c1 calls c2 ins outs ->
    runs L c (Process buf inb n :: calls) c2
         (firstn (Z.to_nat k1) inb ++ ins) (firstn (Z.to_nat n1) buf1 ++ outs)
| runs_refused : forall c buf inb n st c1 buf1 n1 k1 t calls c2 ins outs,
    process L c (Some buf) inb n None = Result st c1 buf1 n1 k1 t -> st <> OK ->
    runs L c1 calls c2 ins outs -> runs L c (Process buf inb n :: calls) c2 ins outs
| runs_ask : forall c inb n st c1 buf1 n1 k1 t calls c2 ins outs,
    process L c None inb n None = Result st c1 buf1 n1 k1 t ->
    runs L c1 calls c2 ins outs -> runs L c (Ask n :: calls) c2 ins outs
| runs_asklast : forall c inb n p st c1 buf1 n1 k1 t calls c2 ins outs,
    process_last L c None inb n p no_faults = Result st c1 buf1 n1 k1 t ->
    runs L c1 calls c2 ins outs -> runs L c (AskLast n :: calls) c2 ins outs.
(** No call hands over 2 GiB or more. *)
Definition short (x : call) : Prop :=
  match x with Process _ _ n => 0 <= n < 2 ^ 31 | _ => True end.
Definition short_aad (a : calg) (p2 : input) : Prop := is_aead a = true -> zlen (in_bytes p2) < 2 ^ 31.
Definition associated_of (a : calg) (p2 : input) : list Z := if is_aead a then in_bytes p2 else [].

(** What a call of process_last has to be given. *)
Definition last_room (a : calg) (n : Z) : Z := if is_padded a then 16 * (n / 16 + 1) else n.
Definition last_args (a : calg) (encrypt : bool) (n : Z) (params : option input) : Prop :=
  a <> ECB /\ a <> CBC /\
  (is_padded a = true -> n <= 16 /\ (encrypt = false -> n mod 16 = 0)) /\
  (a = GCM -> n <= 16) /\
  (encrypt = false -> a = CTR \/ a = CHACHA20 -> n <= 16) /\
  (a = GCM -> exists t, params = Some (Bytes t) /\ (length t <= 16)%nat /\ (encrypt = false -> t <> [])) /\
  (a = POLY1305 -> exists t, params = Some (Bytes t) /\ length t = 16%nat).
(** The tag belongs to the text. *)
Definition tag_matches (L : clib) (a : calg) (key iv aad text : list Z) (params : option input) : Prop :=
  is_aead a = true -> exists t, params = Some (Bytes t) /\ t = tag_of L a key iv aad text (length t).

(** A call of process is acceptable: the output buffer has room for as many bytes as are to be
    processed, the input has that many, and block ciphers get whole blocks. *)
Definition fits (a : calg) (n : Z) (buf inb : list Z) : Prop :=
  n <= zlen buf /\ n <= zlen inb /\ (is_block a = true -> n mod 16 = 0).
(** Behind the first [n] bytes nothing has changed. *)
Definition untouched (n : Z) (buf buf2 : list Z) : Prop := skipn (Z.to_nat n) buf2 = skipn (Z.to_nat n) buf.
(** The decryption of a padded message holds back a block until it knows that it is not the
    last one. *)
Definition holds_back (a : calg) (encrypt : bool) : bool := is_padded a && negb encrypt.
