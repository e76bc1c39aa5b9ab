(** Model of taimpl/src/internal/cenc.c and of the sample checks and the sample loop of
    taimpl/src/ta_sa_process_common_encryption.c, over byte memory.  Rights, locking and the
    lookup of contexts are in M_ApiCipher; here is what happens to the data.

    Lengths and counters are 64-bit words; additions and multiplications that can wrap in
    the code are wrapped here. *)
From Verif Require Import Base M_Memory M_Svp.

(** What an execution can come to: a value, an access outside live memory, a copy between
    overlapping ranges, or not to an end within the given number of loop iterations. *)
Inductive cres (A : Type) := CDone (a : A) | CFault | COverlap | CSpin.
Arguments CDone {A}. Arguments CFault {A}. Arguments COverlap {A}. Arguments CSpin {A}.
Definition bind {A B} (r : cres A) (f : A -> cres B) : cres B :=
  match r with CDone a => f a | CFault => CFault | COverlap => COverlap | CSpin => CSpin end.
Notation "'do' x <- r ; f" := (bind r (fun x => f)) (at level 200, x name, r at level 100, f at level 200, right associativity).
Notation "'do' ' p <- r ; f" := (bind r (fun x => match x with p => f end))
  (at level 200, p pattern, r at level 100, f at level 200, right associativity).
Definition of_mres {A} (r : mres A) : cres A :=
  match r with MOk a => CDone a | MFault => CFault | MOverlap => COverlap end.

(** The 16 bytes of an initialisation vector as two big-endian 64-bit numbers. *)
Record iv := MkIv { iv_nonce : Z; iv_counter : Z }.
Definition be_byte (i n : Z) : Z := (n / 256 ^ (7 - i)) mod 256.
Definition iv_byte (v : iv) (i : Z) : Z :=
  if i <? 8 then be_byte i (iv_nonce v) else be_byte (i - 8) (iv_counter v).
(** OpenSSL's counter: all 16 bytes are one number. *)
Definition ctr_add (v : iv) (k : Z) : iv :=
  let n := iv_nonce v * W64 + iv_counter v + k in MkIv (wrap64 (n / W64)) (wrap64 n).

(** The block cipher under the key of the context: [e_stream v i] is byte [i] of the
    encryption of block [v]; [e_dec b i] is byte [i] of the decryption of block [b]. *)
Record engine := MkEngine { e_stream : iv -> Z -> Z; e_dec : list Z -> Z -> Z }.
(** The block of 16 bytes at position [a]. *)
Definition block_at (src : Z -> Z) (a : Z) : list Z := map (fun i => src (a + Z.of_nat i)) (seq 0 16).

(** State of an OpenSSL cipher context: in counter mode the vector last set and the number
    of bytes processed since; in CBC mode the last ciphertext block. *)
Inductive evp := Ctr (v : iv) (used : Z) | Cbc (prev : Z -> Z).
Definition is_ctr (e : evp) : bool := match e with Ctr _ _ => true | Cbc _ => false end.

(** [c_iv], [c_enc]: the variables [iv] and [enc_byte_count] of cenc_process_sample;
    [c_calls]: number of calls of OpenSSL so far; call [i] succeeds if [c_ans i]. *)
Record cst := MkCst { c_mem : mem; c_evp : evp; c_iv : iv; c_enc : Z; c_calls : nat; c_ans : nat -> bool }.
Definition set_mem (s : cst) (m : mem) : cst := MkCst m (c_evp s) (c_iv s) (c_enc s) (c_calls s) (c_ans s).
Definition set_evp (s : cst) (e : evp) : cst := MkCst (c_mem s) e (c_iv s) (c_enc s) (c_calls s) (c_ans s).
Definition set_counter (s : cst) (n : Z) : cst :=
  MkCst (c_mem s) (c_evp s) (MkIv (iv_nonce (c_iv s)) n) (c_enc s) (c_calls s) (c_ans s).
Definition set_iv_var (s : cst) (v : iv) : cst := MkCst (c_mem s) (c_evp s) v (c_enc s) (c_calls s) (c_ans s).
Definition set_enc (s : cst) (n : Z) : cst := MkCst (c_mem s) (c_evp s) (c_iv s) n (c_calls s) (c_ans s).
Definition called (s : cst) : cst := MkCst (c_mem s) (c_evp s) (c_iv s) (c_enc s) (S (c_calls s)) (c_ans s).
Definition answer (s : cst) : bool := c_ans s (c_calls s).

(** Conversion of a [size_t] to [int], as on the usual platforms. *)
Definition to_int (n : Z) : Z := let k := n mod 2 ^ 32 in if k <? 2 ^ 31 then k else k - 2 ^ 32.

(** Byte [j] of what a decryption of the bytes [src] gives, and the context afterwards. *)
Definition evp_byte (g : engine) (e : evp) (src : Z -> Z) (j : Z) : Z :=
  match e with
  | Ctr v used => Z.lxor (src j) (e_stream g (ctr_add v ((used + j) / 16)) ((used + j) mod 16))
  | Cbc prev => Z.lxor (e_dec g (block_at src (16 * (j / 16))) (j mod 16))
                       (if j <? 16 then prev j else src (j - 16))
  end.
Definition evp_after (e : evp) (src : Z -> Z) (n : Z) : evp :=
  match e with
  | Ctr v used => Ctr v (used + n)
  | Cbc prev => if n =? 0 then e else Cbc (fun i => src (n - 16 + i))
  end.

(** [symmetric_context_decrypt], internal/symmetric.c:1347-1392, on a context made for
    decryption, with non-NULL pointers: the status and the number of bytes produced.
    [EVP_DecryptUpdate] with padding off refuses a negative length and does nothing for
    zero.  (OpenSSL works in place but refuses other overlaps; as overlaps are excluded by
    verify_sample, all of them are [COverlap] here.) *)
Definition ctx_decrypt (g : engine) (s : cst) (out in_ n : Z) : cres (cst * (status * Z)) :=
  if negb (is_ctr (c_evp s)) && negb (n mod 16 =? 0) then CDone (s, (INVALID_PARAMETER, 0))
  else
    let k := to_int n in
    if (k <? 0) || negb (answer s) then CDone (called s, (INTERNAL_ERROR, 0))
    else if k =? 0 then CDone (called s, (OK, 0))
    else
      let m := c_mem s in
      if negb (range_ok m in_ k && range_ok m out k) then CFault
      else if overlapping out in_ k then COverlap
      else
        let src := fun i => m_val m (in_ + i) in
        let m' := MkMem (fun a => if (out <=? a) && (a <? out + k) then evp_byte g (c_evp s) src (a - out) else m_val m a)
                        (m_ok m) in
        CDone (set_evp (set_mem (called s) m') (evp_after (c_evp s) src k), (OK, k)).

(** [symmetric_context_set_iv], internal/symmetric.c:1453-1496, for 16 bytes and a context
    of AES-CBC or AES-CTR. *)
Definition ctx_set_iv (s : cst) (v : iv) : cst * status :=
  if answer s
  then (set_evp (called s) (match c_evp s with Ctr _ _ => Ctr v 0 | Cbc _ => Cbc (iv_byte v) end), OK)
  else (called s, INTERNAL_ERROR).

(** The last part of the loop of [decrypt], cenc.c:108-125. *)
Definition decrypt_rest (g : engine) (s : cst) (out in_ bytes done leading nfull : Z) : cres (cst * status) :=
  do '(s, (st, length)) <- ctx_decrypt g s (out + done) (in_ + done) (bytes - done);
  if negb (status_eqb st OK) then CDone (s, st)
  else
    let s := set_counter s (wrap64 (iv_counter (c_iv s) + nfull + (if 0 <? leading then 1 else 0))) in
    CDone (set_enc s (wrap64 (c_enc s + length)), OK).

(** One piece of the roll-over branch, cenc.c:66-84 and 87-105: decrypt [blocks] blocks or
    the leading part of a block given by [n], step the counter, set the vector. *)
Definition decrypt_piece (g : engine) (s : cst) (out in_ done n step : Z) : cres (cst * (status * Z)) :=
  do '(s, (st, length)) <- ctx_decrypt g s (out + done) (in_ + done) n;
  if negb (status_eqb st OK) then CDone (s, (st, done))
  else
    let s := set_counter s (wrap64 (iv_counter (c_iv s) + step)) in
    let '(s, st) := ctx_set_iv s (c_iv s) in
    if negb (status_eqb st OK) then CDone (s, (st, done))
    else CDone (set_enc s (wrap64 (c_enc s + length)), (OK, done + length)).

(** [decrypt], cenc.c:37-129.  The loop at 60-126 runs at most twice: its first branch
    clears the condition under which it is taken, its second ends the loop. *)
Definition decrypt (g : engine) (s : cst) (out in_ bytes : Z) : cres (cst * status) :=
  let leading := if c_enc s mod 16 =? 0 then 0 else 16 - c_enc s mod 16 in
  let nfull := wrap64 (bytes - leading) / 16 in
  let nbefore := wrap64 (W64 - iv_counter (c_iv s)) in
  let rollover := nbefore <=? nfull + (if 0 <? leading then 1 else 0) in
  if bytes <=? 0 then CDone (s, OK)
  else if rollover && is_ctr (c_evp s) then
    do '(s, (st, done)) <- (if 0 <? leading then decrypt_piece g s out in_ 0 leading 1 else CDone (s, (OK, 0)));
    if negb (status_eqb st OK) then CDone (s, st)
    else
      let full := Z.min nbefore nfull in
      do '(s, (st, done)) <- (if 0 <? full then decrypt_piece g s out in_ done (wrap64 (full * 16)) full
                              else CDone (s, (OK, done)));
      if negb (status_eqb st OK) then CDone (s, st)
      else if bytes <=? done then CDone (s, OK)
      else decrypt_rest g s out in_ bytes done 0 (nfull - full)
  else decrypt_rest g s out in_ bytes 0 leading nfull.

(** [cenc_get_required_length], cenc.c:131-152; [CENC_OVERFLOW] is 0. *)
Fixpoint required_from (acc : Z) (subs : list (Z * Z)) : Z :=
  match subs with
  | [] => acc
  | (c, p) :: rest =>
      let '(o1, n) := add_overflow c p in
      if o1 then 0
      else let '(o2, acc') := add_overflow acc n in if o2 then 0 else required_from acc' rest
  end.
Definition required_length (subs : list (Z * Z)) : Z := required_from 0 subs.

(** The parts of [sa_sample] used here; [x_out] and [x_in] are the places of the buffers in
    a list of buffers, so that samples can share a buffer.  [x_iv] has 16 bytes. *)
Record sample := MkSample {
  x_iv : iv; x_crypt : Z; x_skip : Z; x_subs : list (Z * Z); x_out : nat; x_in : nat }.

Definition copy (s : cst) (out in_ n : Z) : cres cst :=
  do m <- of_mres (memcpy (c_mem s) out in_ n); CDone (set_mem s m).

(** The loop over pattern stripes, cenc.c:250-283: state, offset, bytes left and status when
    the loop ends or is left by [break]. *)
Fixpoint stripes (fuel : nat) (g : engine) (x : sample) (out in_ : Z) (s : cst) (offset bytes_left : Z) (st : status)
  : cres (cst * Z * Z * status) :=
  if bytes_left <? 16 then CDone (s, offset, bytes_left, st)
  else match fuel with
  | O => CSpin
  | S fuel =>
      let block := Z.min (wrap64 (x_crypt x * 16)) (bytes_left / 16 * 16) in
      do '(s, st) <- (if 0 <? block then decrypt g s (out + offset) (in_ + offset) block else CDone (s, st));
      if (0 <? block) && negb (status_eqb st OK) then CDone (s, offset, bytes_left, st)
      else
        let offset := offset + block in
        let bytes_left := bytes_left - block in
        let skipped := if 0 <? x_skip x then Z.min (wrap64 (x_skip x * 16)) (bytes_left / 16 * 16) else 0 in
        do s <- (if 0 <? skipped then copy s (out + offset) (in_ + offset) skipped else CDone s);
        stripes fuel g x out in_ s (offset + skipped) (bytes_left - skipped) st
  end.

(** The protected part of one subsample, cenc.c:208-291: the last component says whether
    the loop over the subsamples was left. *)
Definition protected_part (fuel : nat) (g : engine) (x : sample) (out in_ : Z) (s : cst) (offset p : Z) (st : status)
  : cres (cst * Z * status * bool) :=
  if x_crypt x =? 0 then
    let remainder := if is_ctr (c_evp s) then 0 else p mod 16 in
    let block := p - remainder in
    do '(s, st) <- decrypt g s (out + offset) (in_ + offset) block;
    if negb (status_eqb st OK) then CDone (s, offset, st, true)
    else
      let offset := offset + block in
      do s <- (if 0 <? remainder then copy s (out + offset) (in_ + offset) remainder else CDone s);
      CDone (s, offset + remainder, OK, false)
  else
    let '(s, st) := if is_ctr (c_evp s) then (s, st) else ctx_set_iv (set_iv_var s (x_iv x)) (x_iv x) in
    if negb (is_ctr (c_evp s)) && negb (status_eqb st OK) then CDone (s, offset, st, true)
    else
      do '(s, offset, bytes_left, st) <- stripes fuel g x out in_ s offset p st;
      do s <- (if 0 <? bytes_left then copy s (out + offset) (in_ + offset) bytes_left else CDone s);
      CDone (s, offset + bytes_left, st, false).

(** The loop over the subsamples, cenc.c:199-292. *)
Fixpoint subsamples (fuel : nat) (g : engine) (x : sample) (out in_ : Z) (s : cst) (offset : Z) (st : status)
    (subs : list (Z * Z)) : cres (cst * Z * status) :=
  match subs with
  | [] => CDone (s, offset, st)
  | (c, p) :: rest =>
      do s <- (if 0 <? c then copy s (out + offset) (in_ + offset) c else CDone s);
      let offset := offset + c in
      if 0 <? p then
        do '(s, offset, st, stop) <- protected_part fuel g x out in_ s offset p st;
        if stop then CDone (s, offset, st) else subsamples fuel g x out in_ s offset st rest
      else subsamples fuel g x out in_ s offset st rest
  end.

(** cenc.c:189-292: from the setting of the initialisation vector on; [out] and [in_] are
    the converted buffers. *)
Definition process_bytes (fuel : nat) (g : engine) (x : sample) (out in_ : Z) (s : cst) : cres (cst * Z * status) :=
  let '(s, st) := ctx_set_iv (set_enc (set_iv_var s (x_iv x)) 0) (x_iv x) in
  if negb (status_eqb st OK) then CDone (s, 0, st)
  else subsamples fuel g x out in_ s 0 OK (x_subs x).

(** ** Buffers and samples *)

(** [sa_buffer]: clear memory, or a secure buffer, with an offset. *)
Inductive buffer := BClear (base len off : Z) | BSvp (b : option svp_buffer) (off : Z).
Definition convert (b : buffer) (n : Z) : status * Z :=
  match b with BClear base len off => convert_clear base len off n | BSvp sb off => convert_svp sb off n end.
Definition advance (b : buffer) (n : Z) : buffer :=
  match b with BClear base len off => BClear base len (wrap64 (off + n)) | BSvp sb off => BSvp sb (wrap64 (off + n)) end.
Definition buffer_at (bs : list buffer) (i : nat) : buffer := nth i bs (BClear 0 0 0).

(** [cenc_process_sample], cenc.c:154-327. *)
Definition process_sample (fuel : nat) (g : engine) (bs : list buffer) (x : sample) (s : cst)
  : cres (cst * list buffer * status) :=
  let n := required_length (x_subs x) in
  if n =? 0 then CDone (s, bs, INVALID_PARAMETER)
  else
    let '(st, out) := convert (buffer_at bs (x_out x)) n in
    if negb (status_eqb st OK) then CDone (s, bs, st)
    else
      let '(st, in_) := convert (buffer_at bs (x_in x)) n in
      if negb (status_eqb st OK) then CDone (s, bs, st)
      else
        do '(s, offset, st) <- process_bytes fuel g x out in_ s;
        if status_eqb st OK then
          let bs := update (x_in x) (advance (buffer_at bs (x_in x)) offset) bs in
          CDone (s, update (x_out x) (advance (buffer_at bs (x_out x)) offset) bs, OK)
        else CDone (s, bs, st).

(** The overlap test, ta_sa_process_common_encryption.c:165-174. *)
Definition overlap_test (out in_ n : Z) : bool :=
  let out_end := out + n in
  let in_end := in_ + n in
  ((in_ <=? out) && (out <=? in_end)) || ((in_ <=? out_end) && (out_end <=? in_end)) ||
  ((out <=? in_) && (in_ <=? out_end)) || ((out <=? in_end) && (in_end <=? out_end)).

(** [verify_sample], ta_sa_process_common_encryption.c:25-190, without the tests on rights,
    context and buffer types (M_ApiCipher) and on NULL pointers. *)
Definition verify_sample (bs : list buffer) (x : sample) : status :=
  if (length (x_subs x) =? 0)%nat then INVALID_PARAMETER
  else if (x_crypt x =? 0) && negb (x_skip x =? 0) then INVALID_PARAMETER
  else
    let n := required_length (x_subs x) in
    if n =? 0 then INVALID_PARAMETER
    else
      let '(st, out) := convert (buffer_at bs (x_out x)) n in
      if negb (status_eqb st OK) then st
      else
        let '(st, in_) := convert (buffer_at bs (x_in x)) n in
        if negb (status_eqb st OK) then st
        else if overlap_test out in_ n then INVALID_PARAMETER else OK.

(** The two loops of [ta_sa_process_common_encryption], lines 220-233.  The samples use one
    context; [c_evp] passes from one to the next. *)
Fixpoint verify_all (bs : list buffer) (xs : list sample) : status :=
  match xs with
  | [] => OK
  | x :: xs => match verify_sample bs x with OK => verify_all bs xs | st => st end
  end.
Fixpoint process_all (fuel : nat) (g : engine) (bs : list buffer) (xs : list sample) (s : cst)
  : cres (cst * list buffer * status) :=
  match xs with
  | [] => CDone (s, bs, OK)
  | x :: xs =>
      do '(s, bs, st) <- process_sample fuel g bs x s;
      if status_eqb st OK then process_all fuel g bs xs s else CDone (s, bs, st)
  end.
Definition common_encryption (fuel : nat) (g : engine) (bs : list buffer) (xs : list sample) (s : cst)
  : cres (cst * list buffer * status) :=
  match verify_all bs xs with
  | OK => process_all fuel g bs xs s
  | st => CDone (s, bs, st)
  end.
