(** Model of the client library, reference/src/clientimpl/src/sa_*.c, in the configuration without
    USE_SHARED_MEMORY (porting/ta_client.h:93-129: a parameter is the application's own memory, and
    the types are the TEMP ones), and of a whole call: client, command handler, implementation.
    Simplifications: the session exists and the client's allocations succeed (otherwise every
    function returns SA_STATUS_INTERNAL_ERROR); pointers to single results are given (otherwise
    SA_STATUS_NULL_PARAMETER); a parameter structure has the type its selector says;
    sa_key_provision_ta is left out. *)
From Verif Require Import Base M_KeyStore M_Marshal.

(** What the application passes: a NULL pointer with a length, or data; a NULL pointer with a
    length, or [len] bytes at [off] of its memory block [id]. *)
Inductive inb := InNull (len : Z) | In (b : bytes).
Inductive outb := OutNull (len : Z) | Out (id off len : Z).
Definition app := api inb outb.

(** The memory of a parameter: bytes, or a block of the application to be written. *)
Inductive mem := MNone | MBytes (b : bytes) | MOut (id off : Z).
Inductive send := Refuse (st : status) | Send (cmd : Z) (ps : list param) (ms : list mem).

Definition TA_PARAM_NULL : Z := 0. Definition TA_PARAM_IN : Z := 5.
Definition TA_PARAM_OUT : Z := 6. Definition TA_PARAM_INOUT : Z := 7.

Definition pnull : param * mem := (MkParam TA_PARAM_NULL true 0, MNone).
Definition pin (b : bytes) : param * mem := (MkParam TA_PARAM_IN false (zlen b), MBytes b).
Definition pinout (b : bytes) : param * mem := (MkParam TA_PARAM_INOUT false (zlen b), MBytes b).
(** An input that may be absent, and an output. *)
Definition popt (x : inb) : param * mem := match x with InNull _ => pnull | In b => pin b end.
Definition pout (x : outb) : param * mem :=
  match x with OutNull _ => pnull | Out id off len => (MkParam TA_PARAM_OUT false len, MOut id off) end.
Definition out_len (x : outb) : Z := match x with OutNull n => n | Out _ _ n => n end.
Definition in_null (x : inb) : bool := match x with InNull _ => true | In _ => false end.
(** [in == NULL && in_length > 0] *)
Definition in_bad (x : inb) : bool := match x with InNull n => 0 <? n | In _ => false end.

Definition to_ta (cmd : Z) (a b c d : param * mem) : send :=
  Send cmd [fst a; fst b; fst c; fst d] [snd a; snd b; snd c; snd d].
Definition refuse_if (bad : bool) (st : status) (k : send) : send := if bad then Refuse st else k.

Section Client.
(** The bytes the allocator returns: never initialised.  [junk k n]: the [k]-th structure, of [n] bytes. *)
Variable junk : nat -> nat -> bytes.

Definition w (n : nat) (x : Z) : bytes := le_bytes n x.
(** A structure with a version and the given fields assigned. *)
Definition assign (c : bytes) (fields : list (nat * bytes)) : bytes :=
  fold_left (fun c f => set c (fst f) (snd f)) fields c.
Definition cmd_s (n : nat) (fields : list (nat * bytes)) : bytes := assign (junk 0 n) ((0%nat, [1]) :: fields).
Definition par_s (n : nat) (fields : list (nat * bytes)) : bytes := assign (junk 1 n) fields.

(** The value an in-out field starts with: whatever the application's variable holds. *)
Variable initial : Z.

(** sa_crypto_cipher_process.c:60-112 and the like: clear memory is passed from its offset on,
    with offset 0; an SVP buffer as its handle. *)
Definition in_buf (x : abuf inb) (k : Z -> Z -> param * mem -> send) : send :=
  match x with
  | Clear (InNull _) _ => Refuse NULL_PARAMETER
  | Clear (In b) off => refuse_if (zlen b <? off) INVALID_PARAMETER (k CLEAR 0 (pin (skipn (Z.to_nat off) b)))
  | Svp ty h off => k ty off (pin (w 8 h))
  end.
Definition out_buf (x : abuf outb) (k : Z -> Z -> param * mem -> send) : send :=
  match x with
  | Clear (OutNull _) _ => Refuse NULL_PARAMETER
  | Clear (Out id o len) off => refuse_if (len <? off) INVALID_PARAMETER (k CLEAR 0 (pout (Out id (o + off) (len - off))))
  | Svp ty h off => k ty off (pin (w 8 h))
  end.

Definition span_bytes (s : span) : bytes := w 8 (sp_out s) ++ w 8 (sp_in s) ++ w 8 (sp_len s).
Definition length_bytes (p : Z * Z) : bytes := w 8 (fst p) ++ w 8 (snd p).

(** The parameters of an unwrapping, sa_key_unwrap.c:103-388: the second and third parameter. *)
Definition unwrap_params (alg : Z) (p : unw_params inb) (k : param * mem -> param * mem -> send) : send :=
  match p with
  | UnwNone =>
      if (alg =? 0) || (alg =? 1) || (alg =? 6) then k pnull pnull
      else if (2 <=? alg) && (alg <=? 10) then Refuse NULL_PARAMETER else Refuse INVALID_PARAMETER
  | UnwCbc (In iv) | UnwCtr (In iv) =>
      refuse_if (negb (zlen iv =? 16)) INVALID_PARAMETER (k (pin (par_s 16 [(0%nat, iv)])) pnull)
  | UnwGcm (In iv) aad (In tag) =>
      refuse_if (negb (zlen iv =? 12)) INVALID_PARAMETER
      (refuse_if (16 <? zlen tag) INVALID_PARAMETER
      (refuse_if (in_bad aad) NULL_PARAMETER
       (k (pin (par_s 48 [(0%nat, iv); (16%nat, w 8 (zlen iv)); (24%nat, tag); (40%nat, w 8 (zlen tag))])) (popt aad))))
  | UnwChacha (In counter) (In nonce) =>
      refuse_if (negb (zlen counter =? 4)) INVALID_PARAMETER
      (refuse_if (negb (zlen nonce =? 12)) INVALID_PARAMETER
       (k (pin (par_s 40 [(0%nat, counter); (8%nat, w 8 (zlen counter)); (16%nat, nonce); (32%nat, w 8 (zlen nonce))])) pnull))
  | UnwPoly (In nonce) aad (In tag) =>
      refuse_if (negb (zlen nonce =? 12)) INVALID_PARAMETER
      (refuse_if (negb (zlen tag =? 16)) INVALID_PARAMETER
      (refuse_if (in_bad aad) NULL_PARAMETER
       (k (pin (par_s 48 [(0%nat, nonce); (16%nat, w 8 (zlen nonce)); (24%nat, tag); (40%nat, w 8 (zlen tag))])) (popt aad))))
  | UnwElgamal (In s) => k (pin (par_s 16 [(8%nat, field s 8 8); (0%nat, field s 0 8)])) pnull
  | UnwOaep d m label =>
      refuse_if (in_bad label) NULL_PARAMETER (k (pin (par_s 8 [(0%nat, w 4 d); (4%nat, w 4 m)])) (popt label))
  | _ => Refuse NULL_PARAMETER
  end.

(** The parameters of a derivation, sa_key_derive.c:69-306. *)
Definition derive_params (p : kdf_params inb) (k : param * mem -> param * mem -> param * mem -> send) : send :=
  let lds len digest parent := par_s 24 [(0%nat, w 8 len); (8%nat, w 4 digest); (16%nat, w 8 parent)] in
  match p with
  | KdfLadder c1 c2 c3 c4 =>
      refuse_if (negb (zlen c1 =? 16) || negb (zlen c2 =? 16) || negb (zlen c3 =? 16) || negb (zlen c4 =? 16)) INVALID_PARAMETER
        (k (pin (par_s 64 [(0%nat, c1); (16%nat, c2); (32%nat, c3); (48%nat, c4)])) pnull pnull)
  | KdfHkdf len digest parent salt info =>
      refuse_if (in_bad info || in_bad salt) NULL_PARAMETER (k (pin (lds len digest parent)) (popt info) (popt salt))
  | KdfConcat len digest parent info | KdfX963 len digest parent info =>
      refuse_if (in_bad info) NULL_PARAMETER (k (pin (lds len digest parent)) (popt info) pnull)
  | KdfCmac len counter parent other =>
      refuse_if (in_bad other) NULL_PARAMETER
        (k (pin (par_s 24 [(0%nat, w 8 len); (8%nat, w 8 parent); (16%nat, w 1 counter)])) (popt other) pnull)
  | KdfNetflix kenc khmac => k (pin (par_s 16 [(0%nat, w 8 kenc); (8%nat, w 8 khmac)])) pnull pnull
  end.

(** The parameters of a cipher context, sa_crypto_cipher_init.c:63-242. *)
Definition cipher_params (alg : Z) (p : init_params inb) (k : param * mem -> param * mem -> send) : send :=
  match p with
  | CipNone =>
      if (alg =? 0) || (alg =? 1) || (alg =? 6) || (alg =? 8) then k pnull pnull
      else if (2 <=? alg) && (alg <=? 10) then Refuse NULL_PARAMETER else Refuse INVALID_PARAMETER
  | CipCbc (In iv) | CipCtr (In iv) => k (pin iv) pnull
  | CipGcm (In iv) aad | CipPoly (In iv) aad => refuse_if (in_bad aad) NULL_PARAMETER (k (pin iv) (popt aad))
  | CipChacha (In nonce) (In counter) => k (pin nonce) (pin counter)
  | CipOaep d m label =>
      refuse_if (in_bad label) NULL_PARAMETER (k (pin (par_s 8 [(0%nat, w 4 d); (4%nat, w 4 m)])) (popt label))
  | _ => Refuse NULL_PARAMETER
  end.

(** The second parameter of an import, sa_key_import.c:79-160. *)
Definition import_params (format : Z) (p : imp_params) (k : bytes -> param * mem -> send) : send :=
  match p with
  | ImpSymmetric r | ImpRsa r => k (w 4 0) (pin r)
  | ImpEc r curve => k (w 4 curve) (pin r)
  | ImpTypej kc kh => k (w 4 0) (pin (w 8 kc ++ w 8 kh))
  | ImpSoc s => k (w 4 0) (MkParam TA_PARAM_IN false (256 * w1 s 0 + w1 s 1), MBytes s)
  | ImpNone =>
      if (format =? FORMAT_EXPORTED) || (format =? FORMAT_SOC) then k (w 4 0) pnull
      else if (0 <=? format) && (format <=? 5) then Refuse NULL_PARAMETER else Refuse INVALID_PARAMETER
  end.

(** Each function sa_*: what it refuses and what it sends. *)
Definition client (a : app) : send :=
  match a with
  (* sa_get_version.c:25-62, sa_get_name.c:25-77, sa_get_device_id.c:25-63, sa_get_ta_uuid.c:25-62 *)
  | GetVersion => to_ta 1 (pinout (cmd_s 40 [])) pnull pnull pnull
  | GetName o => to_ta 2 (pinout (cmd_s 16 [(8%nat, w 8 (out_len o))])) (pout o) pnull pnull
  | GetDeviceId => to_ta 3 (pinout (cmd_s 16 [])) pnull pnull pnull
  | GetTaUuid => to_ta 4 (pinout (cmd_s 17 [])) pnull pnull pnull
  (* sa_key_generate.c:25-123 *)
  | KeyGenerate rights type p =>
      let s len := pinout (cmd_s 640 [(8%nat, w 8 initial); (16%nat, rights); (624%nat, w 4 type); (632%nat, w 8 len)]) in
      match p with
      | GenSymmetric len | GenRsa len | GenEc len => to_ta 5 (s len) pnull pnull pnull
      | GenDh (In p) (In g) => to_ta 5 (s 0) (pin p) (pin g) pnull
      | _ => Refuse NULL_PARAMETER
      end
  (* sa_key_export.c:25-107 *)
  | KeyExport o mixin key =>
      refuse_if (match o with OutNull n => 0 <? n | Out _ _ _ => false end) NULL_PARAMETER
      (refuse_if (in_bad mixin) NULL_PARAMETER
       (to_ta 6 (pinout (cmd_s 24 [(8%nat, w 8 (out_len o)); (16%nat, w 8 key)])) (pout o) (popt mixin) pnull))
  (* sa_key_import.c:25-189 *)
  | KeyImport format data p =>
      refuse_if (in_bad data) NULL_PARAMETER
      (import_params format p (fun curve p2 =>
        to_ta 7 (pinout (cmd_s 24 [(8%nat, w 8 initial); (16%nat, w 4 format); (20%nat, curve)])) (popt data) p2 pnull))
  (* sa_key_unwrap.c:28-417 *)
  | KeyUnwrap rights type curve alg p key data =>
      refuse_if (in_bad data) NULL_PARAMETER
      (refuse_if ((type =? EC) && match curve with None => true | Some _ => false end) NULL_PARAMETER
       (unwrap_params alg p (fun p2 p3 =>
         to_ta 8 (pinout (cmd_s 648 [(8%nat, w 8 initial); (16%nat, rights); (624%nat, w 4 type); (632%nat, w 4 alg); (640%nat, w 8 key);
             (628%nat, w 4 (if type =? EC then match curve with Some c => c | None => 0 end else 0))])) (popt data) p2 p3)))
  (* sa_key_get_public.c:25-82 *)
  | KeyGetPublic o key => to_ta 9 (pinout (cmd_s 24 [(8%nat, w 8 (out_len o)); (16%nat, w 8 key)])) (pout o) pnull pnull
  (* sa_key_derive.c:27-339 *)
  | KeyDerive rights alg p =>
      derive_params p (fun p1 p2 p3 =>
        to_ta 10 (pinout (cmd_s 632 [(8%nat, w 8 initial); (16%nat, rights); (624%nat, w 4 alg)])) p1 p2 p3)
  (* sa_key_exchange.c:26-147 *)
  | KeyExchange rights alg private other p =>
      let s := pinout (cmd_s 640 [(8%nat, w 8 initial); (16%nat, rights); (624%nat, w 4 alg); (632%nat, w 8 private)]) in
      match other, p with
      | InNull _, _ => Refuse NULL_PARAMETER
      | In b, ExchNone => if alg =? EXCHANGE_NETFLIX then Refuse NULL_PARAMETER else to_ta 11 s (pin b) pnull pnull
      | In b, ExchNetflix kw re rh =>
          to_ta 11 s (pin b) (pinout (par_s 1240 [(0%nat, w 8 kw); (8%nat, w 8 initial); (16%nat, re); (624%nat, w 8 initial); (632%nat, rh)])) pnull
      end
  (* sa_key_release.c:25-56, sa_key_header.c:25-83, sa_key_digest.c:25-84, sa_crypto_random.c:25-70 *)
  | KeyRelease key => to_ta 12 (pin (cmd_s 16 [(8%nat, w 8 key)])) pnull pnull pnull
  | KeyHeader key =>
      to_ta 13 (pinout (cmd_s 16 [(8%nat, w 8 key)])) (MkParam TA_PARAM_OUT false (Z.of_nat HEADER_SIZE), MBytes (junk 1 HEADER_SIZE)) pnull pnull
  | KeyDigest o key digest =>
      to_ta 14 (pinout (cmd_s 32 [(8%nat, w 8 (out_len o)); (16%nat, w 8 key); (24%nat, w 4 digest)])) (pout o) pnull pnull
  | CryptoRandom o =>
      match o with OutNull _ => Refuse NULL_PARAMETER | _ => to_ta 15 (pin (cmd_s 1 [])) (pout o) pnull pnull end
  (* sa_crypto_cipher_init.c:25-275 *)
  | CipherInit alg mode key p =>
      cipher_params alg p (fun p1 p2 =>
        to_ta 16 (pinout (cmd_s 32 [(8%nat, w 8 initial); (16%nat, w 4 alg); (20%nat, w 4 mode); (24%nat, w 8 key)])) p1 p2 pnull)
  (* sa_crypto_cipher_update_iv.c:25-70 *)
  | CipherUpdateIv ctx iv =>
      match iv with InNull _ => Refuse NULL_PARAMETER | In b => to_ta 17 (pin (cmd_s 16 [(8%nat, w 8 ctx)])) (pin b) pnull pnull end
  (* sa_crypto_cipher_process.c:25-154 *)
  | CipherProcess out ctx inp n =>
      let go ot oo p1 :=
        in_buf inp (fun it io p2 =>
          to_ta 18 (pinout (cmd_s 56 [(8%nat, w 8 ctx); (16%nat, w 8 n); (24%nat, w 4 ot); (40%nat, w 4 it); (32%nat, w 8 oo); (48%nat, w 8 io)]))
            p1 p2 pnull) in
      match out with Some o => out_buf o go | None => go CLEAR 0 pnull end
  (* sa_crypto_cipher_process_last.c:25-179 *)
  | CipherProcessLast out ctx inp n tag =>
      let go ot oo p1 :=
        in_buf inp (fun it io p2 =>
          let s := pinout (cmd_s 56 [(8%nat, w 8 ctx); (16%nat, w 8 n); (24%nat, w 4 ot); (40%nat, w 4 it); (32%nat, w 8 oo); (48%nat, w 8 io)]) in
          match tag with
          | None => to_ta 19 s p1 p2 pnull
          | Some (OutNull _) => Refuse NULL_PARAMETER
          | Some (Out id off len) => to_ta 19 s p1 p2 (MkParam TA_PARAM_INOUT false len, MOut id off)
          end) in
      match out with Some o => out_buf o go | None => go CLEAR 0 pnull end
  (* sa_crypto_cipher_release.c:25-56 *)
  | CipherRelease ctx => to_ta 20 (pin (cmd_s 16 [(8%nat, w 8 ctx)])) pnull pnull pnull
  (* sa_crypto_mac_init.c:25-82 *)
  | MacInit alg key digest =>
      match (alg =? HMAC), digest with
      | true, None => Refuse NULL_PARAMETER
      | true, Some d => to_ta 21 (pinout (cmd_s 40 [(8%nat, w 8 initial); (16%nat, w 4 alg); (24%nat, w 8 key); (32%nat, w 4 d)])) pnull pnull pnull
      | false, _ => to_ta 21 (pinout (cmd_s 40 [(8%nat, w 8 initial); (16%nat, w 4 alg); (24%nat, w 8 key); (32%nat, w 4 0)])) pnull pnull pnull
      end
  (* sa_crypto_mac_process.c:25-77, sa_crypto_mac_process_key.c:25-59, sa_crypto_mac_compute.c:25-82, sa_crypto_mac_release.c:25-56 *)
  | MacProcess ctx data =>
      refuse_if (in_bad data) NULL_PARAMETER (to_ta 22 (pin (cmd_s 16 [(8%nat, w 8 ctx)])) (popt data) pnull pnull)
  | MacProcessKey ctx key => to_ta 23 (pin (cmd_s 24 [(8%nat, w 8 ctx); (16%nat, w 8 key)])) pnull pnull pnull
  | MacCompute o ctx => to_ta 24 (pinout (cmd_s 24 [(8%nat, w 8 (out_len o)); (16%nat, w 8 ctx)])) (pout o) pnull pnull
  | MacRelease ctx => to_ta 25 (pin (cmd_s 16 [(8%nat, w 8 ctx)])) pnull pnull pnull
  (* sa_crypto_sign.c:25-146; lines 77-95 leave salt_length unassigned for PKCS#1 v1.5 and ECDSA *)
  | CryptoSign o alg key data p =>
      let go fields := to_ta 26 (pinout (cmd_s 48 ([(8%nat, w 8 (out_len o)); (16%nat, w 4 alg); (24%nat, w 8 key)] ++ fields))) (pout o) (popt data) pnull in
      let b (x : bool) := w 1 (if x then 1 else 0) in
      refuse_if (in_bad data) NULL_PARAMETER
      (match p with
       | SigPss d m pre salt => go [(32%nat, w 8 salt); (20%nat, w 4 d); (40%nat, w 4 m); (44%nat, b pre)]
       | SigPkcs d pre | SigEcdsa d pre => go [(20%nat, w 4 d); (40%nat, w 4 0); (44%nat, b pre)]
       | SigNone => if (alg =? RSA_PSS) || (alg =? RSA_PKCS1V15) || (alg =? ECDSA) then Refuse NULL_PARAMETER
                    else go [(32%nat, w 8 0); (20%nat, w 4 0); (40%nat, w 4 0); (44%nat, b false)]
       end)
  (* sa_svp_supported.c:25-55, sa_svp_buffer_create.c:25-72, sa_svp_buffer_release.c:25-72 *)
  | SvpSupported => to_ta 27 (pin (cmd_s 1 [])) pnull pnull pnull
  | SvpCreate memory size =>
      refuse_if (memory =? 0) NULL_PARAMETER
        (to_ta 29 (pinout (cmd_s 32 [(8%nat, w 8 initial); (16%nat, w 8 memory); (24%nat, w 8 size)])) pnull pnull pnull)
  | SvpRelease buffer => to_ta 31 (pinout (cmd_s 32 [(24%nat, w 8 buffer)])) pnull pnull pnull
  (* sa_svp_buffer_write.c:25-98.  Lines 65-69 copy [offsets->...], the first element, into every element. *)
  | SvpWrite out data offsets =>
      match data with
      | InNull _ => Refuse NULL_PARAMETER
      | In b =>
          refuse_if (zlen b =? 0) NULL_PARAMETER
          (to_ta 32 (pinout (cmd_s 16 [(8%nat, w 8 out)])) (pin b)
             (pin (concat (map (fun _ => span_bytes (hd (MkSpan 0 0 0) offsets)) offsets))) pnull)
      end
  (* sa_svp_buffer_copy.c:25-89 *)
  | SvpCopy out inp offsets =>
      to_ta 33 (pinout (cmd_s 24 [(8%nat, w 8 out); (16%nat, w 8 inp)])) (pin (concat (map span_bytes offsets))) pnull pnull
  (* sa_svp_key_check.c:25-106: clear memory is passed as a whole, with its offset *)
  | SvpKeyCheck key inp n expected =>
      let go ty off p1 e := to_ta 34 (pinout (cmd_s 40 [(8%nat, w 8 key); (16%nat, w 4 ty); (32%nat, w 8 n); (24%nat, w 8 off)])) p1 (pin e) pnull in
      match expected, inp with
      | InNull _, _ | _, Clear (InNull _) _ => Refuse NULL_PARAMETER
      | In e, Clear (In b) off => go CLEAR off (pin b) e
      | In e, Svp ty h off => go ty off (pin (w 8 h)) e
      end
  (* sa_svp_buffer_check.c:25-76 *)
  | SvpBufferCheck buffer off len digest hash =>
      match hash with
      | InNull _ => Refuse NULL_PARAMETER
      | In b => to_ta 35 (pin (cmd_s 40 [(8%nat, w 8 buffer); (16%nat, w 8 off); (24%nat, w 8 len); (32%nat, w 4 digest)])) (pin b) pnull pnull
      end
  (* sa_process_common_encryption.c:26-209, one sample; the copy in subsample_length_s is not used *)
  | CommonEncryption s =>
      refuse_if (negb (zlen (sm_iv s) =? 16)) INVALID_PARAMETER
      (out_buf (sm_out s) (fun ot oo p2 => in_buf (sm_in s) (fun it io p3 =>
        to_ta 36 (pinout (cmd_s 88 [(1%nat, sm_iv s); (24%nat, w 8 (sm_crypt s)); (32%nat, w 8 (sm_skip s));
            (40%nat, w 8 (Z.of_nat (length (sm_lengths s)))); (48%nat, w 8 (sm_context s)); (56%nat, w 4 ot); (72%nat, w 4 it);
            (64%nat, w 8 oo); (80%nat, w 8 io)]))
          (pin (concat (map length_bytes (sm_lengths s)))) p2 p3)))
  end.
End Client.

(** ** Running a command on memory that nobody else changes *)
Definition map_abuf {X Y} (f : X -> Y) (b : abuf X) : abuf Y := match b with Clear x o => Clear (f x) o | Svp t h o => Svp t h o end.
Definition map_api {I O J P} (f : I -> J) (g : O -> P) (a : api I O) : api J P :=
  match a with
  | GetVersion => GetVersion | GetName o => GetName (g o) | GetDeviceId => GetDeviceId | GetTaUuid => GetTaUuid
  | KeyGenerate r t p => KeyGenerate r t match p with
      | GenNone => GenNone | GenSymmetric n => GenSymmetric n | GenRsa n => GenRsa n | GenEc c => GenEc c | GenDh p q => GenDh (f p) (f q) end
  | KeyExport o m k => KeyExport (g o) (f m) k
  | KeyImport t d p => KeyImport t (f d) p
  | KeyUnwrap r t c a p k d => KeyUnwrap r t c a match p with
      | UnwNone => UnwNone | UnwCbc i => UnwCbc (f i) | UnwCtr i => UnwCtr (f i) | UnwGcm i a t => UnwGcm (f i) (f a) (f t)
      | UnwChacha c n => UnwChacha (f c) (f n) | UnwPoly n a t => UnwPoly (f n) (f a) (f t) | UnwElgamal s => UnwElgamal (f s)
      | UnwOaep d m l => UnwOaep d m (f l) end k (f d)
  | KeyGetPublic o k => KeyGetPublic (g o) k
  | KeyDerive r a p => KeyDerive r a match p with
      | KdfLadder a b c d => KdfLadder a b c d | KdfHkdf l d p s i => KdfHkdf l d p (f s) (f i) | KdfConcat l d p i => KdfConcat l d p (f i)
      | KdfX963 l d p i => KdfX963 l d p (f i) | KdfCmac l c p o => KdfCmac l c p (f o) | KdfNetflix e h => KdfNetflix e h end
  | KeyExchange r a k o p => KeyExchange r a k (f o) p
  | KeyRelease k => KeyRelease k | KeyHeader k => KeyHeader k | KeyDigest o k d => KeyDigest (g o) k d
  | CryptoRandom o => CryptoRandom (g o)
  | CipherInit a m k p => CipherInit a m k match p with
      | CipNone => CipNone | CipCbc i => CipCbc (f i) | CipCtr i => CipCtr (f i) | CipGcm i a => CipGcm (f i) (f a)
      | CipChacha n c => CipChacha (f n) (f c) | CipPoly n a => CipPoly (f n) (f a) | CipOaep d m l => CipOaep d m (f l) end
  | CipherUpdateIv c i => CipherUpdateIv c (f i)
  | CipherProcess o c i n => CipherProcess (option_map (map_abuf g) o) c (map_abuf f i) n
  | CipherProcessLast o c i n t => CipherProcessLast (option_map (map_abuf g) o) c (map_abuf f i) n (option_map g t)
  | CipherRelease c => CipherRelease c | MacInit a k d => MacInit a k d
  | MacProcess c d => MacProcess c (f d) | MacProcessKey c k => MacProcessKey c k | MacCompute o c => MacCompute (g o) c
  | MacRelease c => MacRelease c | CryptoSign o a k d p => CryptoSign (g o) a k (f d) p
  | SvpSupported => SvpSupported | SvpCreate m s => SvpCreate m s | SvpRelease b => SvpRelease b
  | SvpWrite o d l => SvpWrite o (f d) l | SvpCopy o i l => SvpCopy o i l
  | SvpKeyCheck k i n e => SvpKeyCheck k (map_abuf f i) n (f e) | SvpBufferCheck b o l d h => SvpBufferCheck b o l d (f h)
  | CommonEncryption s => CommonEncryption (MkSample (sm_iv s) (sm_crypt s) (sm_skip s) (sm_lengths s) (sm_context s)
      (map_abuf g (sm_out s)) (map_abuf f (sm_in s)))
  end.

Section Exec.
(** The implementation: what it answers to a call. *)
Variable implementation : app -> reply.

Definition memory := nat -> mem.
Definition resolve_in (m : memory) (r : ref) : inb :=
  match r_base r with
  | BNull => InNull (r_len r)
  | BShared i => match m i with MBytes b => In (firstn (Z.to_nat (r_len r)) b) | _ => InNull (r_len r) end
  | BOwn b => In (firstn (Z.to_nat (r_len r)) b)
  | BWild _ => InNull (r_len r)
  end.
Definition resolve_out (m : memory) (r : ref) : outb :=
  match r_base r with
  | BShared i => match m i with MOut id off => Out id off (r_len r) | _ => OutNull (r_len r) end
  | _ => OutNull (r_len r)
  end.

Definition put_mem (m : memory) (i : nat) (x : mem) : memory := fun j => if Nat.eqb j i then x else m j.

(** The result, the calls of the implementation, the memory afterwards; [None]: outside of the memory. *)
Fixpoint exec {A} (m : memory) (p : prog A) : option (A * list app * memory) :=
  match p with
  | Done a => Some (a, [], m)
  | Fetch i off n k =>
      match m i with
      | MBytes b => if (0 <=? off) && (0 <=? n) && (off + n <=? zlen b)
                    then exec m (k (field b (Z.to_nat off) (Z.to_nat n))) else None
      | _ => None
      end
  | Store i off b k =>
      match m i with
      | MBytes c => if (0 <=? off) && (off + zlen b <=? zlen c) then exec (put_mem m i (MBytes (set c (Z.to_nat off) b))) k else None
      | _ => None
      end
  | Fill _ _ k | Cast _ _ k => exec m k
  | Garbage _ _ => None
  | Alloc _ k => exec m (k true)
  | Invoke f k =>
      let a := map_api (resolve_in m) (resolve_out m) f in
      match exec m (k (implementation a)) with
      | Some (x, l, m') => Some (x, a :: l, m')
      | None => None
      end
  end.
End Exec.

Definition params_of (ps : list param) (i : nat) : param := nth i ps (MkParam 0 true 0).
Definition memory_of (ms : list mem) (i : nat) : mem := nth i ms MNone.
Definition bytes_of (m : mem) : bytes := match m with MBytes b => b | _ => [] end.

(** The header that the application receives, sa_key_header.c:62-77. *)
Definition app_header (h : bytes) : bytes :=
  let c := set (set (set (set (repeat 0 HEADER_SIZE) 0 (field h 0 4)) 8 (field h 8 608)) 616 (field h 616 4)) 1664 (field h 1664 2) in
  if w4 h 616 =? EC then set c 624 (field h 624 4)
  else if w4 h 616 =? DH then set (set (set (set c 624 (field h 624 512)) 1136 (field h 1136 8)) 1144 (field h 1144 512)) 1656 (field h 1656 8)
  else c.

(** What the functions copy back on success: the words in the application's variables.  A clear
    buffer's offset is advanced by the offset that comes back. *)
Definition back_out (x : abuf outb) (n : Z) : Z := match x with Clear _ off => wrap64 (off + n) | Svp _ _ _ => n end.
Definition back_in (x : abuf inb) (n : Z) : Z := match x with Clear _ off => wrap64 (off + n) | Svp _ _ _ => n end.
Definition copy_back (a : app) (st : status) (c : bytes) (p1 p2 : bytes) : reply :=
  let words := match a with
    | GetVersion | GetTaUuid | KeyHeader _ | KeyRelease _ | CryptoRandom _ | CipherUpdateIv _ _ | CipherRelease _
    | MacProcess _ _ | MacProcessKey _ _ | MacRelease _ | SvpSupported | SvpWrite _ _ _ | SvpCopy _ _ _
    | SvpBufferCheck _ _ _ _ _ => []
    | KeyExchange _ _ _ _ (ExchNetflix _ _ _) => [w8 c 8; w8 p2 8; w8 p2 624]
    | CipherProcess out _ inp _ | CipherProcessLast out _ inp _ _ =>
        [w8 c 16; match out with Some o => back_out o (w8 c 32) | None => 0 end; back_in inp (w8 c 48)]
    | SvpRelease _ => [w8 c 8; w8 c 16]
    | SvpKeyCheck _ _ _ _ => [w8 c 24]
    | CommonEncryption s => [back_out (sm_out s) (w8 c 64); back_in (sm_in s) (w8 c 80)]
    | _ => [w8 c 8]
    end in
  let bs := match a with
    | GetVersion => field c 8 32 | GetTaUuid => field c 1 16 | KeyHeader _ => app_header p1 | _ => []
    end in
  MkReply st words bs.

(** A whole call of a library function: the status, the results on success, and what the
    implementation was called with. *)
Definition lib_call (implementation : app -> reply) (junk : nat -> nat -> bytes) (initial : Z) (a : app)
  : option (reply * list app) :=
  match client junk initial a with
  | Refuse st => Some (MkReply st [] [], [])
  | Send cmd ps ms =>
      match exec implementation (memory_of ms) (handler (params_of ps) cmd) with
      | Some (st, calls, m) =>
          Some (if status_eqb st OK then copy_back a st (bytes_of (m 0%nat)) (bytes_of (m 1%nat)) (bytes_of (m 2%nat))
                else MkReply st [] [], calls)
      | None => None
      end
  end.
