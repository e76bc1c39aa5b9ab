(** Unwrapping on bytes: taimpl/src/internal/unwrap.c, the decryptions of porting/otp.c:332-
    560 it uses, and the checks of ta_sa_key_unwrap.c behind the handles (those are in
    M_ApiKey.v).  The ciphers are a record of functions; each call of OpenSSL may fail. *)
From Verif Require Import Base M_Memory M_Rights M_Mac M_Kdf.

(** OpenSSL's decryptions with the wrapping key.  [None] is a refused tag, padding or point.
    [u_rsa_size], [u_ec_size]: size of a private key in PKCS#8 form, 0 if it is none (of that
    curve). *)
Record ulib := MkUlib {
  u_ecb : list Z -> list Z -> list Z;
  u_cbc : list Z -> list Z -> list Z -> list Z;
  u_ctr : list Z -> list Z -> list Z -> list Z;
  u_gcm : list Z -> list Z -> list Z -> list Z -> list Z -> option (list Z);
  u_chacha : list Z -> list Z -> list Z -> list Z -> list Z;
  u_poly : list Z -> list Z -> list Z -> list Z -> list Z -> option (list Z);
  u_pkcs1 : list Z -> list Z -> option (list Z);
  u_oaep : list Z -> Z -> Z -> list Z -> list Z -> option (list Z);
  u_elgamal : list Z -> Z -> list Z -> option (list Z);
  u_rsa_size : list Z -> Z;
  u_ec_size : Z -> list Z -> Z }.

(** Algorithm and parameters, [None] for NULL parameters. *)
Inductive ualg :=
| UEcb (pkcs7 : bool)
| UCbc (pkcs7 : bool) (iv : option input)
| UCtr (ctr : option input)
| UGcm (p : option (input * input * input))        (* iv, aad, tag *)
| UChacha (p : option (input * input))             (* counter, nonce *)
| UPoly (p : option (input * input * input))       (* nonce, aad, tag *)
| UPkcs1
| UOaep (p : option (Z * Z * input))               (* digest, mgf1 digest, label *)
| UElgamal (p : option (Z * Z))                    (* offset, key length *)
| UOther.

(** [UCrash]: an access outside a buffer.  [ULeak]: failure without freeing the buffer for
    the plaintext. *)
Inductive unwrapped := UKey (k : stored_key) | UFails (s : status) | ULeak (s : status) | UNothing | UCrash.

Definition int_of (n : Z) : Z := let k := n mod 2 ^ 32 in if k <? 2 ^ 31 then k else k - 2 ^ 32.

(** EVP_DecryptUpdate into [buf] and what follows it: the length is converted to int, a
    negative one is an error; [f] decrypts and checks.  The result is the buffer; [None] an
    error of OpenSSL, [Some None] a write outside the buffer. *)
Definition evp_decrypt (buf input : list Z) (f : list Z -> option (list Z)) (answer : bool) : option (option (list Z)) :=
  let k := int_of (zlen input) in
  if (k <? 0) || negb answer then None
  else match f (firstn (Z.to_nat k) input) with None => None | Some p => Some (put buf p) end.

(** The associated data: its length is converted in the same way. *)
Definition evp_aad (aad : list Z) (f : list Z -> option (list Z)) : option (list Z) :=
  let k := int_of (zlen aad) in if k <? 0 then None else f (firstn (Z.to_nat k) aad).

(** [import_key], unwrap.c:37-102.  [curve] is [None] for NULL type parameters. *)
Definition import_key (U : ulib) (rights wrapping : rights) (key_type : Z) (curve : option Z) (bytes : list Z) (alloc : bool) : unwrapped :=
  let create ps size :=
    match stored_key_create (Some rights) (Some wrapping) key_type ps size (Some bytes) alloc with
    | (OK, Some k) => UKey k
    | (OK, None) => UNothing
    | (s, _) => UFails s
    end in
  if negb ((key_type =? KT_EC) || (key_type =? KT_SYMMETRIC) || (key_type =? KT_RSA)) then UFails INVALID_PARAMETER
  else if key_type =? KT_EC then
    match curve with
    | None => UFails NULL_PARAMETER
    | Some c =>
        let size := u_ec_size U c bytes in
        if size =? 0 then UFails INTERNAL_ERROR else create (MkParams c (p_dh no_params)) size
    end
  else if key_type =? KT_RSA then
    let size := u_rsa_size U bytes in
    if size =? 0 then UFails INTERNAL_ERROR else create no_params size
  else create no_params (zlen bytes).

(** What follows the decryption with AES-ECB and AES-CBC, unwrap.c:147-176 and 238-267: the
    padding is looked at in the 16 bytes before the end of the buffer. *)
Definition import_padded (U : ulib) (pkcs7 : bool) (rights wrapping : rights) (key_type : Z) (curve : option Z)
    (buf : list Z) (alloc : bool) : unwrapped :=
  let n := zlen buf in
  if pkcs7 then
    if n - 16 <? 0 then UCrash
    else
      let '(pad, ok) := pad_check_pkcs7 (firstn 16 (skipn (Z.to_nat (n - 16)) buf)) in
      if negb ok then UFails INVALID_KEY_FORMAT
      else import_key U rights wrapping key_type curve (firstn (Z.to_nat (n - pad)) buf) alloc
  else import_key U rights wrapping key_type curve buf alloc.

(** The functions of unwrap.c on a wrapping key [w].  [mem] is what malloc delivered for the
    plaintext, with its old contents. *)
Section Unwrap.
Variables (U : ulib) (rights : rights) (key_type : Z) (curve : option Z) (w : stored_key)
  (input : list Z) (mem : option (list Z)) (answer alloc : bool).
Let key := k_bytes w.
Let import_ := import_key U rights (k_rights w) key_type curve.

(** unwrap.c:104-187 with otp.c:332-407; 189-278 with otp.c:409-486. *)
Definition unwrap_blocks (pkcs7 : bool) (f : list Z -> list Z) : unwrapped :=
  match mem with
  | None => UFails INTERNAL_ERROR
  | Some buf =>
      if negb (zlen input mod 16 =? 0) then UFails INVALID_PARAMETER
      else if negb ((zlen key =? 16) || (zlen key =? 32)) then UFails INVALID_PARAMETER
      else match evp_decrypt buf input (fun l => Some (f l)) answer with
           | None => UFails INTERNAL_ERROR
           | Some None => UCrash
           | Some (Some buf) => import_padded U pkcs7 rights (k_rights w) key_type curve buf alloc
           end
  end.
(** unwrap.c:280-394: a key that does not have 16 bytes is taken for one of 32. *)
Definition unwrap_ctr (ctr : list Z) : unwrapped :=
  match mem with
  | None => UFails INTERNAL_ERROR
  | Some buf =>
      if negb (zlen key =? 16) && (zlen key <? 32) then UCrash
      else match evp_decrypt buf input (fun l => Some (u_ctr U key ctr l)) answer with
           | None => UFails INTERNAL_ERROR
           | Some None => UCrash
           | Some (Some buf) => import_ buf alloc
           end
  end.
(** unwrap.c:396-479 with otp.c:488-620. *)
Definition unwrap_gcm (iv aad tag : M_Mac.input) : unwrapped :=
  match mem with
  | None => UFails INTERNAL_ERROR
  | Some buf =>
      if negb (in_length iv =? 12) then UFails INVALID_PARAMETER
      else if bad_input aad then UFails NULL_PARAMETER
      else if 16 <? in_length tag then UFails INVALID_PARAMETER
      else if negb ((zlen key =? 16) || (zlen key =? 32)) then UFails INVALID_PARAMETER
      else match evp_decrypt buf input 
                   (fun l => evp_aad (in_bytes aad) (fun a => u_gcm U key (in_bytes iv) a (in_bytes tag) l)) answer with
           | None => UFails INTERNAL_ERROR
           | Some None => UCrash
           | Some (Some buf) => import_ buf alloc
           end
  end.
(** unwrap.c:483-594; [stack] is the array [iv] with its old contents. *)
Definition unwrap_chacha (counter nonce : list Z) (stack : list Z) : unwrapped :=
  match mem with
  | None => UFails INTERNAL_ERROR
  | Some buf =>
      match copy_to stack 0 counter (zlen counter) with
      | None => UCrash
      | Some iv =>
          match copy_to iv 4 nonce (zlen nonce) with
          | None => UCrash
          | Some iv =>
              if zlen key <? 32 then UCrash
              else match evp_decrypt buf input (fun l => Some (u_chacha U key (firstn 4 iv) (skipn 4 iv) l)) answer with
                   | None => UFails INTERNAL_ERROR
                   | Some None => UCrash
                   | Some (Some buf) => import_ buf alloc
                   end
          end
      end
  end.
(** unwrap.c:596-745. *)
Definition unwrap_poly (nonce aad tag : M_Mac.input) : unwrapped :=
  match mem with
  | None => UFails INTERNAL_ERROR
  | Some buf =>
      if zlen key <? 32 then UCrash
      else match evp_decrypt buf input 
                   (fun l => evp_aad (in_bytes aad) (fun a => u_poly U key (in_bytes nonce) a (in_bytes tag) l)) answer with
           | None => UFails INTERNAL_ERROR
           | Some None => UCrash
           | Some (Some buf) => import_ buf alloc
           end
  end.
(** unwrap.c:749-844 with rsa.c:130-323.  The key that comes out is symmetric. *)
Definition unwrap_rsa (f : list Z -> option (list Z)) (label : M_Mac.input) : unwrapped :=
  match mem with
  | None => UFails INTERNAL_ERROR
  | Some buf =>
      if match label with Null n => negb (n =? 0) | Bytes _ => false end then ULeak INVALID_PARAMETER
      else if negb answer then UFails INTERNAL_ERROR
      else
        let size := u_rsa_size U key in
        if size =? 0 then UFails INTERNAL_ERROR
        else if zlen input <? size then UFails INTERNAL_ERROR
        else if negb (zlen input =? size) then UFails INTERNAL_ERROR
        else match f input with
             | None => UFails VERIFICATION_FAILED
             | Some p =>
                 match put buf p with
                 | None => UCrash
                 | Some buf => import_key U rights (k_rights w) KT_SYMMETRIC None (firstn (length p) buf) alloc
                 end
             end
  end.
(** unwrap.c:846-957 with ec.c:422-580. *)
Definition unwrap_ec (offset key_length : Z) : unwrapped :=
  let size := ec_key_size_from_curve (p_curve (k_params w)) in
  if size =? 0 then UFails OPERATION_NOT_SUPPORTED
  else if key_length <? 16 then UFails INVALID_PARAMETER
  else
    let '(o, total) := add_overflow offset key_length in
    if o then UFails INVALID_PARAMETER
    else if size <? total then UFails INVALID_PARAMETER
    else if negb (zlen input =? size * 4) then UFails INVALID_PARAMETER
    else match mem with
         | None => UFails INTERNAL_ERROR
         | Some buf =>
             if negb answer then UFails INTERNAL_ERROR
             else match u_elgamal U key (p_curve (k_params w)) input with
                  | None => UFails INTERNAL_ERROR
                  | Some p =>
                      match put buf p with
                      | None => UCrash
                      | Some buf =>
                          if negb (zlen p =? size) then UFails INTERNAL_ERROR
                          else if zlen buf <? offset + key_length then UCrash
                          else import_key U rights (k_rights w) KT_SYMMETRIC None
                                 (firstn (Z.to_nat key_length) (skipn (Z.to_nat offset) buf)) alloc
                      end
                  end
         end.
End Unwrap.

(** A parameter that has to be present and of length [n]. *)
Definition exactly (i : input) (n : Z) : option status :=
  match i with
  | Null _ => Some NULL_PARAMETER
  | Bytes l => if zlen l =? n then None else Some INVALID_PARAMETER
  end.
Definition then_ (a : option status) (b : option status) : option status := match a with Some _ => a | None => b end.
Definition check (b : bool) (s : status) : option status := if b then None else Some s.
Notation "a 'orelse' b" := (match a with Some s => UFails s | None => b end) (at level 60, right associativity).

(** [ta_sa_key_unwrap], ta_sa_key_unwrap.c:30-1004, behind the handles, for a non-NULL
    [input]; [now] is the clock, [stack] an array of 16 bytes. *)
Definition ta_unwrap (U : ulib) (alg : ualg) (rights : rights) (key_type : Z) (curve : option Z) (w : stored_key) (now : Z)
    (input : list Z) (mem : option (list Z)) (stack : list Z) (answer alloc : bool) : unwrapped :=
  let allowed := check (rights_allowed_unwrap (k_rights w) now) OPERATION_NOT_ALLOWED in
  let aes := check (key_type_supports_aes (k_type w) (k_size w)) INVALID_KEY_TYPE in
  let chacha := check (key_type_supports_chacha20 (k_type w) (k_size w)) INVALID_KEY_TYPE in
  let whole := check (zlen input mod 16 =? 0) INVALID_PARAMETER in
  let symmetric := check (key_type =? KT_SYMMETRIC) INVALID_PARAMETER in
  let rsa := then_ symmetric (then_ (check (key_type_supports_rsa (k_type w) (k_size w)) INVALID_KEY_TYPE)
               (then_ allowed (check (zlen input =? k_size w) INVALID_PARAMETER))) in
  let no_null := Some NULL_PARAMETER in
  match alg with
  | UEcb p => then_ whole (then_ allowed aes) orelse
      unwrap_blocks U rights key_type curve w input mem answer alloc p (u_ecb U (k_bytes w))
  | UCbc p None => UFails NULL_PARAMETER
  | UCbc p (Some iv) => then_ (exactly iv 16) (then_ whole (then_ allowed aes)) orelse
      unwrap_blocks U rights key_type curve w input mem answer alloc p (u_cbc U (k_bytes w) (in_bytes iv))
  | UCtr None => UFails NULL_PARAMETER
  | UCtr (Some ctr) => then_ (exactly ctr 16) (then_ allowed aes) orelse
      unwrap_ctr U rights key_type curve w input mem answer alloc (in_bytes ctr)
  | UGcm None => UFails NULL_PARAMETER
  | UGcm (Some (iv, aad, tag)) =>
      then_ (exactly iv 12) (then_ (check (negb (bad_input aad)) NULL_PARAMETER)
        (then_ (match tag with Null _ => no_null | Bytes t => check (zlen t <=? 16) INVALID_PARAMETER end)
           (then_ allowed aes))) orelse
      unwrap_gcm U rights key_type curve w input mem answer alloc iv aad tag
  | UChacha None => UFails NULL_PARAMETER
  | UChacha (Some (counter, nonce)) =>
      then_ (exactly counter 4) (then_ (exactly nonce 12) (then_ allowed chacha)) orelse
      unwrap_chacha U rights key_type curve w input mem answer alloc (in_bytes counter) (in_bytes nonce) stack
  | UPoly None => UFails NULL_PARAMETER
  | UPoly (Some (nonce, aad, tag)) =>
      then_ (exactly nonce 12) (then_ (check (negb (bad_input aad)) NULL_PARAMETER)
        (then_ (exactly tag 16) (then_ allowed chacha))) orelse
      unwrap_poly U rights key_type curve w input mem answer alloc nonce aad tag
  | UPkcs1 => rsa orelse unwrap_rsa U rights w input mem answer alloc (u_pkcs1 U (k_bytes w)) (Null 0)
  | UOaep p => rsa orelse
      match p with
      | None => UFails INVALID_PARAMETER
      | Some (d, m, label) => unwrap_rsa U rights w input mem answer alloc (u_oaep U (k_bytes w) d m (in_bytes label)) label
      end
  | UElgamal p => symmetric orelse
      match p with
      | None => UFails NULL_PARAMETER
      | Some (offset, key_length) =>
          then_ allowed (check (key_type_supports_ec (k_type w) (p_curve (k_params w)) (k_size w)) INVALID_KEY_TYPE) orelse
          unwrap_ec U rights w input mem answer alloc offset key_length
      end
  | UOther => UFails INVALID_PARAMETER
  end.
