(** Random bytes: from sa_crypto_random and from the generation of symmetric keys down to RAND_bytes of OpenSSL. *)
From Verif Require Import Base.

(** [(int) out_length], porting/rand.c:29. *)
Definition to_int (n : Z) : Z := let r := n mod 2 ^ 32 in if r <? 2 ^ 31 then r else r - 2 ^ 32.

(** RAND_bytes(buf, num), by its manual: 1, and the bytes are there; 0; or -1, "if not supported by the current RAND method".
    What becomes of a negative [num] depends on the library: OpenSSL 3 answers 0; 1.1.1 converts it to size_t and goes on; 1.0.2
    answers 1 having done nothing. *)
Inductive lib := Ossl3 | Ossl111 | Ossl102.
Inductive works := Works | Fails | Unsupported.
Inductive written := Ret (r : Z) (mem : list Z) | Beyond (* memory behind the buffer is written *).
Definition RAND_bytes (L : lib) (w : works) (fresh : nat -> Z) (mem : list Z) (num : Z) : written :=
  match w with
  | Fails => Ret 0 mem
  | Unsupported => Ret (-1) mem
  | Works =>
      if num <? 0 then match L with Ossl3 => Ret 0 mem | Ossl111 => Beyond | Ossl102 => Ret 1 mem end
      else Ret 1 (map fresh (seq 0 (Z.to_nat num)) ++ skipn (Z.to_nat num) mem)
  end.
(** porting/rand.c:23-35, for [out] not NULL: [!RAND_bytes(...)]. *)
Definition rand_bytes (L : lib) (w : works) (fresh : nat -> Z) (mem : list Z) : option (bool * list Z) :=
  match RAND_bytes L w fresh mem (to_int (zlen mem)) with
  | Beyond => None
  | Ret r mem => Some (negb (r =? 0), mem)
  end.
(** ta.c:1043-1058 with ta_sa_crypto_random.c:23-45, for valid commands. *)
Definition ta_random (L : lib) (w : works) (fresh : nat -> Z) (mem : list Z) : option (status * list Z) :=
  if zlen mem =? 0 then Some (NULL_PARAMETER, mem)
  else
    match rand_bytes L w fresh mem with
    | None => None
    | Some (true, mem) => Some (OK, mem)
    | Some (false, mem) => Some (INTERNAL_ERROR, mem)
    end.
(** clientimpl/src/sa_crypto_random.c:25-70, with memory for the command; [junk]: what shared memory holds when it is taken. *)
Definition sa_crypto_random (shared : bool) (junk : nat -> Z) (L : lib) (w : works) (fresh : nat -> Z) (out : list Z) : option (status * list Z) :=
  let param := if shared then map junk (seq 0 (length out)) else out in
  match ta_random L w fresh param with
  | None => None
  | Some (OK, param) => Some (OK, param)                   (* COPY_OUT_PARAM, or the same memory *)
  | Some (s, param) => Some (s, if shared then out else param)
  end.

(** ta_sa_key_generate.c:63-66 (16 to 512 bytes, common.h) and internal/symmetric.c:36-92: the bytes of the key, if one is made.
    [junk]: what the allocated memory holds, porting/memory.c. *)
Definition generate (L : lib) (w : works) (fresh junk : nat -> Z) (n : Z) : option (status * option (list Z)) :=
  if (n <? 16) || (512 <? n) then Some (INVALID_PARAMETER, None)
  else
    match rand_bytes L w fresh (map junk (seq 0 (Z.to_nat n))) with
    | None => None
    | Some (true, key) => Some (OK, Some key)
    | Some (false, _) => Some (INTERNAL_ERROR, None)
    end.
