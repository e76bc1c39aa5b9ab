(** C29, C43: key derivation.  [answers] and [alloc] tell which calls of OpenSSL and which
    allocations succeed, [mem] is the memory obtained for the key; [prk], [tag], [buf] and
    [full] are the functions' own buffers of 64 bytes, with any contents.  [d] is the digest,
    [n] the requested length, [now] the clock. *)
From Verif Require Import Base M_Rights M_Mac M_Kdf S_Rights S_Mac S_Kdf P_Mac P_Kdf.

(** HKDF delivers the output of RFC 5869, of the requested length, or an error; it never
    reads or writes outside a buffer and never succeeds without a key. *)
Theorem C29_hkdf : forall L rights d n salt info parent now mem prk tag answers alloc,
  good_lib L -> 0 <= n -> memory_for n mem -> zlen prk = 64 -> zlen tag = 64 ->
  match derive_hkdf L rights d n salt info parent now mem prk tag answers alloc with
  | KdfKey k => derived_key k rights parent n (rfc5869 L d salt (k_bytes parent) (in_bytes info) (Z.to_nat n))
  | KdfFails s => s <> OK | _ => False end.
Proof. exact hkdf_value. Qed.
Print Assumptions C29_hkdf.

(** CONCAT delivers the output of NIST SP 800-56A. *)
Theorem C29_concat : forall L rights d n info parent now mem buf answers alloc,
  good_lib L -> 0 <= n -> memory_for n mem -> zlen buf = 64 ->
  match derive_concat L rights d n info parent now mem buf answers alloc with
  | KdfKey k => derived_key k rights parent n (sp800_56a L d (k_bytes parent) (in_bytes info) (Z.to_nat n))
  | KdfFails s => s <> OK | _ => False end.
Proof. exact concat_value. Qed.
Print Assumptions C29_concat.

(** ANSI X9.63 delivers that of X9.63. *)
Theorem C29_x963 : forall L rights d n info parent now mem buf answers alloc,
  good_lib L -> 0 <= n -> memory_for n mem -> zlen buf = 64 ->
  match derive_x963 L rights d n info parent now mem buf answers alloc with
  | KdfKey k => derived_key k rights parent n (x963 L d (k_bytes parent) (in_bytes info) (Z.to_nat n))
  | KdfFails s => s <> OK | _ => False end.
Proof. exact x963_value. Qed.
Print Assumptions C29_x963.

(** CMAC delivers the slice asked for of the four blocks. *)
Theorem C29_cmac : forall L rights n c other parent now mem full answers alloc,
  good_lib L -> 0 <= n -> memory_for n mem -> zlen full = 64 -> zlen (k_bytes parent) = k_size parent ->
  match derive_cmac L rights n c other parent now mem full answers alloc with
  | KdfKey k => derived_key k rights parent n (ctr_cmac L (k_bytes parent) (in_bytes other) (Z.to_nat c) (Z.to_nat n))
  | KdfFails s => s <> OK | _ => False end.
Proof. exact cmac_value. Qed.
Print Assumptions C29_cmac.

Example C29_cases :
  let fine := fun _ : nat => true in
  derive_hkdf toy_lib plain_rights 1 40 (Null 0) (Bytes [1; 2]) (toy_parent 20) 5 (Some (repeat 9 40)) (repeat 9 64) (repeat 9 64) fine true =
    KdfKey (MkKey plain_rights 0 no_params 40 (rfc5869 toy_lib 1 (Null 0) (repeat 7 20) [1; 2] 40)) /\
  derive_concat toy_lib plain_rights 0 50 (Bytes [1; 2]) (toy_parent 20) 5 (Some (repeat 9 50)) (repeat 9 64) fine true =
    KdfKey (MkKey plain_rights 0 no_params 50 (sp800_56a toy_lib 0 (repeat 7 20) [1; 2] 50)) /\
  derive_x963 toy_lib plain_rights 2 96 (Null 0) (toy_parent 20) 5 (Some (repeat 9 96)) (repeat 9 64) fine true =
    KdfKey (MkKey plain_rights 0 no_params 96 (x963 toy_lib 2 (repeat 7 20) [] 96)) /\
  derive_cmac toy_lib plain_rights 32 3 (Bytes [4]) (toy_parent 16) 5 (Some (repeat 9 32)) (repeat 9 64) fine true =
    KdfKey (MkKey plain_rights 0 no_params 32 (ctr_cmac toy_lib (repeat 7 16) [4] 3 32)).
Proof. vm_compute. repeat split; reflexivity. Qed.

(** Which requests are accepted when nothing goes wrong: exactly those within the limits,
    for a parent that may be derived from. *)
Theorem C29_hkdf_accepted : forall L rights d n salt info parent now mem prk tag answers alloc,
  good_lib L -> 0 <= n -> memory_for n mem -> zlen prk = 64 -> zlen tag = 64 ->
  (forall i, answers i = true) -> alloc = true -> mem <> None -> length (r_id rights) = 64%nat ->
  (exists k, derive_hkdf L rights d n salt info parent now mem prk tag answers alloc = KdfKey k) <->
  (0 <= d <= 3 /\ n <= 512 /\ bad_input salt = false /\ bad_input info = false /\ may_derive parent now /\ 16 <= k_size parent <= 512) /\
  16 <= n <= 512 /\ id_terminated rights.
Proof. exact hkdf_accept. Qed.
Print Assumptions C29_hkdf_accepted.
Theorem C29_concat_accepted : forall L rights d n info parent now mem buf answers alloc,
  good_lib L -> 0 <= n -> memory_for n mem -> zlen buf = 64 ->
  (forall i, answers i = true) -> alloc = true -> mem <> None -> length (r_id rights) = 64%nat ->
  (exists k, derive_concat L rights d n info parent now mem buf answers alloc = KdfKey k) <->
  (0 <= d <= 3 /\ n <= 512 /\ bad_input info = false /\ may_derive parent now) /\ 16 <= n <= 512 /\ id_terminated rights.
Proof. exact concat_accept. Qed.
Print Assumptions C29_concat_accepted.
Theorem C29_x963_accepted : forall L rights d n info parent now mem buf answers alloc,
  good_lib L -> 0 <= n -> memory_for n mem -> zlen buf = 64 ->
  (forall i, answers i = true) -> alloc = true -> mem <> None -> length (r_id rights) = 64%nat ->
  (exists k, derive_x963 L rights d n info parent now mem buf answers alloc = KdfKey k) <->
  (0 <= d <= 3 /\ n <= 512 /\ bad_input info = false /\ may_derive parent now) /\ 16 <= n <= 512 /\ id_terminated rights.
Proof. exact x963_accept. Qed.
Print Assumptions C29_x963_accepted.
Theorem C29_cmac_accepted : forall L rights n c other parent now mem full answers alloc,
  good_lib L -> 0 <= n -> memory_for n mem -> zlen full = 64 -> zlen (k_bytes parent) = k_size parent ->
  (forall i, answers i = true) -> alloc = true -> mem <> None -> length (r_id rights) = 64%nat ->
  (exists k, derive_cmac L rights n c other parent now mem full answers alloc = KdfKey k) <->
  (1 <= c <= 4 /\ (exists m, n = 16 * m /\ c + m <= 5) /\ bad_input other = false /\ may_derive parent now /\
   (k_size parent = 16 \/ k_size parent = 32)) /\ 16 <= n <= 512 /\ id_terminated rights.
Proof. exact cmac_accept. Qed.
Print Assumptions C29_cmac_accepted.

(** Netflix: the wrapping key is the one the MSL reference derives from the two keys, and
    which requests are accepted. *)
Theorem C43_wrapping : forall L rights enc hmac now mem answers alloc,
  good_lib L -> match mem with Some (a, b) => zlen a = 32 /\ zlen b = 32 | None => True end ->
  match derive_netflix L rights enc hmac now mem answers alloc with
  | KdfKey k => derived_key k rights enc 16 (msl_wrapping L (k_bytes enc) (k_bytes hmac))
  | KdfFails s => s <> OK | _ => False end.
Proof. exact wrapping_value. Qed.
Print Assumptions C43_wrapping.
Theorem C43_wrapping_accepted : forall L rights enc hmac now mem answers alloc,
  good_lib L -> match mem with Some (a, b) => zlen a = 32 /\ zlen b = 32 | None => True end ->
  (forall i, answers i = true) -> alloc = true -> mem <> None -> length (r_id rights) = 64%nat ->
  (exists k, derive_netflix L rights enc hmac now mem answers alloc = KdfKey k) <->
  may_derive enc now /\ may_derive hmac now /\ zlen (k_bytes enc) = 16 /\ zlen (k_bytes hmac) = 32 /\ id_terminated rights.
Proof. exact wrapping_accept. Qed.
Print Assumptions C43_wrapping_accepted.

(** Missing: secrets with two or more leading zero bytes, for which it fails. *)
Theorem C43_shared_secret_partial : forall L rights_enc rights_hmac inkey secret mem answers a1 a2 number,
  good_lib L -> match mem with Some (a, b) => zlen a = 48 /\ zlen b = 48 | None => True end ->
  Forall byte_ok (k_bytes secret) -> k_bytes secret <> [] -> ~ (exists rest, k_bytes secret = 0 :: 0 :: rest) ->
  msl_number number (be_value (k_bytes secret)) ->
  match kdf_netflix_shared_secret L rights_enc rights_hmac inkey secret mem answers a1 a2 with (r1, r2) =>
    match r1 with KdfKey k => derived_key k rights_enc inkey 16 (fst (msl_keys L (k_bytes inkey) number)) | KdfFails s => s <> OK | _ => False end /\
    match r2 with KdfKey k => derived_key k rights_hmac inkey 32 (snd (msl_keys L (k_bytes inkey) number)) | KdfFails s => s <> OK | _ => False end
  end.
Proof. exact shared_value. Qed.
Print Assumptions C43_shared_secret_partial.
Example C43_cases :
  let fine := fun _ : nat => true in
  derive_netflix toy_lib plain_rights (toy_parent 16) (toy_parent 32) 5 (Some (repeat 9 32, repeat 9 32)) fine true =
    KdfKey (MkKey plain_rights 0 no_params 16 (msl_wrapping toy_lib (repeat 7 16) (repeat 7 32))) /\
  msl_number [0; 200; 1] (be_value [200; 1]) /\
  kdf_netflix_shared_secret toy_lib plain_rights plain_rights (toy_parent 16) (MkKey plain_rights 0 no_params 2 [200; 1])
    (Some (repeat 9 48, repeat 9 48)) fine true true =
    (KdfKey (MkKey plain_rights 0 no_params 16 (fst (msl_keys toy_lib (repeat 7 16) [0; 200; 1]))),
     KdfKey (MkKey plain_rights 0 no_params 32 (snd (msl_keys toy_lib (repeat 7 16) [0; 200; 1])))).
Proof.
  split; [vm_compute; reflexivity|]. split; [|vm_compute; reflexivity].
  exists [200; 1]. split; [reflexivity|]. split; [reflexivity|]. split; [repeat (constructor; [unfold byte_ok; lia|]); constructor|discriminate].
Qed.
Theorem C43_shared_secret_refuted : exists L inkey secret number k1 k2, good_lib L /\ Forall byte_ok (k_bytes secret) /\
  msl_number number (be_value (k_bytes secret)) /\
  kdf_netflix_shared_secret L plain_rights plain_rights inkey secret (Some (repeat 0 48, repeat 0 48)) (fun _ => true) true true =
    (KdfKey k1, KdfKey k2) /\
  k_bytes k1 <> fst (msl_keys L (k_bytes inkey) number) /\ k_bytes k2 <> snd (msl_keys L (k_bytes inkey) number).
Proof. exact two_zeros. Qed.
Print Assumptions C43_shared_secret_refuted.
