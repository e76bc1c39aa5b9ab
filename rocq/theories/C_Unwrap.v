(** C32, C44: unwrapping.  [w] is the wrapping key, [t] and [curve] the type asked for,
    [now] the clock, [mem] the memory obtained for the plaintext with any contents, [stack]
    the function's own buffer; [answer] and [alloc] tell whether OpenSSL's calls and the
    allocation of the key succeed. *)
From Verif Require Import Base M_Rights M_Mac M_Unwrap S_Bytes S_Rights S_Unwrap P_Mac P_Kdf P_Unwrap.

(** Missing: an empty input. *)
Theorem C32_in_bounds_partial : forall U alg rights t curve w now input mem stack answer alloc,
  good_ulib U -> padded alg -> unwrap_room alg w (zlen input) mem -> 0 < zlen input ->
  ta_unwrap U alg rights t curve w now input mem stack answer alloc <> UCrash.
Proof. exact padded_bounds. Qed.
Print Assumptions C32_in_bounds_partial.

(** An empty input makes the function read the 16 bytes before its buffer, whenever the
    wrapping key may be used. *)
Theorem C32_in_bounds_refuted : forall U alg rights t curve w now m stack, padded alg -> good_ulib U -> honest U w ->
  may_unwrap w now -> wrapping_ok alg w -> arguments_ok alg w 0 ->
  m = [] -> ta_unwrap U alg rights t curve w now [] (Some m) stack true true = UCrash.
Proof. exact padded_empty. Qed.
Print Assumptions C32_in_bounds_refuted.
Example C32_empty : padded (UEcb true) /\ honest toy_ulib (toy_wrapping 0 16) /\ may_unwrap (toy_wrapping 0 16) 5 /\
  wrapping_ok (UEcb true) (toy_wrapping 0 16) /\ arguments_ok (UEcb true) (toy_wrapping 0 16) 0 /\
  ta_unwrap toy_ulib (UEcb true) plain_rights 0 None (toy_wrapping 0 16) 5 [] (Some []) (repeat 0 16) true true = UCrash.
Proof.
  split; [exact I|]. split; [apply toy_honest; now left|]. split; [split; [reflexivity|split; reflexivity || discriminate]|].
  split; [split; [reflexivity|now left]|]. split; reflexivity.
Qed.

(** The key that comes out is the decrypted input without its padding.  Missing: inputs from
    2 GiB (see [C44_value_refuted]). *)
Theorem C32_value_partial : forall U alg rights t curve w now input mem stack answer alloc k,
  good_ulib U -> honest U w -> padded alg -> 0 < zlen input < 2 ^ 31 -> zlen stack = 16 -> unwrap_room alg w (zlen input) mem ->
  ta_unwrap U alg rights t curve w now input mem stack answer alloc = UKey k ->
  match alg with
  | UEcb _ => u_ecb U (k_bytes w) input = pkcs7_pad (k_bytes k)
  | UCbc _ (Some (Bytes iv)) => u_cbc U (k_bytes w) iv input = pkcs7_pad (k_bytes k)
  | _ => False
  end.
Proof. exact padding_removed. Qed.
Print Assumptions C32_value_partial.

(** For every algorithm: a key is made only if the wrapping key may be used and is of the
    right kind, the arguments are right and the authentication succeeds; it has the bytes the
    input contains, the type asked for and the size the bytes have.  Every other outcome is an
    error; no buffer is overrun.  Missing: inputs and associated data from 2 GiB, empty padded
    inputs, and the error that leaves the plaintext buffer behind. *)
Theorem C44_value_partial : forall U alg rights t curve w now input mem stack answer alloc,
  good_ulib U -> honest U w -> zlen input < 2 ^ 31 -> zlen stack = 16 -> unwrap_room alg w (zlen input) mem ->
  wide_parameters alg -> short_aad alg -> some_block alg (zlen input) ->
  match ta_unwrap U alg rights t curve w now input mem stack answer alloc with
  | UKey k => exists bytes, unwrappable U alg rights t curve w now input bytes /\ key_made U rights w t curve bytes k
  | UFails s => s <> OK
  | ULeak s => s <> OK /\ label_missing alg
  | _ => False
  end.
Proof. exact unwrap_value. Qed.
Print Assumptions C44_value_partial.

(** When nothing goes wrong, every key that may be unwrapped is. *)
Theorem C44_accepted : forall U alg rights t curve w now input mem stack bytes,
  good_ulib U -> honest U w -> zlen input < 2 ^ 31 -> zlen stack = 16 -> unwrap_room alg w (zlen input) mem -> mem <> None ->
  wide_parameters alg -> short_aad alg -> some_block alg (zlen input) ->
  unwrappable U alg rights t curve w now input bytes ->
  exists k, ta_unwrap U alg rights t curve w now input mem stack true true = UKey k /\ key_made U rights w t curve bytes k.
Proof. exact unwrap_accepted. Qed.
Print Assumptions C44_accepted.

Example C44_cases :
  let go alg w input m := ta_unwrap toy_ulib alg plain_rights 0 None w 5 input (Some m) (repeat 9 16) true true in
  let aes := toy_wrapping 0 16 in let wide := toy_wrapping 0 32 in
  let key n b := UKey (MkKey plain_rights 0 no_params n b) in
  go (UEcb true) aes (map (Z.lxor 112) (repeat 5 16 ++ repeat 16 16)) (repeat 9 32) = key 16 (repeat 5 16) /\
  go (UEcb true) aes (map (Z.lxor 112) (repeat 5 16 ++ repeat 17 16)) (repeat 9 32) = UFails INVALID_KEY_FORMAT /\
  go (UCbc false (Some (Bytes (repeat 1 16)))) aes (map (Z.lxor 128) (repeat 5 16)) (repeat 9 16) = key 16 (repeat 5 16) /\
  go (UGcm (Some (Bytes (repeat 0 12), Null 0, Bytes [192]))) aes (repeat 5 16) (repeat 9 16) = key 16 (map (Z.lxor 112) (repeat 5 16)) /\
  go (UGcm (Some (Bytes (repeat 0 12), Null 0, Bytes [193]))) aes (repeat 5 16) (repeat 9 16) = UFails INTERNAL_ERROR /\
  go (UChacha (Some (Bytes (repeat 0 4), Bytes (repeat 0 12)))) wide (repeat 5 20) (repeat 9 20) = key 20 (map (Z.lxor 224) (repeat 5 20)) /\
  go UPkcs1 (toy_wrapping 2 128) (2 :: repeat 5 127) (repeat 9 128) = key 127 (map (Z.lxor 143) (repeat 5 127)) /\
  go (UElgamal (Some (2, 16))) (toy_wrapping 1 32) (0 :: 1 :: 2 :: repeat 3 125) (repeat 9 32) = key 16 (map (Z.lxor 29) (2 :: repeat 3 15)) /\
  go (UElgamal (Some (17, 16))) (toy_wrapping 1 32) (0 :: 1 :: 2 :: repeat 3 125) (repeat 9 32) = UFails INVALID_PARAMETER.
Proof. vm_compute. repeat apply conj; reflexivity. Qed.

(** An input of more than 4 GiB: only its length modulo 2^32 is decrypted, and the key takes
    the rest of its bytes from the memory as it was before. *)
Theorem C44_value_refuted : exists U w input m k,
  good_ulib U /\ honest U w /\ zlen input < 2 ^ 64 /\ zlen m = zlen input /\
  ta_unwrap U (UEcb false) plain_rights 2 None w 5 input (Some m) (repeat 0 16) true true = UKey k /\
  ~ contains U (UEcb false) (k_bytes w) 0 input (k_bytes k) /\ In 9 (k_bytes k) /\ ~ In 9 (u_ecb U (k_bytes w) input).
Proof. exact huge_input. Qed.
Print Assumptions C44_value_refuted.

(** Associated data of more than 4 GiB is not all authenticated. *)
Theorem C44_authentic_refuted : exists U w iv aad tag input m k,
  good_ulib U /\ honest U w /\ zlen input < 2 ^ 31 /\ zlen aad < 2 ^ 64 /\ zlen m = zlen input /\
  ta_unwrap U (UGcm (Some (Bytes iv, Bytes aad, Bytes tag))) plain_rights 0 None w 5 input (Some m) (repeat 0 16) true true = UKey k /\
  u_gcm U (k_bytes w) iv aad tag input = None.
Proof. exact huge_aad. Qed.
Print Assumptions C44_authentic_refuted.

(** A missing OAEP label with a length leaves the plaintext buffer allocated, for every key
    that could otherwise be used. *)
Theorem C44_freed_refuted : forall U rights curve w now input m stack answer alloc d mgf n, n <> 0 ->
  may_unwrap w now -> wrapping_ok (UOaep None) w -> zlen input = k_size w ->
  ta_unwrap U (UOaep (Some (d, mgf, Null n))) rights 0 curve w now input (Some m) stack answer alloc = ULeak INVALID_PARAMETER.
Proof. exact oaep_leak. Qed.
Print Assumptions C44_freed_refuted.
Example C44_leak : may_unwrap (toy_wrapping 2 128) 5 /\ wrapping_ok (UOaep None) (toy_wrapping 2 128) /\
  ta_unwrap toy_ulib (UOaep (Some (1, 1, Null 3))) plain_rights 0 None (toy_wrapping 2 128) 5 (repeat 5 128) (Some (repeat 9 128)) (repeat 9 16) true true
    = ULeak INVALID_PARAMETER.
Proof.
  split; [split; [reflexivity|split; reflexivity || discriminate]|]. split; [split; [reflexivity|apply sz_rsa; now left]|]. reflexivity.
Qed.
