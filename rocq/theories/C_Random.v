(** C86 — Random bytes: all of those asked for, or an error. *)
From Verif Require Import Base M_Random S_Random P_Random.

(** Below 2^31 bytes, with a generator that works or fails, in both builds. *)
Theorem C86_filled_partial : forall shared junk L w fresh out, 0 < zlen out < 2 ^ 31 -> w <> Unsupported ->
  let r := sa_crypto_random shared junk L w fresh out in
  match w with Works => r = filled fresh out | _ => failed out r end.
Proof. exact random_filled. Qed.
Print Assumptions C86_filled_partial.
Example C86_filled_example :
  sa_crypto_random true (fun _ => 9) Ossl3 Works (fun i => Z.of_nat i + 40) [1; 2; 3] = Some (OK, [40; 41; 42]) /\
  sa_crypto_random true (fun _ => 9) Ossl3 Fails (fun i => Z.of_nat i + 40) [1; 2; 3] = Some (INTERNAL_ERROR, [1; 2; 3]).
Proof. split; reflexivity. Qed.
Theorem C86_nothing_asked : forall shared junk L w fresh, failed [] (sa_crypto_random shared junk L w fresh []).
Proof. exact random_empty. Qed.
Print Assumptions C86_nothing_asked.
(** False: a generator that is not supported (-1) counts as success, and the memory is left as it was, or filled from what the
    shared memory held. *)
Theorem C86_unsupported_refuted : forall shared junk L fresh out, 0 < zlen out ->
  sa_crypto_random shared junk L Unsupported fresh out = Some (OK, if shared then map junk (seq 0 (length out)) else out).
Proof. exact random_unsupported. Qed.
Print Assumptions C86_unsupported_refuted.
(** False: of 2^32 bytes and more only the remainder is filled. *)
Theorem C86_large_refuted : forall junk L fresh out k r, 0 < k -> 0 <= r < 2 ^ 31 -> zlen out = 2 ^ 32 * k + r ->
  sa_crypto_random false junk L Works fresh out = Some (OK, random fresh (Z.to_nat r) ++ skipn (Z.to_nat r) out).
Proof. exact random_large. Qed.
Print Assumptions C86_large_refuted.
Example C86_large_example : exists out : list Z, zlen out = 2 ^ 32 * 1 + 5.
Proof. exact (large_memory (2 ^ 32 * 1 + 5) ltac:(lia)). Qed.
(** Between, it depends on OpenSSL: 1.1.1 writes behind the memory, 1.0.2 does nothing and succeeds, 3 fails. *)
Theorem C86_negative_refuted : forall junk fresh out, 2 ^ 31 <= zlen out < 2 ^ 32 ->
  sa_crypto_random false junk Ossl111 Works fresh out = None /\ sa_crypto_random false junk Ossl102 Works fresh out = Some (OK, out) /\
  failed out (sa_crypto_random false junk Ossl3 Works fresh out).
Proof. exact random_negative. Qed.
Print Assumptions C86_negative_refuted.

(** A symmetric key generated consists of random bytes, as many as asked for. *)
Theorem C86_key_partial : forall L w fresh junk n, w <> Unsupported ->
  match w with
  | Works => generate L w fresh junk n = if (16 <=? n) && (n <=? 512) then Some (OK, Some (random fresh (Z.to_nat n))) else Some (INVALID_PARAMETER, None)
  | _ => failed None (generate L w fresh junk n)
  end.
Proof. exact key_random. Qed.
Print Assumptions C86_key_partial.
Example C86_key_example : generate Ossl3 Works (fun i => Z.of_nat i) (fun _ => 0) 16 = Some (OK, Some [0;1;2;3;4;5;6;7;8;9;10;11;12;13;14;15]).
Proof. reflexivity. Qed.
(** False without support: the key is what the memory held. *)
Theorem C86_key_unsupported_refuted : forall L fresh junk n, 16 <= n <= 512 ->
  generate L Unsupported fresh junk n = Some (OK, Some (map junk (seq 0 (Z.to_nat n)))).
Proof. exact key_unsupported. Qed.
Print Assumptions C86_key_unsupported_refuted.
