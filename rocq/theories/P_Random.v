From Verif Require Import Base M_Random S_Random.

Lemma to_int_small : forall n, 0 <= n < 2 ^ 31 -> to_int n = n.
Proof. intros n H. unfold to_int. rewrite Z.mod_small by lia. destruct (Z.ltb_spec n (2 ^ 31)); lia. Qed.
Lemma to_int_wraps : forall k r, 0 <= r < 2 ^ 31 -> to_int (2 ^ 32 * k + r) = r.
Proof.
  intros k r H. unfold to_int. replace ((2 ^ 32 * k + r) mod 2 ^ 32) with r.
  - destruct (Z.ltb_spec r (2 ^ 31)); lia.
  - rewrite Z.add_comm, Z.mul_comm, Z.mod_add by lia. symmetry. apply Z.mod_small. lia.
Qed.
Lemma to_int_negative : forall n, 2 ^ 31 <= n < 2 ^ 32 -> to_int n < 0.
Proof. intros n H. unfold to_int. rewrite Z.mod_small by lia. destruct (Z.ltb_spec n (2 ^ 31)); lia. Qed.

Lemma rand_small : forall L w fresh mem, zlen mem < 2 ^ 31 ->
  rand_bytes L w fresh mem = match w with Works => Some (true, random fresh (length mem)) | Fails => Some (false, mem) | Unsupported => Some (true, mem) end.
Proof.
  intros L w fresh mem H. unfold rand_bytes, RAND_bytes. unfold zlen in *. rewrite to_int_small by lia.
  destruct w; try reflexivity. destruct (Z.ltb_spec (Z.of_nat (length mem)) 0); [lia|].
  rewrite Nat2Z.id, skipn_all, app_nil_r. reflexivity.
Qed.
Lemma zlen_junk : forall (junk : nat -> Z) (l : list Z), zlen (map junk (seq 0 (length l))) = zlen l.
Proof. intros. unfold zlen. now rewrite map_length, seq_length. Qed.
Lemma length_junk : forall (junk : nat -> Z) n, length (map junk (seq 0 n)) = n.
Proof. intros. now rewrite map_length, seq_length. Qed.

Lemma random_filled : forall shared junk L w fresh out, 0 < zlen out < 2 ^ 31 -> w <> Unsupported ->
  let r := sa_crypto_random shared junk L w fresh out in
  match w with Works => r = filled fresh out | _ => failed out r end.
Proof.
  intros shared junk L w fresh out H U. cbv zeta. unfold sa_crypto_random, ta_random, filled, failed.
  destruct shared; rewrite ?zlen_junk; (destruct (Z.eqb_spec (zlen out) 0); [lia|]);
    rewrite rand_small by (rewrite ?zlen_junk; lia); destruct w; try contradiction; rewrite ?length_junk; try reflexivity;
    eexists; (split; [|reflexivity]); discriminate.
Qed.
Lemma random_empty : forall shared junk L w fresh, failed [] (sa_crypto_random shared junk L w fresh []).
Proof. intros []; intros; exists NULL_PARAMETER; split; try discriminate; reflexivity. Qed.
Lemma random_unsupported : forall shared junk L fresh out, 0 < zlen out ->
  sa_crypto_random shared junk L Unsupported fresh out = Some (OK, if shared then map junk (seq 0 (length out)) else out).
Proof.
  intros shared junk L fresh out H. unfold sa_crypto_random, ta_random. destruct shared; rewrite ?zlen_junk;
    (destruct (Z.eqb_spec (zlen out) 0); [lia|]); reflexivity.
Qed.
Lemma random_large : forall junk L fresh out k r, 0 < k -> 0 <= r < 2 ^ 31 -> zlen out = 2 ^ 32 * k + r ->
  sa_crypto_random false junk L Works fresh out = Some (OK, random fresh (Z.to_nat r) ++ skipn (Z.to_nat r) out).
Proof.
  intros junk L fresh out k r K R E. unfold sa_crypto_random, ta_random, rand_bytes, RAND_bytes.
  destruct (Z.eqb_spec (zlen out) 0); [lia|]. rewrite E, to_int_wraps by auto. destruct (Z.ltb_spec r 0); [lia|]. reflexivity.
Qed.
Lemma random_negative : forall junk fresh out, 2 ^ 31 <= zlen out < 2 ^ 32 ->
  sa_crypto_random false junk Ossl111 Works fresh out = None /\ sa_crypto_random false junk Ossl102 Works fresh out = Some (OK, out) /\
  failed out (sa_crypto_random false junk Ossl3 Works fresh out).
Proof.
  intros junk fresh out H. unfold sa_crypto_random, ta_random, rand_bytes, RAND_bytes.
  destruct (Z.eqb_spec (zlen out) 0); [lia|]. pose proof (to_int_negative _ H). destruct (Z.ltb_spec (to_int (zlen out)) 0); [|lia].
  split; [reflexivity|]. split; [reflexivity|]. exists INTERNAL_ERROR. split; [discriminate|reflexivity].
Qed.
Lemma key_random : forall L w fresh junk n, w <> Unsupported ->
  match w with
  | Works => generate L w fresh junk n = if (16 <=? n) && (n <=? 512) then Some (OK, Some (random fresh (Z.to_nat n))) else Some (INVALID_PARAMETER, None)
  | _ => failed None (generate L w fresh junk n)
  end.
Proof.
  intros L w fresh junk n U. unfold generate, failed. destruct (Z.ltb_spec n 16), (Z.ltb_spec 512 n), (Z.leb_spec 16 n), (Z.leb_spec n 512); try lia; cbn [orb andb];
    destruct w; try contradiction; try reflexivity; try (eexists; split; [|reflexivity]; discriminate).
  all: rewrite rand_small by (unfold zlen; rewrite length_junk; lia); rewrite ?length_junk; try reflexivity.
  all: eexists; split; [|reflexivity]; discriminate.
Qed.
Lemma key_unsupported : forall L fresh junk n, 16 <= n <= 512 ->
  generate L Unsupported fresh junk n = Some (OK, Some (map junk (seq 0 (Z.to_nat n)))).
Proof.
  intros L fresh junk n H. unfold generate. destruct (Z.ltb_spec n 16), (Z.ltb_spec 512 n); try lia. reflexivity.
Qed.
Lemma large_memory : forall n, 0 <= n -> exists out : list Z, zlen out = n.
Proof. intros n H. exists (repeat 0 (Z.to_nat n)). unfold zlen. rewrite repeat_length. apply Z2Nat.id. exact H. Qed.
