(** What common encryption (ISO/IEC 23001-7) asks of the decryption of one sample; compare
    the description of [sa_sample] in client/include/sa_cenc.h.  A sample is a list of
    subsamples, each a number of clear bytes followed by a number of protected bytes. *)
From Verif Require Import Base M_Svp S_Svp M_Cenc.

Definition total (subs : list (Z * Z)) : Z := fold_right (fun cp n => fst cp + snd cp + n) 0 subs.
Definition subs_u64 (subs : list (Z * Z)) : Prop := Forall (fun cp => is_u64 (fst cp) /\ is_u64 (snd cp)) subs.

(** The four schemes: counter mode or CBC, whole ranges or a pattern of blocks. *)
Record scheme := MkScheme { f_ctr : bool; f_crypt : Z; f_skip : Z }.

(** Is byte [i] of a protected range of [p] bytes encrypted?  Without a pattern all bytes
    are, in CBC mode all whole blocks; with a pattern, of every [crypt + skip] whole blocks
    the first [crypt]. *)
Definition encrypted_in (f : scheme) (p i : Z) : bool :=
  if f_crypt f =? 0 then f_ctr f || (i <? p / 16 * 16)
  else (i <? p / 16 * 16) && ((i / 16) mod (f_crypt f + f_skip f) <? f_crypt f).
(** Is byte [j] of the sample encrypted? *)
Fixpoint encrypted (f : scheme) (subs : list (Z * Z)) (j : Z) : bool :=
  match subs with
  | [] => false
  | (c, p) :: rest =>
      if j <? c then false
      else if j <? c + p then encrypted_in f p (j - c)
      else encrypted f rest (j - c - p)
  end.

(** How many encrypted bytes there are in positions [from], ..., [to] - 1. *)
Definition between (f : scheme) (subs : list (Z * Z)) (from to : Z) : Z :=
  Z.of_nat (length (filter (fun i => encrypted f subs (from + Z.of_nat i)) (seq 0 (Z.to_nat (to - from))))).
(** Where the cipher (re)starts for byte [j]: with a CBC pattern at the start of each
    subsample, otherwise at the start of the sample. *)
Fixpoint sub_start (subs : list (Z * Z)) (j : Z) : Z :=
  match subs with
  | [] => 0
  | (c, p) :: rest => if j <? c + p then 0 else c + p + sub_start rest (j - c - p)
  end.
Definition chain_start (f : scheme) (subs : list (Z * Z)) (j : Z) : Z :=
  if negb (f_ctr f) && negb (f_crypt f =? 0) then sub_start subs j else 0.
(** The number of encrypted bytes before byte [j] in its run of the cipher. *)
Definition rank (f : scheme) (subs : list (Z * Z)) (j : Z) : Z := between f subs (chain_start f subs j) j.

(** [dst] is the decryption of the sample [src].  Bytes that are not encrypted are copied.
    In counter mode the [k]th encrypted byte is combined with byte [k mod 16] of the
    encryption of the block that has the nonce and, modulo 2^64, the counter plus [k / 16].
    In CBC mode its decrypted block is combined with the previous encrypted block, the first
    with the initialisation vector. *)
Definition decrypted (g : engine) (f : scheme) (v : iv) (subs : list (Z * Z)) (src dst : Z -> Z) : Prop :=
  forall j, 0 <= j < total subs ->
  if encrypted f subs j then
    let k := rank f subs j in
    if f_ctr f then
      dst j = Z.lxor (src j) (e_stream g (MkIv (iv_nonce v) ((iv_counter v + k / 16) mod 2 ^ 64)) (k mod 16))
    else
      exists q, dst j = Z.lxor (e_dec g (block_at src (j - k mod 16)) (k mod 16)) q /\
        (k < 16 -> q = iv_byte v k) /\
        (16 <= k -> exists j', encrypted f subs j' = true /\ chain_start f subs j' = chain_start f subs j /\
                    rank f subs j' = k - 16 /\ q = src j')
  else dst j = src j.

(** ** Conditions under which the code is right *)

(** Protected ranges are short of 2 GiB and pattern numbers short of 2^60. *)
Definition moderate (f : scheme) (subs : list (Z * Z)) : Prop :=
  0 <= f_crypt f < 2 ^ 60 /\ 0 <= f_skip f < 2 ^ 60 /\ Forall (fun cp => snd cp < 2 ^ 31) subs.
(** In counter mode without a pattern: a protected range that begins inside a cipher block
    ends at or after the end of this block, and the block counter does not roll over inside
    the range after its second block.  [k] is the number of encrypted bytes before. *)
Definition range_good (counter k p : Z) : Prop :=
  k mod 16 = 0 \/ p = 0 \/
  (16 <= k mod 16 + p /\
   forall r, k / 16 + 1 < r < (k + p) / 16 -> (counter + r) mod 2 ^ 64 <> 0).
Fixpoint ranges_good (counter k : Z) (subs : list (Z * Z)) : Prop :=
  match subs with
  | [] => True
  | (_, p) :: rest => range_good counter k p /\ ranges_good counter (k + p) rest
  end.
Definition well_placed (f : scheme) (v : iv) (subs : list (Z * Z)) : Prop :=
  f_ctr f = true -> f_crypt f = 0 -> ranges_good (iv_counter v) 0 subs.

(** Memory after writing: positions [out], ..., [out] + [n] - 1 hold [f]; nothing else has
    changed. *)
Definition stored (m m' : mem) (out n : Z) (f : Z -> Z) : Prop :=
  (forall a, m_ok m' a = m_ok m a) /\
  forall a, m_val m' a = if (out <=? a) && (a <? out + n) then f (a - out) else m_val m a.
(** Memory outside [out], ..., [out] + [n] - 1 is as it was. *)
Definition outside_kept (m m' : mem) (out n : Z) : Prop :=
  (forall a, m_ok m' a = m_ok m a) /\ forall a, ~ (out <= a < out + n) -> m_val m' a = m_val m a.

(** ** Buffers *)
Definition u64_buffer (b : buffer) : Prop :=
  match b with
  | BClear base len off => is_u64 base /\ is_u64 len /\ is_u64 off
  | BSvp (Some sb) off => created sb /\ is_u64 off
  | BSvp None off => is_u64 off
  end.
(** The [n] bytes from the offset of the buffer lie inside the buffer and start at [p]. *)
Definition holds (b : buffer) (n p : Z) : Prop :=
  match b with
  | BClear base len off => p = base + off /\ inside base len p n
  | BSvp (Some sb) off => p = sb_memory sb + off /\ inside (sb_memory sb) (sb_size sb) p n
  | BSvp None _ => False
  end.
(** The memory of the buffer exists. *)
Definition buffer_live (m : mem) (b : buffer) : Prop :=
  match b with
  | BClear base len _ => live m base len
  | BSvp (Some sb) _ => live m (sb_memory sb) (sb_size sb)
  | BSvp None _ => True
  end.
Definition usable (m : mem) (b : buffer) : Prop := u64_buffer b /\ buffer_live m b.
(** The buffer with its offset increased. *)
Definition moved (b : buffer) (n : Z) : buffer :=
  match b with BClear base len off => BClear base len (off + n) | BSvp sb off => BSvp sb (off + n) end.

Definition sample_u64 (x : sample) : Prop :=
  subs_u64 (x_subs x) /\ is_u64 (iv_nonce (x_iv x)) /\ is_u64 (iv_counter (x_iv x)) /\ is_u64 (x_crypt x) /\ is_u64 (x_skip x).
(** A sample that is processed: its length fits in 64 bits and in both buffers, and the two
    ranges [out] and [in_] are apart by at least one byte. *)
Definition accepted (bs : list buffer) (x : sample) (out in_ : Z) : Prop :=
  (x_crypt x = 0 -> x_skip x = 0) /\ 0 < total (x_subs x) < 2 ^ 64 /\
  holds (buffer_at bs (x_out x)) (total (x_subs x)) out /\
  holds (buffer_at bs (x_in x)) (total (x_subs x)) in_ /\
  (out + total (x_subs x) < in_ \/ in_ + total (x_subs x) < out).
(** Both offsets of the sample are increased by the length. *)
Definition offsets_moved (bs bs' : list buffer) (x : sample) : Prop :=
  length bs' = length bs /\
  forall i, buffer_at bs' i = if (i =? x_in x)%nat || (i =? x_out x)%nat then moved (buffer_at bs i) (total (x_subs x)) else buffer_at bs i.
(** The memory at [a] as a function of the position. *)
Definition bytes_at (m : mem) (a : Z) : Z -> Z := fun i => m_val m (a + i).

(** The number of protected bytes before byte [j], without a pattern. *)
Fixpoint protected_before (subs : list (Z * Z)) (j : Z) : Z :=
  match subs with
  | [] => 0
  | (c, p) :: rest => if j <? c then 0 else if j <? c + p then j - c else p + protected_before rest (j - c - p)
  end.
(** Byte [j] of the sample is protected. *)
Fixpoint is_protected (subs : list (Z * Z)) (j : Z) : bool :=
  match subs with
  | [] => false
  | (c, p) :: rest => if j <? c then false else if j <? c + p then true else is_protected rest (j - c - p)
  end.
