(** What an application relies on when it gives several samples: they are decrypted one after the
    other, each where the one before has stopped. *)
From Verif Require Import Base M_KeyStore M_Marshal M_Client S_Client M_ClientSamples.

(** Everything a sample needs is there, and there is room at both offsets. *)
Definition room (p : place) (off : Z) : bool :=
  match p with NoMemory _ => false | Memory _ _ n => off <? n | Protected _ _ => true end.
Definition usable (buffers : nat -> place) (o : offsets) (s : tsample) : bool :=
  match ts_iv s, ts_lengths s, ts_out s, ts_in s with
  | Some iv, Some (_ :: _), Some out, Some inp => (zlen iv =? 16) && room (buffers out) (o out) && room (buffers inp) (o inp)
  | _, _, _, _ => false
  end.

Section Order.
Variable buffers : nat -> place.
Variable imp : nat -> app -> reply.
Variable contents : nat -> Z -> Z -> Z -> bytes.

(** The request a sample stands for: its memory from the offsets on. *)
Definition target (b : nat) (off : Z) : abuf outb :=
  match buffers b with
  | NoMemory n => Clear (OutNull n) 0 | Memory id addr n => Clear (Out id (addr + off) (n - off)) 0 | Protected ty h => Svp ty h off
  end.
Definition source (i b : nat) (off : Z) : abuf inb :=
  match buffers b with
  | NoMemory n => Clear (InNull n) 0 | Memory id addr n => Clear (In (skipn (Z.to_nat off) (contents i id addr n))) 0
  | Protected ty h => Svp ty h off
  end.
Definition request (i : nat) (o : offsets) (s : tsample) : app :=
  match ts_iv s, ts_lengths s, ts_out s, ts_in s with
  | Some iv, Some lengths, Some out, Some inp =>
      CommonEncryption (MkSample iv (ts_crypt s) (ts_skip s) lengths (ts_context s) (target out (o out)) (source i inp (o inp)))
  | _, _, _, _ => GetVersion
  end.

(** Where a buffer stands when the implementation says that it has moved by (clear memory) or to
    (protected memory) [n]. *)
Definition moved (b : nat) (off n : Z) : Z := match buffers b with Protected _ _ => n | _ => wrap64 (off + n) end.
Definition moved_on (o : offsets) (s : tsample) (r : reply) : offsets :=
  match ts_out s, ts_in s with
  | Some out, Some inp =>
      let o1 := set_offset o out (moved out (o out) (word r 0)) in set_offset o1 inp (moved inp (o1 inp) (word r 1))
  | _, _ => o
  end.

(** The samples from number [i] on, in order, up to the first that cannot be done. *)
Inductive in_order : nat -> offsets -> list tsample -> status -> list app -> offsets -> Prop :=
| all_done i o o' : (forall b, o' b = o b) -> in_order i o [] OK [] o'
| not_usable i o o' s rest st : usable buffers o s = false -> st = NULL_PARAMETER \/ st = INVALID_PARAMETER ->
    (forall b, o' b = o b) -> in_order i o (s :: rest) st [] o'
| not_done i o o' s rest : usable buffers o s = true -> r_status (imp i (request i o s)) <> OK ->
    (forall b, o' b = o b) -> in_order i o (s :: rest) (r_status (imp i (request i o s))) [request i o s] o'
| one_more i o o' s rest st calls : usable buffers o s = true -> r_status (imp i (request i o s)) = OK ->
    in_order (S i) (moved_on o s (imp i (request i o s))) rest st calls o' ->
    in_order i o (s :: rest) st (request i o s :: calls) o'.
End Order.

(** Arguments that C's types can hold. *)
Definition wf_place (p : place) : Prop :=
  match p with NoMemory n => is_u64 n | Memory _ _ n => is_u64 n | Protected ty h => u32 ty /\ ty <> 0 /\ is_u64 h end.
Definition wf_tsample (s : tsample) : Prop :=
  opt fits (ts_iv s) /\ is_u64 (ts_crypt s) /\ is_u64 (ts_skip s) /\ is_u64 (ts_context s) /\
  opt (fun l => Forall (fun x => is_u64 (fst x) /\ is_u64 (snd x)) l /\ 16 * Z.of_nat (length l) < W64) (ts_lengths s).
(** The application's memory has the size the buffer says. *)
Definition sized (contents : nat -> Z -> Z -> Z -> bytes) (buffers : nat -> place) : Prop :=
  forall i b id addr n, buffers b = Memory id addr n -> zlen (contents i id addr n) = n.

(** What moves a buffer during [done]: the output and input of every sample. *)
Fixpoint movement (imp : nat -> app -> reply) (i b : nat) (l : list tsample) (calls : list app) : Z :=
  match l, calls with
  | s :: l, c :: calls =>
      (match ts_out s with Some x => if Nat.eqb x b then word (imp i c) 0 else 0 | None => 0 end) +
      (match ts_in s with Some x => if Nat.eqb x b then word (imp i c) 1 else 0 | None => 0 end) +
      movement imp (S i) b l calls
  | _, _ => 0
  end.

(** Buffers and samples for the examples. *)
Definition two_buffers (b : nat) : place := match b with O => Memory 7 100 8 | _ => Memory 9 200 8 end.
Definition two_data (i : nat) (id addr n : Z) : bytes := map Z.of_nat (seq 0 (Z.to_nat n)).
Definition sample_of (n : Z) : tsample := MkTSample (Some (repeat 1 16)) 1 9 (Some [(0, n)]) 3 (Some 1%nat) (Some 0%nat).
Definition decrypts (i : nat) (a : app) : reply :=
  match a with CommonEncryption s => let n := fold_right (fun x t => snd x + t) 0 (sm_lengths s) in MkReply OK [n; n] [] | _ => MkReply NULL_PARAMETER [] [] end.
Definition seen (r : option (status * list app * offsets)) :=
  match r with Some (st, calls, o) => Some (st, calls, o 0%nat, o 1%nat) | None => None end.
Definition leftover (_ _ n : nat) : bytes := repeat 165 n.
Definition in_place_of (n : Z) : tsample := MkTSample (Some (repeat 1 16)) 1 9 (Some [(0, n)]) 3 (Some 0%nat) (Some 0%nat).
