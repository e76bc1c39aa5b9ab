(** Model of several samples in one call, reference/src/clientimpl/src/sa_process_common_encryption.c:26-209.
    The treatment of one sample is that of M_Client.v ([lib_call] with [CommonEncryption]); here the
    loop, the missing pointers, and the buffer descriptions (sa_buffer) that samples share.
    Simplifications: those of M_Client.v; the command structure, which one sample leaves to the next,
    has arbitrary contents at the start of every sample ([junk]). *)
From Verif Require Import Base M_KeyStore M_Marshal M_Client.

(** An sa_buffer (include/sa_types.h) without its offset: no memory, [len] bytes at [addr] of the
    application's block [id], or a protected buffer of another type. *)
Inductive place := NoMemory (len : Z) | Memory (id addr len : Z) | Protected (type handle : Z).
(** A sample (include/sa_cenc.h:66-112): [None] is a NULL pointer; buffers by their number. *)
Record tsample := MkTSample {
  ts_iv : option bytes; ts_crypt : Z; ts_skip : Z; ts_lengths : option (list (Z * Z)); ts_context : Z;
  ts_out : option nat; ts_in : option nat
}.
Definition offsets := nat -> Z.
Definition set_offset (o : offsets) (b : nat) (x : Z) : offsets := fun c => if Nat.eqb c b then x else o c.

Section Samples.
(** The buffers of the call.  During the [i]-th sample: the implementation, the bytes at an address
    of the application's memory, the allocator, and the contents of the structure's in-out fields.
    The implementation and the memory may change from sample to sample. *)
Variable buffers : nat -> place.
Variable imp : nat -> app -> reply.
Variable contents : nat -> Z -> Z -> Z -> bytes.
Variable junk : nat -> nat -> nat -> bytes.
Variable initial : nat -> Z.

Definition as_out (b : nat) (off : Z) : abuf outb :=
  match buffers b with
  | NoMemory n => Clear (OutNull n) off | Memory id addr n => Clear (Out id addr n) off
  | Protected ty h => Svp ty h off
  end.
Definition as_in (i b : nat) (off : Z) : abuf inb :=
  match buffers b with
  | NoMemory n => Clear (InNull n) off | Memory id addr n => Clear (In (contents i id addr n)) off
  | Protected ty h => Svp ty h off
  end.

(** sa_process_common_encryption.c:170-186: the offset of clear memory is increased, that of a
    protected buffer is replaced; first the output, then the input, which can be the same sa_buffer.
    [words]: what [lib_call] returns, computed from the offsets before the sample. *)
Definition advance_clear (b : nat) (before now result : Z) : Z :=
  match buffers b with Protected _ _ => result | _ => wrap64 (now + (result - before)) end.
Definition write_back (o : offsets) (out inp : nat) (words : list Z) : offsets :=
  let o1 := set_offset o out (advance_clear out (o out) (o out) (nth 0 words 0)) in
  set_offset o1 inp (advance_clear inp (o inp) (o1 inp) (nth 1 words 0)).

(** sa_process_common_encryption.c:56-198: the loop.  The status, the calls of the implementation,
    the offsets afterwards. *)
Fixpoint lib_samples (i : nat) (o : offsets) (l : list tsample) : option (status * list app * offsets) :=
  match l with
  | [] => Some (OK, [], o)
  | s :: rest =>
      match ts_iv s with
      | None => Some (NULL_PARAMETER, [], o)
      | Some iv => if negb (zlen iv =? 16) then Some (INVALID_PARAMETER, [], o) else
        match ts_lengths s, ts_out s, ts_in s with
        | Some lengths, Some out, Some inp =>
            match lib_call (imp i) (junk i) (initial i)
                    (CommonEncryption (MkSample iv (ts_crypt s) (ts_skip s) lengths (ts_context s)
                       (as_out out (o out)) (as_in i inp (o inp)))) with
            | Some (r, calls) =>
                if negb (status_eqb (r_status r) OK) then Some (r_status r, calls, o) else
                match lib_samples (S i) (write_back o out inp (r_words r)) rest with
                | Some (st, calls', o') => Some (st, calls ++ calls', o')
                | None => None
                end
            | None => None
            end
        | _, _, _ => Some (NULL_PARAMETER, [], o)
        end
      end
  end.

(** sa_process_common_encryption.c:26-42 *)
Definition lib_process (l : option (list tsample)) (o : offsets) : option (status * list app * offsets) :=
  match l with
  | None => Some (NULL_PARAMETER, [], o)
  | Some [] => Some (INVALID_PARAMETER, [], o)
  | Some l => lib_samples 0 o l
  end.
End Samples.
