(** Tables of sizes on their way from an application to the implementation, each built with a size_t of 32 or of 64 bits.  An
    application declares them with size_t (sa_cenc.h:40-50, sa_types.h:1026-1033); between the two they are to have 64 bits
    (sa_subsample_length_s and sa_svp_offset_s, sa_ta_types.h:498-504, 556-559).  Elsewhere in the model size_t has 64 bits. *)
From Verif Require Import Base M_KeyStore.

Inductive width := W32 | W64.
Definition octets (w : width) : nat := match w with W32 => 4 | W64 => 8 end.
Definition size_max (w : width) : Z := match w with W32 => 2 ^ 32 - 1 | W64 => 2 ^ 64 - 1 end.
Definition to_size (w : width) (x : Z) : Z := x mod (size_max w + 1).

(** [sa_subsample_length[]] in the memory of an application. *)
Definition in_memory (w : width) (l : list (Z * Z)) : list Z :=
  concat (map (fun p => le_bytes (octets w) (fst p) ++ le_bytes (octets w) (snd p)) l).
(** [sa_subsample_length_s[n]], read by ta.c:1855-1859. *)
Fixpoint read_lengths (w : width) (n : nat) (b : list Z) : list (Z * Z) :=
  match n with
  | O => []
  | S n => (to_size w (le_num (firstn 8 b)), to_size w (le_num (firstn 8 (skipn 8 b)))) :: read_lengths w n (skipn 16 b)
  end.
Inductive arrival (T : Type) := Refused | Arrives (table : T) (beyond : nat) (* octets read behind the table of the application *).
Arguments Refused {T}.
Arguments Arrives {T}.
(** sa_process_common_encryption.c:93-106 and ta.c:1841-1859: the parameter is the table of the application itself, of
    [sizeof(sa_subsample_length_s)] for each entry; the copy with 64-bit entries (94-104) is not used.  [behind]: the memory
    behind the table.  Line 1842 compares with [sizeof(sa_subsample_length)] of the implementation.  The products do not wrap,
    for a table in memory. *)
Definition send_lengths (client ta : width) (l : list (Z * Z)) (behind : list Z) : arrival (list (Z * Z)) :=
  let n := length l in
  let size := (n * 16)%nat in
  let table := in_memory client l in
  if negb (Nat.eqb size (2 * octets ta * n)) then Refused
  else Arrives (read_lengths ta n (firstn size (table ++ behind))) (size - length table).

(** sa_svp_buffer_copy.c:53-67 and ta.c:1701-1714: here the copy is sent. *)
Definition offset := (Z * Z * Z)%type.
Definition offset_s (o : offset) : list Z := let '(a, b, c) := o in le_bytes 8 a ++ le_bytes 8 b ++ le_bytes 8 c.
Fixpoint read_offsets (w : width) (n : nat) (b : list Z) : list offset :=
  match n with
  | O => []
  | S n =>
      (to_size w (le_num (firstn 8 b)), to_size w (le_num (firstn 8 (skipn 8 b))), to_size w (le_num (firstn 8 (skipn 16 b))))
        :: read_offsets w n (skipn 24 b)
  end.
Definition send_offsets (ta : width) (l : list offset) : arrival (list offset) :=
  let b := concat (map offset_s l) in
  Arrives (read_offsets ta (length b / 24) b) 0.
