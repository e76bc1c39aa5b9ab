(** C79: memory of secure-video buffers. *)
From Verif Require Import Base M_SvpMem S_SvpMem P_SvpMem.

(** For every history in which the application frees only its own memory and makes buffers only of its own memory and
    no larger than it: no call frees or accesses memory that is not in use. *)
Theorem C79_no_harm_partial : forall l, careful (snd (run l start)) nothing -> Forall (fun e => snd e <> Crash) (snd (run l start)).
Proof. exact no_harm. Qed.
Print Assumptions C79_no_harm_partial.
Example C79_no_harm_case : careful (snd (run usual start)) nothing /\ map snd (snd (run usual start)) = [Handle 1; Memory 2000 32; Handle 2; Fine; Fine] /\
  buffer (heard (snd (run usual start))) 2 = Some (2000, 32, 24) /\ Forall whole_buffers [Alloc 16 1000 true true 1; Use 1 4 12; Free 1 true (0, 0)] /\
  map snd (snd (run [Alloc 16 1000 true true 1; Use 1 4 12; Free 1 true (0, 0)] start)) = [Handle 1; Fine; Fine].
Proof. exact usual_fine. Qed.

(** An application that only allocates, uses and frees whole buffers, in any order, with any handles, however often,
    needs no care at all. *)
Theorem C79_whole_buffers : forall l, Forall whole_buffers l -> Forall (fun e => snd e <> Crash) (snd (run l start)).
Proof. exact whole_no_harm. Qed.
Print Assumptions C79_whole_buffers.

(** Releasing a buffer gives back the address and the size it was made of; other handles are refused. *)
Theorem C79_given_back_partial : forall l h junk, careful (snd (run l start)) nothing ->
  snd (step (Release h true junk) (fst (run l start))) = match buffer (heard (snd (run l start))) h with Some (a, _, n) => Memory a n | None => Refused end.
Proof. exact given_back. Qed.
Print Assumptions C79_given_back_partial.

(** The memory in use is what the application has: its own and that of its buffers, none of which overlap. *)
Theorem C79_kept_partial : forall l, careful (snd (run l start)) nothing -> let k := heard (snd (run l start)) in let w := fst (run l start) in
  (forall a s, In (a, s) (w_heap w) <-> own k a = Some s \/ exists h n, buffer k h = Some (a, s, n)) /\
  (forall g h a b s t m n, g <> h -> buffer k g = Some (a, s, m) -> buffer k h = Some (b, t, n) -> a + m <= b \/ b + n <= a) /\
  (forall h a b s t n, own k a = Some s -> buffer k h = Some (b, t, n) -> a + s <= b \/ b + n <= a).
Proof. exact kept. Qed.
Print Assumptions C79_kept_partial.

(** Once the application has neither memory nor buffers, none is in use. *)
Theorem C79_nothing_left_partial : forall l, careful (snd (run l start)) nothing -> let k := heard (snd (run l start)) in
  (forall a, own k a = None) -> (forall h, buffer k h = None) -> w_heap (fst (run l start)) = [] /\ forall h, w_store (fst (run l start)) h = None.
Proof. exact nothing_left. Qed.
Print Assumptions C79_nothing_left_partial.

(** Allocating a buffer either fails and changes nothing, whatever fails ... *)
Theorem C79_failed_alloc : forall w n a ok room h w', step (Alloc n a ok room h) w = (w', Refused) -> w' = w.
Proof. exact failed_alloc. Qed.
Print Assumptions C79_failed_alloc.
Example C79_failed_alloc_case : step (Alloc 16 1000 true false 1) start = (start, Refused) /\ step (Alloc 16 1000 false true 1) start = (start, Refused).
Proof. exact (conj eq_refl eq_refl). Qed.
(** ... or, if nothing fails, yields a buffer of that size that can be used and freed. *)
Theorem C79_alloc_given : forall w n a h, a <> 0 -> can_alloc w n a = true -> w_store w h = None ->
  snd (step (Alloc n a true true h) w) = Handle h /\ snd (step (Use h 0 n) (fst (step (Alloc n a true true h) w))) = Fine /\
  forall junk, snd (step (Free h true junk) (fst (step (Alloc n a true true h) w))) = Fine.
Proof. exact alloc_given. Qed.
Print Assumptions C79_alloc_given.
Example C79_alloc_given_case : can_alloc start 16 1000 = true /\ w_store start 1 = None.
Proof. exact (conj eq_refl eq_refl). Qed.

(** Finding: a range that wraps the address space is refused by the check, but the call answers OK with a handle
    (svp.c:62-65).  Releasing that handle answers OK too, with whatever the memory of the command happened to contain
    as address and size, and freeing it frees that address. *)
Theorem C79_wrapping_refuted : let '(w, events) := run wrapping start in map snd events = [Handle 1] /\
  forall a n, snd (step (Release 1 true (a, n)) w) = Memory a n /\ (a <> 0 -> snd (step (Free 1 true (a, n)) w) = Crash).
Proof. exact wrapping_wrong. Qed.
Print Assumptions C79_wrapping_refuted.

(** Finding: nothing ties a buffer to its memory.  The same memory becomes two buffers, and freeing both frees it twice;
    a buffer can be larger than its memory, and is then accessed beyond it; memory freed under a buffer is accessed. *)
Theorem C79_unchecked_refuted : snd (step (Free 2 true (0, 0)) (fst (run same_twice start))) = Crash /\ map snd (snd (run same_twice start)) = [Memory 1000 16; Handle 1; Handle 2; Fine] /\
  snd (step (Use 1 16 1) (fst (run larger start))) = Crash /\ map snd (snd (run larger start)) = [Memory 1000 16; Handle 1] /\
  snd (step (Use 1 0 16) (fst (run freed_under start))) = Crash /\ map snd (snd (run freed_under start)) = [Memory 1000 16; Handle 1; Fine].
Proof. exact unchecked. Qed.
Print Assumptions C79_unchecked_refuted.
