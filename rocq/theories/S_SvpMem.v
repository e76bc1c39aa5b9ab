(** What an application that uses secure-video buffers relies on, and what it has to respect. *)
From Verif Require Import Base M_SvpMem.

(** What the application has, by what it was told: blocks of memory of its own (address, size), and buffers by handle
    (address and size of the block behind it, size of the buffer). *)
Record has := Has { own : Z -> option Z; buffer : Z -> option (Z * Z * Z) }.
Definition nothing : has := Has (fun _ => None) (fun _ => None).
Definition with_own (k : has) a s := Has (fun y => if y =? a then s else own k y) (buffer k).
Definition with_buffer (k : has) h b := Has (own k) (fun y => if y =? h then b else buffer k y).
Definition hear (k : has) (e : op * answer) : has :=
  match e with
  | (MemAlloc n _, Memory a _) => with_own k a (Some n)
  | (MemFree a, Fine) => with_own k a None
  | (Create a n _ _ _, Handle h) => with_buffer (with_own k a None) h (match own k a with Some s => Some (a, s, n) | None => None end)
  | (Release h _ _, Memory a _) => with_buffer (match buffer k h with Some (a, s, _) => with_own k a (Some s) | None => k end) h None
  | (Alloc n a _ _ _, Handle h) => with_buffer k h (Some (a, n, n))
  | (Free h _ _, Fine) => with_buffer k h None
  | _ => k
  end.
Definition heard (events : list (op * answer)) : has := fold_left hear events nothing.

(** The application frees only memory of its own, and makes buffers only of its own memory and no larger than it;
    sizes and offsets are not negative. *)
Definition respects (k : has) (o : op) : Prop :=
  match o with
  | MemAlloc n _ | Alloc n _ _ _ _ => 0 <= n
  | MemFree a => a = 0 \/ own k a <> None
  | Create a n _ _ _ => 0 <= n /\ (a = 0 \/ exists s, own k a = Some s /\ n <= s)
  | Use _ off len => 0 <= off /\ 0 <= len
  | _ => True
  end.
Fixpoint careful (events : list (op * answer)) (k : has) : Prop :=
  match events with [] => True | e :: r => respects k (fst e) /\ careful r (hear k e) end.
(** It never touches memory itself: only whole buffers are made and freed. *)
Definition whole_buffers (o : op) : Prop :=
  match o with Alloc n _ _ _ _ => 0 <= n | Free _ _ _ => True | Use _ off len => 0 <= off /\ 0 <= len | _ => False end.

(** Histories for the witnesses *)
Definition usual : list op := [Alloc 16 1000 true true 1; MemAlloc 32 2000; Create 2000 24 true true 2; Use 1 4 12; Use 2 0 24].
Definition wrapping : list op := [Create (2 ^ 64 - 8) 16 true true 1].
Definition same_twice : list op := [MemAlloc 16 1000; Create 1000 16 true true 1; Create 1000 16 true true 2; Free 1 true (0, 0)].
Definition larger : list op := [MemAlloc 16 1000; Create 1000 17 true true 1].
Definition freed_under : list op := [MemAlloc 16 1000; Create 1000 16 true true 1; MemFree 1000].
