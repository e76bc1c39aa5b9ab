(** The memory of secure-video buffers, from the application's side: clientimpl/src/sa_svp_buffer_alloc.c:22-49,
    sa_svp_buffer_free.c:22-43, sa_svp_buffer_create.c:24-71, sa_svp_buffer_release.c:25-75,
    porting/sa_svp_memory_alloc.c:23-40, porting/sa_svp_memory_free.c:22-29, with what they reach in the TA:
    ta_invoke_svp_buffer_create and _release (taimpl/src/internal/ta.c:1564-1615), svp_store_create and
    svp_store_release (taimpl/src/internal/svp_store.c:134-252) over [svp_create_buffer] and [svp_release_buffer] of
    M_Svp.v.

    One process with its client; calls follow one another (for calls at the same time see C40 and C64).  Reasons to
    fail that depend on none of this (no session, no memory for the command, no free slot) are one choice [ok]. *)
From Verif Require Import Base M_Memory M_Svp.

(** The blocks of malloc that are in use (address and size), and the buffers of the client's store by handle: [Some None]
    is an object without a buffer (svp.c:62-65 answers true for a range that wraps). *)
Record world := MkWorld { w_heap : list (Z * Z); w_store : Z -> option (option svp_buffer) }.
Definition start : world := MkWorld [] (fun _ => None).

Inductive op :=
| MemAlloc (n a : Z)                              (* sa_svp_memory_alloc; malloc answers [a] *)
| MemFree (a : Z)                                 (* sa_svp_memory_free *)
| Create (a n : Z) (ok room : bool) (h : Z)       (* sa_svp_buffer_create; memory in the TA; the handle given *)
| Release (h : Z) (ok : bool) (junk : Z * Z)      (* sa_svp_buffer_release; what the command's memory contains *)
| Alloc (n a : Z) (ok room : bool) (h : Z)        (* sa_svp_buffer_alloc *)
| Free (h : Z) (ok : bool) (junk : Z * Z)         (* sa_svp_buffer_free *)
| Use (h off len : Z).                            (* a segment of sa_svp_buffer_write, _copy or a cipher *)
(** [Crash]: memory that is not in use is freed or accessed; [Misuse]: malloc or the TA cannot choose so. *)
Inductive answer := Fine | Refused | Memory (a n : Z) | Handle (h : Z) | Crash | Misuse.

(** Blocks take at least a byte: malloc(0) answers NULL or an address of its own. *)
Definition span (s : Z) : Z := Z.max 1 s.
Definition clear_of (a n : Z) (b : Z * Z) : bool := (a + span n <=? fst b) || (fst b + span (snd b) <=? a).
Definition can_alloc (w : world) (n a : Z) : bool := (0 <? a) && (a + span n <? 2 ^ 64) && forallb (clear_of a n) (w_heap w).
Definition in_use (w : world) (a : Z) : bool := existsb (fun b => fst b =? a) (w_heap w).
Definition free_at (w : world) (a : Z) : world := MkWorld (filter (fun b => negb (fst b =? a)) (w_heap w)) (w_store w).
Definition add_block (w : world) (a n : Z) : world := MkWorld ((a, n) :: w_heap w) (w_store w).
Definition put (w : world) (h : Z) (x : option (option svp_buffer)) : world := MkWorld (w_heap w) (fun y => if y =? h then x else w_store w y).

(** free() of sa_svp_memory_free.c:25-26 *)
Definition mem_free (w : world) (a : Z) : world * answer :=
  if a =? 0 then (w, Fine) else if in_use w a then (free_at w a, Fine) else (w, Crash).
Definition create (w : world) (a n : Z) (ok room : bool) (h : Z) : world * answer :=
  if a =? 0 then (w, Refused)
  else if negb ok then (w, Refused)
  else match svp_create_buffer a n room with
       | (false, _) => (w, Refused)
       | (true, sb) => match w_store w h with Some _ => (w, Misuse) | None => (put w h (Some sb), Handle h) end
       end.
(** svp_store.c:229-232: without a buffer the status is OK, and the pointer in the command is not written. *)
Definition release (w : world) (h : Z) (ok : bool) (junk : Z * Z) : world * answer :=
  if negb ok then (w, Refused)
  else match w_store w h with
       | None => (w, Refused)
       | Some sb => match svp_release_buffer sb with Some (a, n) => (put w h None, Memory a n) | None => (w, Memory (fst junk) (snd junk)) end
       end.
Definition reaches (x len : Z) (b : Z * Z) : bool := (fst b <=? x) && (x + len <=? fst b + snd b).
Definition step (o : op) (w : world) : world * answer :=
  match o with
  | MemAlloc n a => if a =? 0 then (w, Refused) else if can_alloc w n a then (add_block w a n, Memory a n) else (w, Misuse)
  | MemFree a => mem_free w a
  | Create a n ok room h => create w a n ok room h
  | Release h ok junk => release w h ok junk
  | Alloc n a ok room h =>
      if a =? 0 then (w, Refused)
      else if can_alloc w n a then
        match create (add_block w a n) a n ok room h with
        | (w1, Refused) => let '(w2, x) := mem_free w1 a in (w2, match x with Crash => Crash | _ => Refused end)
        | (w1, Misuse) => (w, Misuse)
        | r => r
        end
      else (w, Misuse)
  | Free h ok junk =>
      match release w h ok junk with
      | (w1, Memory a _) => mem_free w1 a
      | r => r
      end
  | Use h off len =>
      match w_store w h with
      | Some (Some b) =>
          if (2 ^ 64 <=? off + len) || (sb_size b <? off + len) then (w, Refused)
          else if (len =? 0) || existsb (reaches (sb_memory b + off) len) (w_heap w) then (w, Fine) else (w, Crash)
      | _ => (w, Refused)
      end
  end.
Definition crashed (a : answer) : bool := match a with Crash => true | _ => false end.
Fixpoint run (l : list op) (w : world) : world * list (op * answer) :=
  match l with
  | [] => (w, [])
  | o :: l =>
      let '(w1, a) := step o w in
      if crashed a then (w1, [(o, a)]) else let '(w2, r) := run l w1 in (w2, (o, a) :: r)
  end.
