(** What is expected of the marshalling layer: which accesses to the memory of the four
    parameters and to the trusted application's own objects are allowed, and which memory is read
    more than once. *)
From Verif Require Import Base M_KeyStore M_Marshal.

(** Memory the caller provides: of type IN (5, 13), OUT (6, 14) or INOUT (7, 15), not NULL. *)
Definition readable (p : param) : Prop :=
  p_null p = false /\ (p_type p = 5 \/ p_type p = 13 \/ p_type p = 7 \/ p_type p = 15).
Definition writable (p : param) : Prop :=
  p_null p = false /\ (p_type p = 6 \/ p_type p = 14 \/ p_type p = 7 \/ p_type p = 15).

(** Ranges inside the memory of a parameter. *)
Definition within (p : param) (off n : Z) : Prop := 0 <= off /\ 0 <= n /\ off + n <= p_size p.

(** The buffers a call hands to the implementation to read and to write.  [claimed] are the
    buffers inside structures of our own whose length the caller chose: the implementation
    compares that length with the size of the buffer (C44). *)
Definition abuf_refs {X} (b : abuf X) : list X := match b with Clear x _ => [x] | Svp _ _ _ => [] end.
Definition opt_refs {X} (b : option (abuf X)) : list X := match b with Some b => abuf_refs b | None => [] end.

Definition ins {I O} (f : api I O) : list I :=
  match f with
  | KeyGenerate _ _ (GenDh p g) => [p; g]
  | KeyExport _ mixin _ => [mixin]
  | KeyImport _ data _ => [data]
  | KeyUnwrap _ _ _ _ p _ data =>
      data :: match p with
              | UnwCbc iv => [iv] | UnwCtr c => [c] | UnwGcm _ aad _ => [aad] | UnwPoly _ aad _ => [aad]
              | UnwElgamal s => [s] | UnwOaep _ _ label => [label] | UnwNone | UnwChacha _ _ => []
              end
  | KeyDerive _ _ p =>
      match p with
      | KdfHkdf _ _ _ salt info => [salt; info] | KdfConcat _ _ _ info => [info] | KdfX963 _ _ _ info => [info]
      | KdfCmac _ _ _ other => [other] | KdfLadder _ _ _ _ | KdfNetflix _ _ => []
      end
  | KeyExchange _ _ _ other _ => [other]
  | CipherInit _ _ _ p =>
      match p with
      | CipNone => [] | CipCbc iv => [iv] | CipCtr c => [c] | CipGcm iv aad => [iv; aad]
      | CipChacha nonce counter => [nonce; counter] | CipPoly nonce aad => [nonce; aad] | CipOaep _ _ label => [label]
      end
  | CipherUpdateIv _ iv => [iv]
  | CipherProcess _ _ inp _ | CipherProcessLast _ _ inp _ _ => abuf_refs inp
  | MacProcess _ data => [data]
  | CryptoSign _ _ _ data _ => [data]
  | SvpWrite _ data _ => [data]
  | SvpKeyCheck _ inp _ expected => expected :: abuf_refs inp
  | SvpBufferCheck _ _ _ _ hash => [hash]
  | CommonEncryption s => abuf_refs (sm_in s)
  | _ => []
  end.
Definition claimed {I O} (f : api I O) : list I :=
  match f with
  | KeyUnwrap _ _ _ _ (UnwGcm iv _ tag) _ _ => [iv; tag]
  | KeyUnwrap _ _ _ _ (UnwChacha counter nonce) _ _ => [counter; nonce]
  | KeyUnwrap _ _ _ _ (UnwPoly nonce _ tag) _ _ => [nonce; tag]
  | _ => []
  end.
Definition outs {I O} (f : api I O) : list O :=
  match f with
  | GetName o | KeyExport o _ _ | KeyGetPublic o _ | KeyDigest o _ _ | CryptoRandom o | MacCompute o _
  | CryptoSign o _ _ _ _ => [o]
  | CipherProcess o _ _ _ => opt_refs o
  | CipherProcessLast o _ _ _ tag => opt_refs o ++ match tag with Some t => [t] | None => [] end
  | CommonEncryption s => abuf_refs (sm_out s)
  | _ => []
  end.

Definition in_ok (ps : nat -> param) (r : ref) : Prop :=
  match r_base r with
  | BNull => True
  | BShared i => readable (ps i) /\ within (ps i) 0 (r_len r)
  | BOwn b => 0 <= r_len r <= zlen b
  | BWild _ => False
  end.
Definition out_ok (ps : nat -> param) (r : ref) : Prop :=
  match r_base r with
  | BNull => True
  | BShared i => writable (ps i) /\ within (ps i) 0 (r_len r)
  | BOwn _ | BWild _ => False
  end.
Definition claimed_ok (r : ref) : Prop := match r_base r with BOwn _ => True | _ => False end.
Definition call_ok (ps : nat -> param) (f : call) : Prop :=
  Forall (in_ok ps) (ins f) /\ Forall (out_ok ps) (outs f) /\ Forall claimed_ok (claimed f).

(** What a run of the marshalling layer does, in order.  The caller may change the memory at any
    time: a read returns any bytes; the allocator may fail; the implementation may reply anything. *)
Inductive event :=
| EFetch (i : nat) (off : Z) (b : bytes) | EStore (i : nat) (off : Z) (b : bytes)
| EFill (cap n : Z) | ECast (have need : Z) | EGarbage (n : Z) | EInvoke (f : call).
Inductive runs {A} : prog A -> list event -> Prop :=
| RunStop : forall p, runs p []
| RunFetch : forall i off n k b l, zlen b = Z.max 0 n -> Forall byte_ok b -> runs (k b) l -> runs (Fetch i off n k) (EFetch i off b :: l)
| RunStore : forall i off b k l, runs k l -> runs (Store i off b k) (EStore i off b :: l)
| RunFill : forall cap n k l, runs k l -> runs (Fill cap n k) (EFill cap n :: l)
| RunCast : forall have need k l, runs k l -> runs (Cast have need k) (ECast have need :: l)
| RunGarbage : forall n k b l, runs (k b) l -> runs (Garbage n k) (EGarbage n :: l)
| RunAlloc : forall n k ok l, runs (k ok) l -> runs (Alloc n k) l
| RunInvoke : forall f k r l, runs (k r) l -> runs (Invoke f k) (EInvoke f :: l).

(** Allowed events: read inside readable memory, write inside writable memory, stay inside
    our own objects, use no uninitialised bytes, hand over only memory of the right kind. *)
Definition allowed (ps : nat -> param) (e : event) : Prop :=
  match e with
  | EFetch i off b => readable (ps i) /\ within (ps i) off (zlen b)
  | EStore i off b => writable (ps i) /\ within (ps i) off (zlen b)
  | EFill cap n => n <= cap
  | ECast have need => need <= have
  | EGarbage n => n <= 0
  | EInvoke f => call_ok ps f
  end.

(** The command structure: what was read from parameter 0. *)
Definition command (l : list event) : option bytes :=
  match l with EFetch 0 0 b :: _ => Some b | _ => None end.

(** The sizes of four parameters. *)
Definition sized (ps : nat -> param) : Prop := forall i, is_u64 (p_size (ps i)).

(** What callers must respect for the commands whose handlers do not check it. *)
Definition svp_handle_fits (p : param) : Prop := readable p /\ 8 <= p_size p.
(** The structures sa_kdf_parameters_*_s of 64 (key ladders), 16 (Netflix) and 24 bytes (others). *)
Definition derivation_size (alg : Z) : Z := if (alg =? 0) || (alg =? 6) then 64 else if alg =? 5 then 16 else 24.
Definition sound (cmd : Z) (ps : nat -> param) (c : bytes) : Prop :=
  match cmd with
  | 7 => w4 c 16 = 4 -> p_type (ps 2%nat) = 5 \/ p_type (ps 2%nat) = 13 -> p_size (ps 2%nat) = 624
  | 10 => p_size (ps 1%nat) = derivation_size (w4 c 624)
  | 13 => p_null (ps 1%nat) = false
  | 18 | 19 =>
      (if w4 c 24 =? 0 then p_null (ps 1%nat) = true \/ writable (ps 1%nat) else svp_handle_fits (ps 1%nat)) /\
      (w4 c 40 = 0 \/ 8 <= p_size (ps 2%nat))
  | 34 => w4 c 16 = 0 \/ 8 <= p_size (ps 1%nat)
  | 36 => 16 * w8 c 40 < 2 ^ 64 /\
      (if w4 c 56 =? 0 then writable (ps 2%nat) else svp_handle_fits (ps 2%nat)) /\
      (w4 c 72 = 0 \/ 8 <= p_size (ps 3%nat))
  | 37 => False
  | _ => True
  end.

(** Bytes of shared memory that a run reads or hands over to be read: (parameter, from, to). *)
Definition ref_uses (r : ref) : list (nat * Z * Z) :=
  match r_base r with BShared i => [(i, 0, r_len r)] | _ => [] end.
Definition uses (e : event) : list (nat * Z * Z) :=
  match e with
  | EFetch i off b => [(i, off, off + zlen b)]
  | EInvoke f => flat_map ref_uses (ins f ++ outs f ++ claimed f)
  | _ => []
  end.
Definition apart (a b : nat * Z * Z) : Prop :=
  let '(i, lo, hi) := a in let '(j, lo', hi') := b in i <> j \/ hi <= lo' \/ hi' <= lo.
Fixpoint pairwise {X} (R : X -> X -> Prop) (l : list X) : Prop :=
  match l with [] => True | x :: t => Forall (R x) t /\ pairwise R t end.
Definition fetched_once (l : list event) : Prop := pairwise apart (flat_map uses l).

(** A step that some run of a command takes for some parameters, answers and replies; and such a
    step that is not allowed although parameter 0 is memory that may be read. *)
Definition happens (ps : nat -> param) (cmd : Z) (e : event) : Prop :=
  exists l, runs (handler ps cmd) l /\ In e l.
Definition violates (ps : nat -> param) (cmd : Z) (e : event) : Prop :=
  sized ps /\ readable (ps 0%nat) /\ happens ps cmd e /\ ~ allowed ps e.
