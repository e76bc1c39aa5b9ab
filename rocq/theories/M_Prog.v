(** Programs: the language in which the API calls of taimpl/src/ta_sa_*.c are written
    down.  A call is a tree: it issues a command (an operation on the shared stores,
    locks and heap, a reading of the clock or of the video outputs, a use of a key by
    the cryptographic library, ...), gets an answer, and continues as the answer tells.
    What answers are given is left open here: a theorem about all the paths of a tree
    holds for every state of the stores, every schedule of the other threads, every
    clock and every behaviour of the library.

    Not modelled here: a failing [mtx_lock] (stores and objects), and arguments the TA
    dispatcher never passes (NULL client, NULL caller, NULL out-parameters). *)
From Verif Require Import Base M_ObjectStore M_Rights M_Svp.

(** The object stores: the global client store (client_store.c:45-58) and, for each
    client (named by its address), its key, cipher, MAC and SVP stores
    (client_store.c:34-43). *)
Inductive sid := SClients | SKeys (c : Z) | SCiphers (c : Z) | SMacs (c : Z) | SSvps (c : Z).

(** [cipher_t], cipher_store.c:28-39: algorithm, mode, symmetric context (an address,
    absent for asymmetric ciphers), the key copy the context owns, and whether an OAEP
    label is set (the label bytes and digests are not kept). *)
Record cipher := MkCipher { ci_alg : Z; ci_mode : Z; ci_sym : option Z; ci_key : Z; ci_oaep : bool }.
(** [mac_t], mac_store.c:28-36: algorithm and address of the HMAC or CMAC context. *)
Record mac := MkMac { mc_alg : Z; mc_ctx : Z }.
(** [hmac_context_t]/[cmac_context_t]: the key it was started with and its done flag. *)
Record mac_state := MkMacState { ms_key : stored_key; ms_done : bool }.

(** Heap objects that are created and destroyed. *)
Inductive obj :=
| OClient
| OWrapped (k : stored_key)     (* wrapped_key_t: key_store.c:43-48, holding key k *)
| OKey (k : stored_key)         (* stored_key_t: an unwrapped copy of key k *)
| OSym (k : stored_key)         (* symmetric_context_t keyed with k *)
| OCipher (c : cipher)
| OMacState (m : mac_state)
| OMac (m : mac)
| OShell                        (* a cipher_t or mac_t whose pointers were set to NULL again *)
| OSvp (b : option svp_buffer). (* svp_t: svp_store.c:27-30; None when buffer is NULL *)

(** The objects an object owns: its free function (cipher_free cipher_store.c:41-63,
    mac_free mac_store.c:38-57) frees them with it. *)
Definition children (o : obj) : list Z :=
  match o with
  | OCipher c => ci_key c :: match ci_sym c with Some x => [x] | None => [] end
  | OMac m => [mc_ctx m]
  | _ => []
  end.

(** What a key is used for.  [RDecrypt] and [REncrypt] are symmetric, [RDecryptAsym] is
    RSA or EC ElGamal decryption; [RInner] is the use of a key this very call has computed
    and that has no handle yet (netflix.c). *)
Inductive role := REncrypt | RDecrypt | RDecryptAsym | RInner | RSign | RMacStart | RMacRun | RMacKey | RUnwrap
                | RDerive | RExchange | RExport | RDigest | RPublic.
(** Where data of a use comes from or goes to. *)
Inductive place := PNone | PClear | PSvp.
(** Externals that are not uses of a stored key. *)
Inductive ext := XRandom | XGenerate (key_type : Z) | XValidateEc (curve : Z) | XValidateRsa
               | XLadder | XContainer | XExportedBlob | XSignature | XDigestSvp | XSvpWrite
               | XSvpCopy | XAlloc | XUpdateIv.
(** An answer of an external: a status, a number and bytes. *)
Record ans := MkAns { a_status : status; a_num : Z; a_bytes : list Z }.
(** Out-parameters. *)
Inductive var := VClient | VKey | VKe | VKh | VContext | VSvp | VLength | VMemory | VSize.
Inductive got := Got (z : Z) | Failed (s : status).

Inductive cmd :=
| CAcquire (s : sid) (h : Z) (u : uuid)          (* object_store_acquire *)
| CRelease (s : sid) (h p : Z) (u : uuid)        (* object_store_release *)
| CAdd (s : sid) (p : Z) (o : obj) (u : uuid)    (* object_store_add of p, whose contents are o *)
| CRemove (s : sid) (h : Z) (u : uuid)           (* object_store_remove *)
| CLock (p : Z)                                  (* mtx_lock of the object's own mutex *)
| CUnlock (p : Z)
| CNew (o : obj)                                 (* allocate and initialise; None: failure *)
| CFree (p : Z) (o : obj)                        (* free p, whose contents are now o, and what o owns *)
| CGetWrapped (p : Z)                            (* read a wrapped_key_t *)
| CGetKey (p : Z)
| CGetCipher (p : Z)
| CGetMac (p : Z)
| CGetMacState (p : Z)
| CGetSvp (p : Z)
| CSetObj (p : Z) (o : obj)                      (* overwrite an object *)
| CClock                                         (* time(NULL) *)
| CPoll                                          (* video_output_poll *)
| CUse (p : Z) (k : stored_key) (r : role) (src dst : place)
                                                 (* the library uses key copy p, holding k *)
| CExt (x : ext)
| CSetVar (v : var) (z : Z)                      (* write an out-parameter *)
| CFault.                                        (* undefined behaviour: there is no next step *)

Definition resp (c : cmd) : Type :=
  match c with
  | CAcquire _ _ _ | CAdd _ _ _ _ => got
  | CRemove _ _ _ => status
  | CNew _ => option Z
  | CGetWrapped _ | CGetKey _ => stored_key
  | CGetCipher _ => cipher
  | CGetMac _ => mac
  | CGetMacState _ => mac_state
  | CGetSvp _ => option svp_buffer
  | CClock => Z
  | CPoll => option video
  | CUse _ _ _ _ _ | CExt _ => ans
  | CFault => Empty_set
  | _ => unit
  end.

Inductive prog (A : Type) : Type :=
| Ret (a : A)
| Do (c : cmd) (k : resp c -> prog A).
Arguments Ret {A}. Arguments Do {A}.

(** Control flow inside a C function of the usual shape
    [do { ... break; ... } while (false); cleanup; return status;].  [Brk s] is a break
    with status s; [Out s] is a [return s] from inside, which skips the cleanup. *)
Inductive flow (A : Type) := Go (a : A) | Brk (s : status) | Out (s : status).
Arguments Go {A}. Arguments Brk {A}. Arguments Out {A}.
Definition M (A : Type) := prog (flow A).

Fixpoint pbind {A B} (p : prog A) (f : A -> prog B) : prog B :=
  match p with
  | Ret a => f a
  | Do c k => Do c (fun r => pbind (k r) f)
  end.
Definition ret {A} (a : A) : M A := Ret (Go a).
Definition brk {A} (s : status) : M A := Ret (Brk s).
Definition out {A} (s : status) : M A := Ret (Out s).
Definition bind {A B} (m : M A) (f : A -> M B) : M B :=
  pbind m (fun r => match r with Go a => f a | Brk s => Ret (Brk s) | Out s => Ret (Out s) end).
Definition cmd_ (c : cmd) : M (resp c) := Do c (fun r => ret r).
(** The commands as programs. *)
Definition acquire (s : sid) (h : Z) (u : uuid) : M (got) := cmd_ (CAcquire s h u).
Definition release (s : sid) (h p : Z) (u : uuid) : M (unit) := cmd_ (CRelease s h p u).
Definition add (s : sid) (p : Z) (o : obj) (u : uuid) : M (got) := cmd_ (CAdd s p o u).
Definition remove (s : sid) (h : Z) (u : uuid) : M (status) := cmd_ (CRemove s h u).
Definition lock (p : Z) : M (unit) := cmd_ (CLock p).
Definition unlock (p : Z) : M (unit) := cmd_ (CUnlock p).
Definition new (o : obj) : M (option Z) := cmd_ (CNew o).
Definition free (p : Z) (o : obj) : M (unit) := cmd_ (CFree p o).
Definition get_wrapped (p : Z) : M (stored_key) := cmd_ (CGetWrapped p).
Definition get_key (p : Z) : M (stored_key) := cmd_ (CGetKey p).
Definition get_cipher (p : Z) : M (cipher) := cmd_ (CGetCipher p).
Definition get_mac (p : Z) : M (mac) := cmd_ (CGetMac p).
Definition get_mac_state (p : Z) : M (mac_state) := cmd_ (CGetMacState p).
Definition get_svp (p : Z) : M (option svp_buffer) := cmd_ (CGetSvp p).
Definition set_obj (p : Z) (o : obj) : M (unit) := cmd_ (CSetObj p o).
Definition clock : M (Z) := cmd_ (CClock).
Definition poll : M (option video) := cmd_ (CPoll).
Definition use_key (p : Z) (k : stored_key) (r : role) (src dst : place) : M (ans) := cmd_ (CUse p k r src dst).
Definition ext_call (x : ext) : M (ans) := cmd_ (CExt x).
Definition fault {A} : M A := Do CFault (fun r => match r with end).
Definition set_var (v : var) (z : Z) : M (unit) := cmd_ (CSetVar v z).
(** [finally m fin]: the cleanup code [fin] runs after [m] unless [m] returned directly. *)
Definition finally {A} (m : M A) (fin : M unit) : M A :=
  pbind m (fun r => match r with
                    | Out s => Ret (Out s)
                    | _ => pbind fin (fun _ => Ret r)
                    end).
(** A call of a C function: its direct returns are ordinary results for the caller. *)
Definition fn {A} (m : M A) : M A :=
  pbind m (fun r => match r with Out s => Ret (Brk s) | _ => Ret r end).
(** A whole API function: its status. *)
Definition api_fn {A} (m : M A) : prog status :=
  pbind m (fun r => match r with Go _ => Ret OK | Brk s | Out s => Ret s end).
Definition require (b : bool) (s : status) : M unit := if b then ret tt else brk s.
(** A [return s] at a place that has something to clean up. *)
Definition require_out (b : bool) (s : status) : M unit := if b then ret tt else out s.
Definition no_op : M unit := ret tt.

Declare Scope prog_scope.
Delimit Scope prog_scope with prog.
Notation "x <- m ;; k" := (bind m (fun x => k)) (at level 61, m at next level, right associativity) : prog_scope.
Notation "' p <- m ;; k" := (bind m (fun p => k))
  (at level 61, p pattern, m at next level, right associativity) : prog_scope.
Notation "m ;; k" := (bind m (fun _ => k)) (at level 61, right associativity) : prog_scope.
Open Scope prog_scope.

(** ** Events: what a path of a program looks like from outside *)
Inductive ev :=
| EAcquire (s : sid) (h : Z) (u : uuid) (r : got)
| ERelease (s : sid) (h p : Z) (u : uuid)
| EAdd (s : sid) (p : Z) (o : obj) (u : uuid) (r : got)
| ERemove (s : sid) (h : Z) (u : uuid) (r : status)
| ELock (p : Z) | EUnlock (p : Z)
| ENew (o : obj) (r : option Z)
| EFree (p : Z) (o : obj)
| EWrapped (p : Z) (k : stored_key)
| EGetKey (p : Z) (k : stored_key)
| ECipher (p : Z) (c : cipher)
| EMac (p : Z) (m : mac)
| EMacState (p : Z) (m : mac_state)
| ESvp (p : Z) (b : option svp_buffer)
| ESetObj (p : Z) (o : obj)
| EClock (now : Z)
| EPoll (v : option video)
| EUse (p : Z) (k : stored_key) (r : role) (src dst : place) (a : ans)
| EExt (x : ext) (a : ans)
| ESetVar (v : var) (z : Z).

Definition event (c : cmd) : resp c -> ev :=
  match c return resp c -> ev with
  | CAcquire s h u => fun r => EAcquire s h u r
  | CRelease s h p u => fun _ => ERelease s h p u
  | CAdd s p o u => fun r => EAdd s p o u r
  | CRemove s h u => fun r => ERemove s h u r
  | CLock p => fun _ => ELock p
  | CUnlock p => fun _ => EUnlock p
  | CNew o => fun r => ENew o r
  | CFree p o => fun _ => EFree p o
  | CGetWrapped p => fun r => EWrapped p r
  | CGetKey p => fun r => EGetKey p r
  | CGetCipher p => fun r => ECipher p r
  | CGetMac p => fun r => EMac p r
  | CGetMacState p => fun r => EMacState p r
  | CGetSvp p => fun r => ESvp p r
  | CSetObj p o => fun _ => ESetObj p o
  | CClock => fun r => EClock r
  | CPoll => fun r => EPoll r
  | CUse p k ro src dst => fun r => EUse p k ro src dst r
  | CExt x => fun r => EExt x r
  | CSetVar v z => fun _ => ESetVar v z
  | CFault => fun r => match r with end
  end.

(** Answers that can occur: a failing store operation never answers OK, and no handle is
    INVALID_HANDLE. *)
Definition legal (c : cmd) : resp c -> Prop :=
  match c return resp c -> Prop with
  | CAcquire _ _ _ => fun r => match r with Got _ => True | Failed s => s <> OK end
  | CAdd _ _ _ _ => fun r => match r with Got x => x <> INVALID_HANDLE | Failed s => s <> OK end
  | _ => fun _ => True
  end.

(** [reach p h q h']: having done [h] (newest event first), program [p] can get to [q],
    then having done [h'].  Every prefix of every execution is covered. *)
Inductive reach {A} : prog A -> list ev -> prog A -> list ev -> Prop :=
| reach_refl p h : reach p h p h
| reach_step c k h r q h' : legal c r -> reach (k r) (event c r :: h) q h' ->
    reach (Do c k) h q h'.
(** A completed execution with events [h] and result [a]. *)
Definition execution {A} (p : prog A) (h : list ev) (a : A) : Prop := reach p [] (Ret a) h.
