(** The memory a function of the client library takes for a call and gives back: all of clientimpl/src/sa_*.c that sends a
    command, over the macros of clientimpl/src/porting/ta_client.h:51-123, with USE_SHARED_MEMORY (reference/README.md:39) and
    without.  Only memory is modelled; what is sent is M_Client.v.

    In a function, variables are set by CREATE_COMMAND, CREATE_PARAM (or CREATE_OUT_PARAM) and malloc, in an order fixed by
    the function.  Each of them may be left out (an argument is NULL, or of another algorithm), may fail, and a check before it
    may end the sequence; all are choices of the call, more of them than the code has. *)
From Verif Require Import Base.

Inductive var := Command | P1 | P2 | P3 | Table.
Definition var_eqb (a b : var) : bool :=
  match a, b with Command, Command | P1, P1 | P2, P2 | P3, P3 | Table, Table => true | _, _ => false end.
Inductive make := Create (v : var) (* CREATE_COMMAND *) | Param (v : var) (* CREATE_PARAM, CREATE_OUT_PARAM *) | Malloc (v : var).
Inductive finish := Free (v : var) (* RELEASE_COMMAND; free *) | Drop (v : var) (* RELEASE_PARAM *) | Look (v : var) (* [v->key] *).

(** What a variable holds: NULL, a block taken, or memory of others. *)
Inductive ptr := Null | Block (n : nat) | Others.
Record state := MkState { m_var : var -> ptr; m_live : list nat; m_next : nat }.
Definition start : state := MkState (fun _ => Null) [] 0.
Definition set (s : state) (v : var) (p : ptr) : state := MkState (fun x => if var_eqb x v then p else m_var s x) (m_live s) (m_next s).
Definition take (s : state) (v : var) : state :=
  let s := set s v (Block (m_next s)) in MkState (m_var s) (m_next s :: m_live s) (S (m_next s)).
(** [None]: memory is freed that is not the library's, or not any more. *)
Definition give (s : state) (v : var) : option state :=
  match m_var s v with
  | Null => Some s
  | Block n => if existsb (Nat.eqb n) (m_live s) then Some (MkState (m_var s) (remove Nat.eq_dec n (m_live s)) (m_next s)) else None
  | Others => None
  end.

(** ta_client.h:53-90 with shared memory, 96-121 without. *)
Definition make_ok (shared : bool) (m : make) (s : state) : state :=
  match m with
  | Create v | Malloc v => take s v
  | Param v => if shared then take s v else set s v Others
  end.
Inductive outcome := Made | Skipped | Failed (* no memory: the variable is NULL, and the sequence ends *) | Stopped (* by a check *).
Fixpoint makes (shared : bool) (l : list make) (o : list outcome) (s : state) : state * bool :=
  match l, o with
  | [], _ => (s, true)
  | m :: l, Made :: o => makes shared l o (make_ok shared m s)
  | m :: l, Skipped :: o => makes shared l o s
  | m :: _, Failed :: _ => (s, false)
  | _, _ => (s, false)
  end.
Fixpoint finishes (shared : bool) (l : list finish) (s : state) : option state :=
  match l with
  | [] => Some s
  | Free v :: l => match give s v with Some s => finishes shared l s | None => None end
  | Drop v :: l => if shared then match give s v with Some s => finishes shared l s | None => None end else finishes shared l s
  | Look v :: l => match m_var s v with Null => None | _ => finishes shared l s end
  end.

(** The functions; [Init] with RSA OAEP apart. *)
Inductive fn :=
| CipherInit | CipherInitOaep | CipherProcess | CipherProcessLast | CipherRelease | CipherUpdateIv | MacCompute | MacInit | MacProcess
| MacProcessKey | MacRelease | Random | Sign | DeviceId | Name | TaUuid | Version | KeyDerive | KeyDigest | KeyExchange | KeyExport
| KeyGenerate | KeyPublic | KeyHeader | KeyImport | KeyProvision | KeyRelease | KeyUnwrap | SvpCheck | SvpCopy | SvpCreate | SvpRelease
| SvpWrite | SvpKeyCheck | SvpSupported.
Definition made (f : fn) : list make :=
  match f with
  | CipherInit => [Create Command; Param P1; Param P2]                   (* sa_crypto_cipher_init.c:48-211 *)
  | CipherInitOaep => [Create Command; Create P1; Param P2]              (* sa_crypto_cipher_init.c:213-243 *)
  | CipherProcess => [Create Command; Param P1; Param P2]                (* sa_crypto_cipher_process.c:52-116 *)
  | CipherProcessLast => [Create Command; Param P1; Param P2; Param P3]  (* sa_crypto_cipher_process_last.c:54-130 *)
  | CipherUpdateIv => [Create Command; Param P1]                         (* sa_crypto_cipher_update_iv.c:45-49 *)
  | MacCompute | MacProcess => [Create Command; Param P1]                (* sa_crypto_mac_compute.c:45-56, sa_crypto_mac_process.c:45-58 *)
  | Random => [Create Command; Param P1]                                 (* sa_crypto_random.c:44-47 *)
  | Sign => [Create Command; Param P1; Param P2]                         (* sa_crypto_sign.c:55-116 *)
  | Name => [Create Command; Param P1]                                   (* sa_get_name.c:44-54 *)
  | KeyDerive => [Create Command; Create P1; Param P2; Param P3]         (* sa_key_derive.c:53-300 *)
  | KeyDigest | KeyPublic => [Create Command; Param P1]                  (* sa_key_digest.c:46-58, sa_key_get_public.c:45-56 *)
  | KeyExchange => [Create Command; Param P1; Create P2]                 (* sa_key_exchange.c:60-107 *)
  | KeyExport => [Create Command; Param P1; Param P2]                    (* sa_key_export.c:58-77 *)
  | KeyGenerate => [Create Command; Param P1; Param P2]                  (* sa_key_generate.c:57-92 *)
  | KeyHeader => [Create Command; Param P1]                              (* sa_key_header.c:46-50; with shared memory line 65 would have to be repaired to compile *)
  | KeyImport => [Create Command; Param P1; Param P2]                    (* sa_key_import.c:53-154 *)
  | KeyProvision => [Create Command; Param P1; Param P2; Param P3]       (* sa_key_provision.c:48-77 *)
  | KeyUnwrap => [Create Command; Param P1; Create P2; Param P3]         (* sa_key_unwrap.c:63-381 *)
  | SvpCheck => [Create Command; Param P1]                               (* sa_svp_buffer_check.c:48-55 *)
  | SvpCopy => [Create Command; Malloc Table; Param P1]                  (* sa_svp_buffer_copy.c:48-67 *)
  | SvpWrite => [Create Command; Param P1; Malloc Table; Param P2]       (* sa_svp_buffer_write.c:56-75 *)
  | SvpKeyCheck => [Create Command; Param P1; Param P2]                  (* sa_svp_key_check.c:53-79 *)
  | CipherRelease | MacInit | MacProcessKey | MacRelease | DeviceId | TaUuid | Version | KeyRelease | SvpCreate | SvpRelease | SvpSupported =>
      [Create Command]                                                   (* the one CREATE_COMMAND of each file *)
  end.
Definition finished (f : fn) : list finish :=
  match f with
  | CipherInitOaep => [Free Command; Free P1; Drop P2]                   (* sa_crypto_cipher_init.c:266-273 *)
  | KeyDerive => [Free Command; Free P1; Drop P2; Drop P3]               (* sa_key_derive.c:334-337 *)
  | KeyExchange => [Free Command; Drop P1; Free P2]                      (* sa_key_exchange.c:143-145 *)
  | KeyUnwrap => [Free Command; Drop P1; Free P2; Drop P3]               (* sa_key_unwrap.c:412-415 *)
  | CipherProcessLast => [Free Command; Drop P1; Drop P2; Drop P3]       (* sa_crypto_cipher_process_last.c:174-177 *)
  | CipherInit | CipherProcess | Sign | KeyExport | KeyGenerate | KeyImport | SvpKeyCheck => [Free Command; Drop P1; Drop P2]   (* the last lines of each file *)
  | CipherUpdateIv | MacCompute | MacProcess | Random | Name | KeyDigest | KeyPublic | SvpCheck => [Free Command; Drop P1]
  | KeyHeader => [Free Command]                                          (* sa_key_header.c:81 *)
  | KeyProvision => [Look Command; Free Command; Drop P1; Drop P2; Drop P3]   (* sa_key_provision.c:102-108 *)
  | SvpCopy => [Free Table; Free Command; Drop P1]                       (* sa_svp_buffer_copy.c:83-87 *)
  | SvpWrite => [Free Table; Free Command; Drop P1; Drop P2]             (* sa_svp_buffer_write.c:91-96 *)
  | CipherRelease | MacInit | MacProcessKey | MacRelease | DeviceId | TaUuid | Version | KeyRelease | SvpCreate | SvpRelease | SvpSupported => [Free Command]
  end.
(** A call. [sent_ok]: what ta_invoke_command answers. sa_get_device_id.c:54-57 returns at once if it fails.  The blocks left,
    [None] if memory is misused. *)
Definition call (shared : bool) (f : fn) (o : list outcome) (sent_ok : bool) : option (list nat) :=
  let '(s, sent) := makes shared (made f) o start in
  match f with
  | DeviceId => if sent && negb sent_ok then Some (m_live s) else option_map m_live (finishes shared (finished f) s)
  | _ => option_map m_live (finishes shared (finished f) s)
  end.

(** sa_process_common_encryption.c:50-209.  What becomes of one sample. *)
Inductive sample :=
| Bad                         (* 54-82: a check before any memory *)
| NoTable                     (* 94-99: malloc fails *)
| NoParam (k : nat)           (* 106, 127/134, 154/160: parameter 1, 2 or 3 cannot be had: [continue], inside the for loop *)
| BadLater (k : nat)          (* 111-123, 140-151: a check with [k] = 1 or 2 parameters made *)
| Unsent                      (* 170-174: ta_invoke_command fails *)
| Sent.
Record run := MkRun { r_state : state; r_ok : bool (* [status] is SA_STATUS_OK *); r_sent : list nat (* the samples processed *) }.
Definition params (shared : bool) (k : nat) (s : state) : state := fold_left (fun s v => make_ok shared (Param v) s) (firstn k [P1; P2; P3]) s.
Definition null (s : state) (v : var) : state := set s v Null.
(** One turn of the loop, for sample [i]; [true]: go on. *)
Definition turn (shared : bool) (i : nat) (x : sample) (r : run) : option (run * bool) :=
  let s := r_state r in
  match x with
  | Bad => Some (MkRun s false (r_sent r), false)
  | NoTable => Some (MkRun (null s Table) false (r_sent r), false)
  | NoParam k =>
      let s := params shared (k - 1) (take s Table) in
      Some (MkRun (match nth_error [P1; P2; P3] (k - 1) with Some v => null s v | None => s end) false (r_sent r), true)
  | BadLater k => Some (MkRun (params shared k (take s Table)) false (r_sent r), false)
  | Unsent => Some (MkRun (params shared 3 (take s Table)) false (r_sent r), false)
  | Sent =>
      let s := params shared 3 (take s Table) in
      match finishes shared [Free Table; Drop P1; Drop P2; Drop P3] s with
      | Some s => Some (MkRun (null (null (null (null s Table) P1) P2) P3) true (i :: r_sent r), true)
      | None => None
      end
  end.
Fixpoint turns (shared : bool) (i : nat) (l : list sample) (r : run) : option run :=
  match l with
  | [] => Some r
  | x :: l =>
      match turn shared i x r with
      | None => None
      | Some (r, false) => Some r
      | Some (r, true) => turns shared (S i) l r
      end
  end.
(** Whether it succeeds, the samples processed in order, and the blocks left. *)
Definition common_encryption (shared memory : bool) (l : list sample) : option (bool * list nat * list nat) :=
  if memory then
    match turns shared 0 l (MkRun (take start Command) false []) with
    | None => None
    | Some r =>
        match finishes shared [Free Table; Free Command; Drop P1; Drop P2; Drop P3] (r_state r) with
        | None => None
        | Some s => Some (r_ok r, rev (r_sent r), m_live s)
        end
    end
  else Some (false, [], []).
