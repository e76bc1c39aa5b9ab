(** Model of the provider's digests, reference/src/client/src/sa_provider_digest.c.
    OpenSSL is a parameter: [hash] is what its default provider computes, [Fails] stands for a call
    below that fails, and what the library does with a context that is not running is free
    ([late]).  A context is named by a number that is never used again; the caller does not use a
    context it has given back (that would be its own fault, [Misuse]). *)
From Verif Require Import Base.

Definition bytes := list Z.

Inductive md := SHA1 | SHA256 | SHA384 | SHA512.
(** sa_provider_digest.c:339-342: SHA_DIGEST_LENGTH and so on. *)
Definition digest_length (a : md) : Z := match a with SHA1 => 20 | SHA256 => 32 | SHA384 => 48 | SHA512 => 64 end.

(** An EVP_MD_CTX: new, collecting data for a digest, or finished. *)
Inductive evp := Fresh | Running (a : md) (data : bytes) | Finished.
(** sa_provider_digest.c:31-37 *)
Record dctx := MkDctx { d_md : md; d_evp : evp; d_size : Z }.

(** The contexts, and what has been taken from OpenSSL and not given back: blocks of memory,
    references to algorithms, EVP_MD_CTX. *)
Record world := MkWorld { w_ctx : list (nat * dctx); w_next : nat; w_blocks : Z; w_refs : Z; w_evps : Z }.
Definition start : world := MkWorld [] 0 0 0 0.
Definition get (w : world) (c : nat) : option dctx :=
  match find (fun x => Nat.eqb (fst x) c) (w_ctx w) with Some x => Some (snd x) | None => None end.
Definition without (c : nat) (l : list (nat * dctx)) := filter (fun x => negb (Nat.eqb (fst x) c)) l.
Definition put (w : world) (c : nat) (d : dctx) : world :=
  MkWorld (map (fun x => if Nat.eqb (fst x) c then (c, d) else x) (w_ctx w)) (w_next w) (w_blocks w) (w_refs w) (w_evps w).
Definition took (b r e : Z) (w : world) : world :=
  MkWorld (w_ctx w) (w_next w) (w_blocks w + b) (w_refs w + r) (w_evps w + e).
Definition create (w : world) (d : dctx) : world :=
  MkWorld ((w_next w, d) :: w_ctx w) (S (w_next w)) (w_blocks w) (w_refs w) (w_evps w).

(** Which of the calls below fails: the first, the second, ... or none. *)
Definition fails := option nat.
Definition fails_at (f : fails) (n : nat) : bool := match f with Some k => Nat.eqb k n | None => false end.

Inductive op :=
| New (provctx : bool) (a : md) (f : fails)
| Dup (c : option nat) (f : fails)
| Init (c : option nat) (f : fails)
| Update (c : option nat) (data : bytes) (f : fails)
| Final (c : option nat) (out outl : bool) (size : Z) (f : fails) (late : option bytes)
| Free (c : option nat).
(** A context or NULL; success or failure; the bytes written to the caller's buffer and their
    number as reported; bytes written although the buffer is shorter; a context of the past. *)
Inductive answer := Context (c : option nat) | Return (ok : bool) | Written (b : bytes) (n : Z) | Overrun (b : bytes) | Misuse.

Section Digest.
Variable hash : md -> bytes -> bytes.

(** sa_provider_digest.c:61-99: zalloc, EVP_MD_fetch, EVP_MD_CTX_new *)
Definition newctx (provctx : bool) (a : md) (f : fails) (w : world) : world * answer :=
  if negb provctx then (w, Context None) else
  if fails_at f 0 then (w, Context None) else
  let w := took 1 0 0 w in
  if fails_at f 1 then (took (-1) 0 0 w, Context None) else
  let w := took 0 1 0 w in
  if fails_at f 2 then (took (-1) (-1) 0 w, Context None) else
  let w := took 0 0 1 w in
  (create w (MkDctx a Fresh (digest_length a)), Context (Some (w_next w))).

(** sa_provider_digest.c:101-111, what is given back when the fields are set as said *)
Definition freed (has_md has_evp : bool) (w : world) : world :=
  took (-1) (if has_md then -1 else 0) (if has_evp then -1 else 0) w.

(** sa_provider_digest.c:113-153: zalloc, EVP_MD_CTX_new, EVP_MD_CTX_copy, EVP_MD_up_ref.  Line 144
    assigns the new context's digest_size, which is zero, to itself. *)
Definition dupctx (c : option nat) (f : fails) (w : world) : world * answer :=
  match c with
  | None => (w, Context None)
  | Some c =>
      match get w c with
      | None => (w, Misuse)
      | Some d =>
          if fails_at f 0 then (w, Context None) else
          let w := took 1 0 0 w in
          if fails_at f 1 then (freed false false w, Context None) else
          let w := took 0 0 1 w in
          if fails_at f 2 then (freed false true w, Context None) else
          if fails_at f 3 then (freed false true w, Context None) else
          let w := took 0 1 0 w in
          (create w (MkDctx (d_md d) (d_evp d) 0), Context (Some (w_next w)))
      end
  end.

(** sa_provider_digest.c:155-171.  After a failure the library's context holds nothing of use. *)
Definition init (c : option nat) (f : fails) (w : world) : world * answer :=
  match c with
  | None => (w, Return false)
  | Some c =>
      match get w c with
      | None => (w, Misuse)
      | Some d =>
          if fails_at f 0 then (put w c (MkDctx (d_md d) Finished (d_size d)), Return false)
          else (put w c (MkDctx (d_md d) (Running (d_md d) []) (d_size d)), Return true)
      end
  end.

(** sa_provider_digest.c:173-190 *)
Definition update (c : option nat) (data : bytes) (f : fails) (w : world) : world * answer :=
  match c with
  | None => (w, Return false)
  | Some c =>
      match get w c with
      | None => (w, Misuse)
      | Some d =>
          if fails_at f 0 then (put w c (MkDctx (d_md d) Finished (d_size d)), Return false)
          else match d_evp d with
               | Running a m => (put w c (MkDctx (d_md d) (Running a (m ++ data)) (d_size d)), Return true)
               | _ => (w, Return true)
               end
      end
  end.

(** sa_provider_digest.c:192-227.  [late]: what the library writes for a context that is not
    running, if it does not refuse: as many bytes as the digest has. *)
Definition exactly (n : Z) (b : bytes) : bytes := firstn (Z.to_nat n) (b ++ repeat 0 (Z.to_nat n)).
Definition emit (size : Z) (b : bytes) : answer := if size <? zlen b then Overrun b else Written b (zlen b).
Definition final (c : option nat) (out outl : bool) (size : Z) (f : fails) (late : option bytes) (w : world) : world * answer :=
  match c with
  | None => (w, Return false)
  | Some c =>
      match get w c with
      | None => (w, Misuse)
      | Some d =>
          if negb out then (w, Return false) else
          if negb outl then (w, Return false) else
          if size <? d_size d then (w, Return false) else
          let w' := put w c (MkDctx (d_md d) Finished (d_size d)) in
          if fails_at f 0 then (w', Return false)
          else match d_evp d with
               | Running a m => (w', emit size (hash a m))
               | _ => match late with Some b => (w', emit size (exactly (digest_length (d_md d)) b)) | None => (w', Return false) end
               end
      end
  end.

(** sa_provider_digest.c:101-111 *)
Definition freectx (c : option nat) (w : world) : world * answer :=
  match c with
  | None => (w, Return true)
  | Some c =>
      match get w c with
      | None => (w, Misuse)
      | Some d => (freed true true (MkWorld (without c (w_ctx w)) (w_next w) (w_blocks w) (w_refs w) (w_evps w)), Return true)
      end
  end.

Definition step (o : op) (w : world) : world * answer :=
  match o with
  | New p a f => newctx p a f w
  | Dup c f => dupctx c f w
  | Init c f => init c f w
  | Update c d f => update c d f w
  | Final c out outl n f late => final c out outl n f late w
  | Free c => freectx c w
  end.
Fixpoint run (l : list op) (w : world) : list (op * answer) * world :=
  match l with
  | [] => ([], w)
  | o :: l => let (w1, a) := step o w in let (h, w2) := run l w1 in ((o, a) :: h, w2)
  end.
End Digest.

(** sa_provider_digest.c:267-320: which parameters can be read and written is OpenSSL's choice. *)
Definition gettable_ctx_params (name : Type) (can_get can_set : name -> bool) (names : list name) : list name := filter can_set names.   (* line 306: EVP_MD_CTX_settable_params *)
Definition settable_ctx_params (name : Type) (can_get can_set : name -> bool) (names : list name) : list name := filter can_get names.   (* line 319: EVP_MD_CTX_gettable_params *)
Definition set_ctx_param (name : Type) (can_get can_set : name -> bool) (n : name) : bool := can_set n.
Definition get_ctx_param (name : Type) (can_get can_set : name -> bool) (n : name) : bool := can_get n.
