(** What users of EVP_MAC with the provider rely on. *)
From Verif Require Import Base M_Mac M_ProvMac.

(** ** Tags *)
(** A MAC that goes on: CMAC ([r_md = None]) or HMAC with a digest, the key's bytes, the data so far. *)
Record running := Run { r_md : option md; r_key : list Z; r_data : list Z }.
(** The digests that the secure API has; sizes of all in bytes. *)
Definition listed (m : md) : option Z :=
  match m with Sha1 => Some D_SHA1 | Sha256 => Some D_SHA256 | Sha384 => Some D_SHA384 | Sha512 => Some D_SHA512 | _ => None end.
Definition cut_512 (m : md) : bool := match m with Sha512_224 | Sha512_256 => true | _ => false end.
Definition tag (L : lib) (r : running) : option (list Z) :=
  match r_md r with
  | None => Some (l_cmac L (r_key r) (r_data r))
  | Some m => match listed m with Some d => Some (l_hmac L d (r_key r) (r_data r)) | None => None end
  end.
Definition bits (m : md) : Z :=
  match m with Md5 => 128 | Sha1 => 160 | Sha224 | Sha512_224 => 224 | Sha256 | Sha512_256 => 256 | Sha384 => 384 | Sha512 => 512 end.

(** ** What the user knows of contexts, and of the keys made *)
(** [q_md], [q_key]: what the context was told, if that is certain; [q_run]: the MAC that goes on. *)
Record asked := Asked { q_hmac : bool; q_md : option md; q_key : option (list Z); q_run : option running }.
Record state := State { s_ctx : nat -> option asked; s_made : Z -> option (list Z) }.
Definition nothing : state := State (fun _ => None) (fun _ => None).
Definition with_ctx (s : state) c q := State (fun y => if Nat.eqb y c then q else s_ctx s y) (s_made s).
Definition with_key (s : state) h b := State (s_ctx s) (fun y => if y =? h then Some b else s_made s y).
(** The handle of a key that a call makes, with its bytes. *)
Definition made_by (o : op) : option (Z * list Z) :=
  match o with
  | NewKey h b => Some (h, b)
  | Init _ (Some (b, Some h)) _ _ _ _ => Some (h, b)
  | _ => None
  end.
Definition md_after (q : asked) (p : params) : option md := match p_md p with Some (Fetched m) => Some m | Some _ => None | None => q_md q end.
Definition key_after (s : state) (k : option (list Z)) (p : params) : option (list Z) :=
  match p_key p with Some (Some h) => s_made s h | Some None => None | None => k end.
Definition started (hmac : bool) (m : option md) (k : option (list Z)) : option running :=
  match k, hmac, m with
  | Some b, false, _ => Some (Run None b [])
  | Some b, true, Some m => Some (Run (Some m) b [])
  | _, _, _ => None
  end.
Definition hear (s : state) (e : op * answer) : state :=
  let '(o, a) := e in
  match a with Misuse => s | _ =>
  let s := match made_by o with Some (h, b) => with_key s h b | None => s end in
  let about c f := match s_ctx s c with Some q => with_ctx s c (Some (f q)) | None => s end in
  match o, a with
  | New c hmac, _ => with_ctx s c (Some (Asked hmac None None None))
  | Free c, _ => with_ctx s c None
  | SetParams c p, Fine => about c (fun q => Asked (q_hmac q) (md_after q p) (key_after s (q_key q) p) (q_run q))
  | SetParams c p, _ => about c (fun q => Asked (q_hmac q) None None (q_run q))
  | Init c key _ p _ _, Fine =>
      about c (fun q => let k := key_after s (match key with Some (b, _) => Some b | None => q_key q end) p in
                        Asked (q_hmac q) (md_after q p) k (started (q_hmac q) (md_after q p) k))
  | Init c _ _ _ _ _, _ => about c (fun q => Asked (q_hmac q) None None None)
  | Update c l _, Fine =>
      about c (fun q => Asked (q_hmac q) (q_md q) (q_key q) (match q_run q with Some r => Some (Run (r_md r) (r_key r) (r_data r ++ l)) | None => None end))
  | Update c l _, _ => about c (fun q => Asked (q_hmac q) (q_md q) (q_key q) None)
  | Final c _ true _, Refused => s                     (* only the room was missing *)
  | Final c _ _ _, _ => about c (fun q => Asked (q_hmac q) (q_md q) (q_key q) None)
  | _, _ => s
  end end.
Definition heard (events : list (op * answer)) : state := fold_left hear events nothing.

(** The secure API does not use the handles of keys again. *)
Fixpoint handles_new (events : list (op * answer)) (s : state) : Prop :=
  match events with
  | [] => True
  | e :: r => match made_by (fst e), snd e with Some (h, _), Misuse => True | Some (h, _), _ => s_made s h = None | None, _ => True end
              /\ handles_new r (hear s e)
  end.
Definition all_freed (w : world) : Prop := forall c, w_ctxs w c = None.
(** Calls that leave context [c] in place and do not begin anew on it. *)
Definition not_anew (c : nat) (o : op) : Prop := match o with Init d _ _ _ _ _ | Free d | New d _ => d <> c | _ => True end.

(** ** Histories for the witnesses *)
Definition toy : lib := MkLib (fun d l => d :: l) (fun k l => k ++ l).
Definition just (m : md) : params := Params (Some (Fetched m)) None None.
Definition none : params := Params None None None.
Definition by_handle (m : md) (h : Z) : params := Params (Some (Fetched m)) (Some (Some h)) None.
Definition two_parts : list op :=
  [NewKey 5 [1; 2]; New 0 true; New 1 false; Init 0 None true (by_handle Sha256 5) 30 true; Update 0 [7] true;
   Init 1 (Some ([9; 9], Some 6)) true none 31 true; Update 1 [3] true; Update 0 [8] true].
Definition truncated : list op := [New 0 true; Init 0 (Some ([1], Some 5)) true (just Sha512_256) 30 true; Update 0 [7] true].
Definition digestless : list op := [New 0 true; Init 0 (Some ([1], Some 5)) true none 30 true].
Definition later_digest : list op :=
  [New 0 true; Init 0 (Some ([1], Some 5)) true (just Sha256) 30 true; Update 0 [7] true; SetParams 0 (just Sha1)].
(** A key of the application's in two contexts; the second gets another one. *)
Definition shared : list op :=
  [NewKey 5 [1]; New 0 true; New 1 true; SetParams 0 (by_handle Sha256 5); Init 1 None true (by_handle Sha256 5) 30 true;
   Init 1 (Some ([2], Some 6)) true none 30 true].
Definition shared_reused : list op := shared ++ [NewKey 5 [3]; Init 0 None true none 31 true; Update 0 [7] true].
(** The same key set again. *)
Definition again : list op := [NewKey 5 [1]; New 0 true; Init 0 None true (by_handle Sha256 5) 30 true; SetParams 0 (by_handle Sha256 5)].
(** A refused setting: the digest is not known. *)
Definition refused_digest : list op :=
  [New 0 true; Init 0 (Some ([1], Some 5)) true (just Sha256) 30 true; SetParams 0 (Params (Some Unknown) None None); Init 0 None true none 30 true].
Definition two_digests : list op := [New 0 true; SetParams 0 (just Sha256); SetParams 0 (just Sha256); Free 0].
