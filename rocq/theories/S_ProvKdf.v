(** What a key derivation context is asked for, and what the standards make of it. *)
From Verif Require Import Base M_Rights M_Mac M_Kdf S_Rights S_Mac S_Kdf M_ProvKdf.
From Coq Require Import String.
Local Open Scope Z_scope.

(** The names OpenSSL has for the digests of the API. *)
Definition digest_named (name : string) : option Z :=
  let is l := existsb (String.eqb name) l in
  if is ["SHA1"; "SHA-1"]%string then Some 0
  else if is ["SHA256"; "SHA2-256"; "SHA-256"]%string then Some 1
  else if is ["SHA384"; "SHA2-384"; "SHA-384"]%string then Some 2
  else if is ["SHA512"; "SHA2-512"; "SHA-512"]%string then Some 3
  else None.

(** The settings of a context: what was last asked for since it was made or reset. *)
Record asked := MkAsked { a_key : option Z; a_delete : bool; a_digest : option string;
                          a_salt : option (list Z); a_info : option (list Z); a_sep : Z; a_l : Z }.
Definition nothing : asked := MkAsked None false None None None 0 0.
Definition latest {A} (q : option (option A)) (old : option A) : option A := match q with Some (Some a) => Some a | _ => old end.
Definition latest_blob (q : option blob) (old : option (list Z)) : option (list Z) := match q with Some (Copied b) => Some b | _ => old end.
Definition key_asked (p : params) : option Z :=
  match q_sa_key p with
  | Some (Some h) => Some h
  | _ => match q_key p with Some (Some b) => Some (le_value b) | _ => None end
  end.
Definition ask (s : asked) (p : params) : asked :=
  MkAsked (match key_asked p with Some h => Some h | None => a_key s end)
    (match q_delete p with Some (Some d) => negb (d =? 0) | _ => a_delete s end)
    (latest (q_digest p) (a_digest s)) (latest_blob (q_salt p) (a_salt s)) (latest_blob (q_info p) (a_info s))
    (match q_sep p with Some (Some n) => n | _ => a_sep s end) (match q_l p with Some (Some n) => n | _ => a_l s end).

(** Well-formed parameters: a key is a whole handle, the switches are 0 or 1. *)
Definition proper (p : params) : Prop :=
  (forall b, q_key p = Some (Some b) -> List.length b = 8%nat) /\
  (forall n, q_sep p = Some (Some n) -> n = 0 \/ n = 1) /\ (forall n, q_l p = Some (Some n) -> n = 0 \/ n = 1).

(** The life of a context: parameters, resets and derivations, all with what they depend on. *)
Inductive event := Set_ (p : params) (junk : list Z) | Reset | Derive (out : list Z) (n : Z) (p : params) (e : env).
Definition happens (s : kctx * table) (v : event) : option (kctx * table) :=
  let (c, t) := s in
  match v with
  | Set_ p junk => match kdf_set_ctx_params (Some p) junk c t with (true, c, t) => Some (c, t) | _ => None end
  | Reset => Some (kdf_reset c t)
  | Derive out n p e => match kdf_derive c t out n (Some p) e with Answer true c t _ => Some (c, t) | _ => None end
  end.
Fixpoint life (s : kctx * table) (l : list event) : option (kctx * table) :=
  match l with [] => Some s | v :: l => match happens s v with Some s => life s l | None => None end end.
Definition asks (s : asked) (v : event) : asked :=
  match v with Set_ p _ => ask s p | Reset => nothing | Derive _ _ p _ => ask s p end.
Definition settings (l : list event) : asked := fold_left asks l nothing.
Definition parameters (v : event) : list params := match v with Set_ p _ => [p] | Reset => [] | Derive _ _ p _ => [p] end.
Definition all_proper (l : list event) : Prop := forall v p, In v l -> In p (parameters v) -> proper p.

(** NIST SP 800-108 in counter mode over AES-CMAC: blocks of counter, label, a zero byte if
    asked for, context, and the length of the key in bits if asked for. *)
Definition sp800_108 (L : lib) (key label context : list Z) (sep l : bool) (n : nat) : list Z :=
  firstn n (List.concat (map (fun i => l_cmac L key ([Z.of_nat i] ++ label ++ (if sep then [0] else []) ++ context ++ (if l then be32 (8 * n) else [])))
    (seq 1 (blocks n 16)))).

(** The key the standards define for the settings. *)
Definition bytes_of (o : option (list Z)) : list Z := match o with Some b => b | None => [] end.
Definition input_of (o : option (list Z)) : input := match o with Some b => Bytes b | None => Null 0 end.
Definition digest_of (s : asked) : option Z := match a_digest s with Some name => digest_named name | None => None end.
Definition standard (L : lib) (alg : Z) (s : asked) (secret : list Z) (n : nat) : option (list Z) :=
  if alg =? 4 then Some (sp800_108 L secret (bytes_of (a_salt s)) (bytes_of (a_info s)) (a_sep s =? 1) (a_l s =? 1) n)
  else match digest_of s with
       | None => None
       | Some d =>
           if alg =? 1 then Some (rfc5869 L d (input_of (a_salt s)) secret (bytes_of (a_info s)) n)
           else if alg =? 2 then Some (sp800_56a L d secret (bytes_of (a_info s)) n)
           else if alg =? 3 then Some (x963 L d secret (bytes_of (a_info s)) n)
           else None
       end.

(** Rights without restrictions: every use, at any time, by anyone. *)
Definition unrestricted (r : rights) : Prop :=
  (forall f, 0 <= f <= 13 -> has_flag r f) /\ r_not_before r = 0 /\ r_not_on_or_after r = 2 ^ 64 - 1 /\
  (forall u, rights_allowed_uuid r u = true) /\ id_terminated r.

(** The surroundings of a derivation of [n] bytes: the buffers have their sizes, memory
    obtained has the size asked for, and a new key gets an unused handle. *)
Definition surroundings (e : env) (t : table) (n : Z) : Prop :=
  good_lib (e_lib e) /\ memory_for n (e_mem e) /\ zlen (e_buf1 e) = 64 /\ zlen (e_buf2 e) = 64 /\
  t (e_handle e) = None /\ 0 <= e_handle e < 2 ^ 64 - 1.
(** Stored keys have as many bytes as they say. *)
Definition sound (t : table) : Prop := forall h k, t h = Some k -> zlen (k_bytes k) = k_size k.

(** Who answers for which key: a context told to delete its key releases it when it is reset
    or freed, and only then.  The handles given up during a life, and those made. *)
Definition to_delete (s : asked) : list Z := match a_key s with Some h => if a_delete s then [h] else [] | None => [] end.
Fixpoint given_up (s : asked) (l : list event) : list Z :=
  match l with
  | [] => []
  | v :: l => match v with Reset => to_delete s | _ => [] end ++ given_up (asks s v) l
  end.
Definition made (l : list event) : list Z := flat_map (fun v => match v with Derive _ _ _ e => [e_handle e] | _ => [] end) l.
(** A key is given only to a context without one, and in one way. *)
Definition gives_key (p : params) : bool := match q_key p, q_sa_key p with None, None => false | _, _ => true end.
Definition one_key (s : asked) (p : params) : Prop :=
  (gives_key p = true -> a_key s = None) /\ (q_key p = None \/ q_sa_key p = None).
Fixpoint one_key_each (s : asked) (l : list event) : Prop :=
  match l with
  | [] => True
  | v :: l => (forall p, In p (parameters v) -> one_key s p) /\ one_key_each (asks s v) l
  end.
(** Every parameter can be read, and a key given exists. *)
Definition readable (p : params) (t : table) : Prop :=
  q_key p <> Some None /\ q_sa_key p <> Some None /\ q_delete p <> Some None /\ q_digest p <> Some None /\
  (forall n, q_salt p <> Some (NotRead n)) /\ (forall n, q_info p <> Some (NotRead n)) /\
  q_sep p <> Some None /\ q_l p <> Some None /\
  (forall h, key_asked p = Some h -> t h <> None).

(** With CMAC, what follows the standard: one block, without the length. *)
Definition limits (alg : Z) (s : asked) (n : Z) : Prop := alg = 4 -> a_l s = 0 /\ n <= 16.

(** Nothing fails underneath. *)
Definition works (e : env) : Prop := (forall i, e_answers e i = true) /\ e_alloc e = true /\ e_malloc e = true /\ e_mem e <> None.
(** Requests within the limits: HKDF, CONCAT and X9.63 with a known digest; CMAC with one or
    two blocks and some data. *)
Definition within (alg : Z) (s : asked) (parent : stored_key) (n : Z) : Prop :=
  (1 <= alg <= 3 /\ (exists d, digest_of s = Some d) /\ 16 <= n <= 512 /\ (alg = 1 -> 16 <= k_size parent <= 512)) \/
  (alg = 4 /\ (n = 16 \/ n = 32) /\ (k_size parent = 16 \/ k_size parent = 32) /\
   (bytes_of (a_salt s) <> [] \/ bytes_of (a_info s) <> [] \/ a_sep s = 1 \/ a_l s = 1)).

(** CMAC delivers another key than the standard. *)
Definition differs (p : params) (n : Z) : Prop := exists t e out h parent k c' t' out',
  proper p /\ surroundings e t n /\ sound t /\ n <= zlen out /\
  kdf_derive (kdf_newctx 4) t out n (Some p) e = Answer true c' t' out' /\ a_key (ask nothing p) = Some h /\ t' h = Some parent /\
  t' (e_handle e) = Some k /\ standard (e_lib e) 4 (ask nothing p) (k_bytes parent) (Z.to_nat n) <> Some (k_bytes k).
