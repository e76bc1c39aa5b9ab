(** What a user of the engine's ciphers relies on, in terms of the calls made and their answers.
    Histories are given latest first. *)
From Verif Require Import Base M_EngCipher.

Definition event : Type := op * answer.

(** The caller's memory. *)
Fixpoint key_memory (h : list event) (a : Z) : option Z :=
  match h with [] => None | (SetKey b x, _) :: h => if a =? b then x else key_memory h a | _ :: h => key_memory h a end.
Fixpoint iv_memory (h : list event) (a : Z) : option bytes :=
  match h with [] => None | (SetIv b x, _) :: h => if a =? b then x else iv_memory h a | _ :: h => iv_memory h a end.

(** The ciphers with associated data and a tag; those with a vector. *)
Definition authenticated (a : alg) : bool := match a with GCM | POLY1305 => true | _ => false end.
Definition has_vector (a : alg) : bool := match a with ECB => false | _ => true end.

(** The message a context works on: the key and vector, with where they were given and what was
    there; associated data, data and tag so far. *)
Record job := MkJob {
  j_alg : alg; j_len : Z; j_enc : option bool; j_key : option (Z * option Z); j_iv : option (Z * option bytes);
  j_aad : bytes; j_data : bytes; j_tag : option bytes; j_started : bool; j_ended : bool
}.
Definition here (c x : nat) : bool := Nat.eqb x c.
Definition instead {X} (new old : option X) : option X := match new with Some _ => new | None => old end.

(** EVP_CipherInit_ex starts a message; what is not given stays. *)
Fixpoint job_of (h : list event) (c : nat) : option job :=
  match h with
  | [] => None
  | (Open x a len, Done) :: h => if here c x then Some (MkJob a len None None None [] [] None false false) else job_of h c
  | (Init x key iv enc _, Done) :: h =>
      if here c x then option_map (fun j =>
        MkJob (j_alg j) (j_len j) (Some enc)
          (instead (option_map (fun k => (k, key_memory h k)) key) (j_key j))
          (instead (option_map (fun v => (v, iv_memory h v)) iv) (j_iv j)) [] [] (j_tag j) false false) (job_of h c)
      else job_of h c
  | (Aad x d _, Done) :: h =>
      if here c x then option_map (fun j =>
        MkJob (j_alg j) (j_len j) (j_enc j) (j_key j) (j_iv j) (j_aad j ++ d) (j_data j) (j_tag j) true (j_ended j)) (job_of h c)
      else job_of h c
  | (Data x d _ _, Bytes _) :: h =>
      if here c x then option_map (fun j =>
        MkJob (j_alg j) (j_len j) (j_enc j) (j_key j) (j_iv j) (j_aad j) (j_data j ++ d) (j_tag j) true (j_ended j)) (job_of h c)
      else job_of h c
  | (Final x _ _, Done) :: h =>
      if here c x then option_map (fun j =>
        if authenticated (j_alg j) then MkJob (j_alg j) (j_len j) (j_enc j) (j_key j) (j_iv j) (j_aad j) (j_data j) (j_tag j) true true else j) (job_of h c)
      else job_of h c
  | (SetTag x n t, Done) :: h =>
      if here c x then option_map (fun j =>
        MkJob (j_alg j) (j_len j) (j_enc j) (j_key j) (j_iv j) (j_aad j) (j_data j) (Some (firstn (Z.to_nat n) t)) (j_started j) (j_ended j)) (job_of h c)
      else job_of h c
  | (Reset x, _) :: h => if here c x then None else job_of h c
  | _ :: h => job_of h c
  end.

(** The vector; ECB has none. *)
Definition vector (j : job) : option bytes :=
  if has_vector (j_alg j) then match j_iv j with Some (_, v) => v | None => None end else Some [].
Definition the_key (j : job) : option Z := match j_key j with Some (_, k) => k | None => None end.

(** The use for which the engine keeps its promises: one message per context; the key variable and
    the vector's memory are left alone until it has begun; associated data in one piece, before the
    data; nothing fails; the context is not copied; the tag is not set again after an encryption. *)
Definition began (h : list event) (c : nat) : bool := match job_of h c with Some j => j_started j | None => false end.
Definition finished (h : list event) (c : nat) : bool := match job_of h c with Some j => j_ended j | None => false end.
Definition uses_key (h : list event) (c : nat) (a : Z) : bool :=
  match job_of h c with Some j => match j_key j with Some (b, _) => negb (j_started j) && (a =? b) | None => false end | None => false end.
Definition uses_iv (h : list event) (c : nat) (a : Z) : bool :=
  match job_of h c with Some j => match j_iv j with Some (b, _) => negb (j_started j) && (a =? b) | None => false end | None => false end.
Definition direction_kept (h : list event) (c : nat) (enc : bool) : bool :=
  match job_of h c with Some j => match j_enc j with Some b => Bool.eqb b enc | None => true end | None => true end.
Fixpoint careful (h : list event) (c : nat) : bool :=
  match h with
  | [] => true
  | (o, a) :: h =>
      match o with
      | SetKey b _ => negb (uses_key h c b) && careful h c
      | SetIv b _ => negb (uses_iv h c b) && careful h c
      | Open x _ _ => if here c x then (match a with Done => true | _ => careful h c end) else careful h c
      | Init x _ _ enc _ =>
          if here c x then match a with Done => negb (began h c) && direction_kept h c enc && careful h c | _ => false end else careful h c
      | Aad x _ _ => if here c x then match a with Done => negb (began h c) && careful h c | _ => false end else careful h c
      | Data x _ _ _ => if here c x then match a with Bytes _ => careful h c | _ => false end else careful h c
      | Final x _ _ => if here c x then match a with Done => careful h c | _ => false end else careful h c
      | GetTag x _ => careful h c
      | SetTag x _ _ => if here c x then negb (finished h c) && careful h c else careful h c
      | Copy x y => if here c x || here c y then false else careful h c
      | Reset x => careful h c
      end
  end.

Section Histories.
Variable crypt : alg -> bool -> Z -> bytes -> bytes -> bytes -> bytes -> bytes.
Variable mac : alg -> Z -> bytes -> bytes -> bytes -> bytes.
Variable key_size : Z -> option Z.
Definition history (l : list op) : list event := rev (fst (run crypt mac key_size l start)).
Definition after (l : list op) : world := snd (run crypt mac key_size l start).
(** The answer to a further call. *)
Definition answer_to (l : list op) (o : op) (a : answer) : Prop := history (l ++ [o]) = (o, a) :: history l.
End Histories.
Definition tags (mac : alg -> Z -> bytes -> bytes -> bytes -> bytes) : Prop := forall a k v x m, zlen (mac a k v x m) = TAG.

(** Contexts the caller has open. *)
Fixpoint is_open (h : list event) (c : nat) : bool :=
  match h with
  | [] => false
  | (Open x _ _, Done) :: h => here c x || is_open h c
  | (Copy _ y, Done) :: h => here c y || is_open h c
  | (Reset x, _) :: h => if here c x then false else is_open h c
  | _ :: h => is_open h c
  end.
(** Resources still held: application data and contexts of the secure API. *)
Definition holds_nothing (w : world) : Prop := (forall i, w_app w i = None) /\ (forall n, w_sa w n = None).

(** Calls made with what they need: memory, keys and vectors that are there, tags of some length, a
    tag to compare with. *)
Definition supplied (h : list event) (c : nat) (o : op) : Prop :=
  match o with
  | Init x key _ _ memory => x = c /\ memory = true /\ forall k, key = Some k -> key_memory h k <> None
  | Data x _ _ _ | Aad x _ _ =>
      x = c /\ forall j, job_of h c = Some j -> forall v, j_iv j <> Some (v, None)
  | Final x _ _ =>
      x = c /\ forall j, job_of h c = Some j -> (forall v, j_iv j <> Some (v, None)) /\ (j_enc j = Some false -> j_tag j <> None)
  | GetTag x n | SetTag x n _ => x = c /\ 0 <= n
  | Reset x => x = c
  | Open _ _ _ | SetKey _ _ | SetIv _ _ => True
  | Copy _ _ => True
  end.

(** Output that is not the message's. *)
Definition wrong_output crypt mac key_size (l : list op) (c : nat) (d : bytes) : Prop :=
  exists j key iv enc b, answer_to crypt mac key_size l (Data c d true true) (Bytes b) /\
    job_of (history crypt mac key_size l) c = Some j /\ the_key j = Some key /\ vector j = Some iv /\ j_enc j = Some enc /\
    b <> crypt (j_alg j) enc key iv (j_aad j) (j_data j) d.

(** A cipher for examples that shows what it is given. *)
Definition show_crypt (a : alg) (enc : bool) (key : Z) (iv aad before d : bytes) : bytes := (if enc then 1 else 0) :: key :: iv ++ aad ++ before ++ d.
Definition show_mac (a : alg) (key : Z) (iv aad d : bytes) : bytes := firstn 16 (key :: iv ++ aad ++ d ++ repeat 9 16).
Definition show_size (key : Z) : option Z := if key =? 7 then Some 16 else if key =? 8 then Some 16 else None.
(** Key variable 100 holds key 7, vectors at 200 and 201. *)
Definition prepared : list op := [SetKey 100 (Some 7); SetIv 200 (Some [21; 22]); SetIv 201 (Some [31; 32])].
Definition again_with_a_vector : list op := prepared ++
  [Open 0 CTR 16; Init 0 (Some 100) (Some 200) true true; Data 0 [1] true true; Init 0 None (Some 201) true true].
Definition again_the_other_way : list op := prepared ++
  [Open 0 CBC 16; Init 0 (Some 100) (Some 200) true true; Init 0 (Some 100) (Some 200) false true].
Definition vector_reused : list op := prepared ++
  [Open 0 CBC 16; Init 0 (Some 100) (Some 200) true true; SetIv 200 (Some [91; 92])].
Definition vector_gone : list op := prepared ++
  [Open 0 CBC 16; Init 0 (Some 100) (Some 200) true true; SetIv 200 None].
Definition two_pieces : list op := prepared ++
  [Open 0 GCM 16; Init 0 (Some 100) (Some 200) true true; Aad 0 [51] true; Aad 0 [52] true].
Definition short_tag : list op := prepared ++
  [Open 0 GCM 16; Init 0 (Some 100) (Some 200) false true; Data 0 [5] true true; SetTag 0 12 (firstn 12 (show_mac GCM 7 [21; 22] [] [5]))].
Definition copied : list op := prepared ++ [Open 0 CBC 16; Init 0 (Some 100) (Some 200) true true; Copy 0 1; Reset 1].
(** A use with care: one context encrypts with GCM, another decrypts, in turns. *)
Definition both_ways : list op := prepared ++
  [Open 0 GCM 16; Init 0 (Some 100) None true true; Init 0 None (Some 200) true true; Open 1 GCM 16; Init 1 (Some 100) (Some 200) false true;
   Aad 0 [51; 52] true; SetKey 101 (Some 8); Aad 1 [51; 52] true; SetIv 200 (Some [99]); Data 0 [1; 2] true true; Data 1 [1] true true;
   Data 0 [3] true true; Final 0 true true; Data 1 [2; 3] true true; SetTag 1 16 (show_mac GCM 7 [21; 22] [51; 52] [1; 2; 3])].
