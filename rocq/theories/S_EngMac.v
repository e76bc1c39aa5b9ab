(** What callers of EVP_DigestSign with the engine's keys rely on. *)
From Verif Require Import Base M_Mac M_EngMac.

(** What the caller knows of context [c]: its key, and the message given since it was initialised. *)
Record known := MkKnown { k_key : option Z; k_msg : option (md * list Z) }.
Definition unknown := MkKnown None None.
Definition hear (c : nat) (k : known) (e : op * answer) : known :=
  match e with
  | (_, Misuse) => k
  | (Init x key m _ _, a) =>
      if negb (Nat.eqb x c) then k
      else match a with
           | Fine => MkKnown (Some (match k_key k with Some q => q | None => key end)) (Some (m, []))
           | _ => MkKnown (Some (match k_key k with Some q => q | None => key end)) None
           end
  | (Update x l _, a) =>
      if negb (Nat.eqb x c) then k
      else match a, k_msg k with
           | Fine, Some (m, before) => MkKnown (k_key k) (Some (m, before ++ l))
           | _, _ => MkKnown (k_key k) None
           end
  | (Final x _ _ _, _) => if Nat.eqb x c then MkKnown (k_key k) None else k
  | (New x, _) | (Reset x, _) | (Free x, _) => if Nat.eqb x c then unknown else k
  | _ => k
  end.
Definition heard (c : nat) (events : list (op * answer)) : known := fold_left (hear c) events unknown.

(** The MAC of a message: HMAC with the digest, CMAC without one. *)
Definition mac_of (L : lib) (bytes : Z -> list Z) (key : Z) (m : md) (l : list Z) : list Z :=
  match m with MdSha d => l_hmac L d (bytes key) l | _ => l_cmac L (bytes key) l end.
Definition mac_size (m : md) : Z := match m with MdSha d => digest_length d | _ => 16 end.

(** ** Conditions on the caller *)
Definition handle_of (w : world) (c : nat) : option Z :=
  match w_ctxs w c with Some (MkMdctx (Some p) _) => p_mac p | _ => None end.
(** A context holds a handle whose MAC is gone. *)
Definition stale (w : world) (c : nat) (h : Z) : Prop := handle_of w c = Some h /\ w_macs w h = None.
(** Nothing is copied, and no new MAC gets a handle another context still holds. *)
Fixpoint unshared (L : lib) (bytes : Z -> list Z) (l : list op) (w : world) : Prop :=
  match l with
  | [] => True
  | o :: l =>
      match o with Copy _ _ => False | Init c _ _ h _ => forall d, d <> c -> ~ stale w d h | _ => True end /\
      unshared L bytes l (fst (step L bytes o w))
  end.
(** Three ways to be sure of it: contexts marked with EVP_MD_CTX_FLAG_FINALISE before their values are asked for, *)
Fixpoint marked (l : list op) (on : nat -> bool) : Prop :=
  match l with
  | [] => True
  | o :: l =>
      match o with Copy _ _ => False | Final c _ _ _ => on c = true | _ => True end /\
      marked l (match o with
                | SetFlag c => fun x => if Nat.eqb x c then true else on x
                | New c | Reset c | Free c => fun x => if Nat.eqb x c then false else on x
                | _ => on
                end)
  end.
(** contexts reset or freed as soon as their value is read, *)
Fixpoint prompt (l : list op) : Prop :=
  match l with
  | [] => True
  | o :: l =>
      match o with
      | Copy _ _ => False
      | Final c _ _ _ => match l with [] => True | Reset d :: _ | Free d :: _ => d = c | _ => False end
      | _ => True
      end /\ prompt l
  end.
(** or a secure API that does not use handles again. *)
Fixpoint new_handles (l : list op) (used : list Z) : Prop :=
  match l with
  | [] => True
  | Copy _ _ :: _ => False
  | Init _ _ _ h _ :: l => ~ In h used /\ new_handles l (h :: used)
  | _ :: l => new_handles l used
  end.
(** Contexts are initialised once between resets. *)
Fixpoint once (L : lib) (bytes : Z -> list Z) (l : list op) (w : world) : Prop :=
  match l with
  | [] => True
  | o :: l => match o with Init c _ _ _ _ => handle_of w c = None | _ => True end /\ once L bytes l (fst (step L bytes o w))
  end.
Definition all_freed (w : world) : Prop := forall c, w_ctxs w c = None.

(** Two contexts at work at the same time, HMAC and CMAC, each marked. *)
Definition two_at_once : list op :=
  [New 0; New 1; SetFlag 0; SetFlag 1; Init 0 7 (MdSha 1) 5 true; Update 0 [1] true; Init 1 8 MdNone 6 true; Update 1 [2] true;
   Update 0 [3] true].
