(** What a program that uses the key objects of the provider knows, what it may do, and what follows
    from the documentation.  Nothing here depends on how the provider keeps its objects: a ledger is
    made of the calls and their answers alone. *)
From Coq Require Import List ZArith Bool Arith.
From Verif Require Import M_ProvKeys.
Import ListNotations.
Local Open Scope nat_scope.

(** What the program knows of a context that it has: what has been set. *)
Record view := View { vkind : ckind; vkey : bool; vpeer : bool; vready : bool }.
(** [refs k]: how many references to the key object [k] the program has; [mine c]: the contexts that it
    has; [own h]: the keys behind the API that are its own to release; [full k]: a key has been put
    into [k]. *)
Record ledger := Led { refs : nat -> nat; mine : nat -> option view; own : nat -> bool; full : nat -> bool }.
Definition blank : ledger := Led (fun _ => 0) (fun _ => None) (fun _ => false) (fun _ => false).
Definition with_refs (l : ledger) (k n : nat) : ledger := Led (upd (refs l) k n) (mine l) (own l) (full l).
Definition with_ctx (l : ledger) (c : nat) (v : option view) : ledger := Led (refs l) (upd (mine l) c v) (own l) (full l).
Definition with_own (l : ledger) (h : nat) (b : bool) : ledger := Led (refs l) (mine l) (upd (own l) h b) (full l).
Definition with_full (l : ledger) (k : nat) : ledger := Led (refs l) (mine l) (own l) (upd (full l) k true).
Definition change (l : ledger) (c : nat) (f : view -> view) : ledger :=
  match mine l c with Some v => with_ctx l c (Some (f v)) | None => l end.

(** What a call and its answer mean for the ledger. *)
Definition note (l : ledger) (o : op) (a : ans) : ledger :=
  match o, a with
  | ONew, AKey k => with_refs l k 1
  | OGen _ _, AKey k => with_full (with_refs l k 1) k
  | ODup _, AKey k => with_refs l k (S (refs l k))
  | OFree k, AOk => with_refs l k (pred (refs l k))
  | OImport k (Handle h _ (Some true)), ABool true => with_own (with_full l k) h false
  | OImport k (Handle _ _ _), ABool true | OImport k (Clear _ _ _), ABool true => with_full l k
  | OCtx kd, ACtx c => with_ctx l c (Some (View kd false false false))
  | OInit c _ _, ABool _ => change l c (fun v => View (vkind v) true (vpeer v) (vready v))
  | ODigest c _ good plain, ABool _ => change l c (fun v => View (vkind v) good (vpeer v) (good && negb plain))
  | OPeer c _, ABool _ => change l c (fun v => View (vkind v) (vkey v) true (vready v))
  | OSettle c b, ABool _ => change l c (fun v => View (vkind v) (vkey v) (vpeer v) b)
  | ODupCtx c _, ACtx c' => with_ctx l c' (mine l c)
  | OFreeCtx c, AOk => with_ctx l c None
  | OKey h, AOk => with_own l h true
  | ORelease h, AOk => with_own l h false
  | _, _ => l
  end.

(** The rules of the interface: a program uses only objects to which it has a reference, contexts
    that it has, and hands over and releases only keys of its own. *)
Definition may (l : ledger) (o : op) : Prop :=
  match o with
  | ODup k | OFree k | OLook k => 0 < refs l k
  | OMatch k1 k2 => 0 < refs l k1 /\ 0 < refs l k2
  | OImport k (Handle h _ _) => 0 < refs l k /\ own l h = true
  | OImport k _ => 0 < refs l k
  | OInit c k _ | ODigest c k _ _ | OPeer c k => mine l c <> None /\ 0 < refs l k
  | OSettle c _ | ODupCtx c _ | OFreeCtx c | OUse c | OAsk c => mine l c <> None
  | ORelease h => own l h = true
  | _ => True
  end.
(** What it must avoid besides, although no document says so: copying and using contexts that have not
    been set up, and running out of memory while a context is copied. *)
Definition careful (l : ledger) (o : op) : Prop :=
  match o with
  | ODupCtx c room =>
      forall v, mine l c = Some v ->
      vkey v = true /\ match vkind v with Signing => vready v = true /\ room = true | Exchange => vpeer v = true | Crypting => vready v = true end
  | OUse c =>
      forall v, mine l c = Some v ->
      match vkind v with Signing => True | Exchange => vkey v = true /\ vpeer v = true | Crypting => vkey v = true end
  | OAsk c => forall v, mine l c = Some v -> vkind v = Signing -> vkey v = true
  | _ => True
  end.
(** No key is imported over another one. *)
Definition fresh (l : ledger) (o : op) : Prop :=
  match o with OImport k _ => full l k = false | _ => True end.
(** Contexts are set up once, with success, and imports of keys in the clear succeed and do not ask
    to keep the key. *)
Definition tidy (l : ledger) (o : op) : Prop :=
  match o with
  | OImport _ (Clear _ good del) => good = true /\ del <> Some false
  | OInit c _ _ => forall v, mine l c = Some v -> vkey v = false
  | ODigest c _ good _ => good = true /\ forall v, mine l c = Some v -> vkey v = false
  | OPeer c _ => forall v, mine l c = Some v -> vpeer v = false
  | ODupCtx _ room => room = true
  | _ => True
  end.

(** A rule is kept in every call of a history. *)
Fixpoint obeys (rule : ledger -> op -> Prop) (s : st) (l : ledger) (ops : list op) : Prop :=
  match ops with
  | [] => True
  | o :: r => rule l o /\ match step s o with Ran s' a => obeys rule s' (note l o a) r | Crash => True end
  end.
Fixpoint exec (s : st) (l : ledger) (ops : list op) : option (st * ledger) :=
  match ops with
  | [] => Some (s, l)
  | o :: r => match step s o with Ran s' a => exec s' (note l o a) r | Crash => None end
  end.
(** A key object exists, and so does its private key if the provider is to delete it. *)
Definition whole (s : st) (k : nat) : Prop :=
  exists o, objs s k = Some o /\ forall h, owned o = true -> priv o = Some h -> In h (keys s).
(** Everything has been given back and no thread is inside keymgmt_free. *)
Definition returned (s : st) (l : ledger) : Prop :=
  (forall k, refs l k = 0) /\ (forall c, mine l c = None) /\ pend s = [].
