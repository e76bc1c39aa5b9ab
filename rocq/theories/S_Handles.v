(** What an observer of the answers knows.  [ledger tr h] replays a transcript and
    says which object and owner a handle designates and how many uses of it are
    outstanding; it only looks at the questions and answers. *)
From Verif Require Import Base M_ObjectStore.

Definition note (t : Z -> option (Z * uuid * Z)) (ea : event * answer) : Z -> option (Z * uuid * Z) :=
  match ea with
  | (EAdd o u, AHandle OK h) => fun k => if k =? h then Some (o, u, 0) else t k
  | (EAcquire h _, AObject OK _) =>
      fun k => if k =? h then option_map (fun '(o, u, n) => (o, u, n + 1)) (t k) else t k
  | (ERelease h _ _, AStatus OK) =>
      fun k => if k =? h then option_map (fun '(o, u, n) => (o, u, n - 1)) (t k) else t k
  | (ERemove h _, ARemoved OK _) => fun k => if k =? h then None else t k
  | _ => t
  end.

Definition ledger (tr : list (event * answer)) : Z -> option (Z * uuid * Z) :=
  fold_left note tr (fun _ => None).

Definition shut (tr : list (event * answer)) : bool :=
  existsb (fun ea => match fst ea with EShutdown => true | _ => false end) tr.
