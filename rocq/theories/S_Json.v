(** JSON documents and base64 as such. *)
From Verif Require Import Base M_Json.

(** A JSON document: strings are bytes, the number types are those yajl tells apart, the
    fields of an object are in the order of the text. *)
Inductive json :=
| JNull | JBool (b : bool) | JDouble (bits : Z) | JInt (z : Z) | JString (l : list Z)
| JArray (l : list json) | JObject (fields : list (list Z * json)).

(** What a parser reports of it, in order. *)
Fixpoint events (j : json) : list event :=
  match j with
  | JNull => [ENull] | JBool b => [EBool b] | JDouble d => [EDouble d] | JInt z => [EInt z] | JString l => [EString l]
  | JArray l => EStartArray :: flat_map events l ++ [EEndArray]
  | JObject fs => EStartMap :: flat_map (fun f => EKey (fst f) :: events (snd f)) fs ++ [EEndMap]
  end.
(** The tree that stands for it; [null] is the NULL pointer. *)
Fixpoint tree (j : json) : option value :=
  match j with
  | JNull => None
  | JBool b => Some (VBool b) | JDouble d => Some (VDouble d) | JInt z => Some (VInt z) | JString l => Some (VString l)
  | JArray l => Some (VArray (List.map tree l))
  | JObject fs => Some (VMap None (List.map (fun f => (Some (fst f), zlen (fst f), tree (snd f))) fs))
  end.
(** The names in it have at most 255 bytes. *)
Fixpoint short_names (j : json) : bool :=
  match j with
  | JArray l => forallb short_names l
  | JObject fs => forallb (fun f => (zlen (fst f) <=? 255) && short_names (snd f)) fs
  | _ => true
  end.

(** The field of that name: the first one, should there be several. *)
Definition first_field (fs : list (list Z * json)) (name : list Z) (j : json) : Prop :=
  exists before after, fs = before ++ (name, j) :: after /\ ~ In name (List.map fst before).
Definition no_field (fs : list (list Z * json)) (name : list Z) : Prop := ~ In name (List.map fst fs).

(** A parser that reports documents: whatever it accepts are the events of some document. *)
Definition good_yajl (yajl : list Z -> option (list event)) : Prop :=
  forall l es, yajl l = Some es -> exists j, es = events j.
(** All allocations succeed. *)
Definition memory_granted (allocs : nat -> nat -> bool) : Prop := forall i k, allocs i k = true.

(** The number of nested calls needed to release a document is at least the number of
    elements of its longest array. *)
Definition flat_array (n : nat) : json := JArray (repeat (JInt 0) n).
