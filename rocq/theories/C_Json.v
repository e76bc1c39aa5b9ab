(** The parser for JSON documents: property theorems. *)
From Verif Require Import Base M_Json S_Json P_Json.

(** A document is turned into the tree that stands for it, unless a name in it has more than
    255 bytes, in which case there is no tree. *)
Theorem C49_parse : forall yajl l j allocs, yajl l = Some (events j) -> memory_granted allocs ->
  parse yajl l true allocs = if short_names j then tree j else None.
Proof. exact parse_tree. Qed.
Print Assumptions C49_parse.

(** Looking up a name in an object finds the value of the first field with that name, and
    nothing only if there is no such field. *)
Theorem C49_lookup : forall yajl l fs allocs, yajl l = Some (events (JObject fs)) -> memory_granted allocs -> short_names (JObject fs) = true ->
  exists entries, parse yajl l true allocs = Some (VMap None entries) /\
    (forall name v, find_field name entries = Found v <-> exists j, first_field fs name j /\ v = tree j) /\
    (forall name, find_field name entries = FoundNone <-> no_field fs name).
Proof. exact parse_object. Qed.
Print Assumptions C49_lookup.
Example C49_case : let j := JObject [(txt "a", JArray [JInt 1; JNull]); (txt "b", JString (txt "x")); (txt "a", JInt 2)] in
  parse (fun _ => Some (events j)) [] true (fun _ _ => true) =
    Some (VMap None [(Some (txt "a"), 1, Some (VArray [Some (VInt 1); None])); (Some (txt "b"), 1, Some (VString (txt "x"))); (Some (txt "a"), 1, Some (VInt 2))]) /\
  parse (fun _ => Some (events (JObject [(repeat 97 256, JInt 1)]))) [] true (fun _ _ => true) = None.
Proof. split; vm_compute; reflexivity. Qed.

(** When memory is short the parser can report success for another document than the one it
    was given, with an element of an array missing ... *)
Theorem C49_exhausted_refuted : exists yajl l j allocs j', yajl l = Some (events j) /\ short_names j = true /\
  parse yajl l true allocs = tree j' /\ parse yajl l true allocs <> None /\ j' <> j.
Proof. exact element_lost. Qed.
Print Assumptions C49_exhausted_refuted.
(** ... or with a field without a name, and looking up its name reads through NULL. *)
Theorem C49_nameless_refuted : exists yajl l fs allocs before entries name, yajl l = Some (events (JObject fs)) /\
  parse yajl l true allocs = Some (VMap before entries) /\ first_field fs name (JInt 1) /\ find_field name entries = FoundWild.
Proof. exact name_lost. Qed.
Print Assumptions C49_nameless_refuted.

(** The depth of the calls that release a document is not bounded by its nesting: an array of
    [n] numbers takes more than [n] nested calls. *)
Theorem C49_recursion_refuted : forall n, exists j v, (List.length (events j) = n + 2)%nat /\ tree j = Some v /\ (n < free_depth v)%nat.
Proof. exact deep_release. Qed.
Print Assumptions C49_recursion_refuted.
Example C49_recursion_case : match tree (JArray (List.repeat (JInt 0) 100)) with Some v => free_depth v | None => 0%nat end = 103%nat.
Proof. reflexivity. Qed.
