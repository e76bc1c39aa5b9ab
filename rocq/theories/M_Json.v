(** JSON documents and base64 text as the key containers use them: taimpl/src/internal/json.c.
    The parser itself is the library yajl, which reports what it reads event by event; the
    callbacks build a tree from the events.  The linked lists of the tree are Coq lists, a
    NULL value is [None]. *)
From Verif Require Import Base.
From Coq Require Export String Ascii.
#[global] Open Scope list_scope.
#[global] Open Scope Z_scope.

(** A C string literal as bytes. *)
Definition txt (s : string) : list Z := List.map (fun a => Z.of_nat (nat_of_ascii a)) (list_ascii_of_string s).

(** [json_value_t], json.c:29-33, 94-99, 187-190.  An array starts with an entry that is not
    counted (192-266); so does a map (101-190), and a value that comes before any key is
    stored in that entry.  The key of an entry is [None] if it could not be allocated; its
    length is set all the same. *)
Inductive value :=
| VBool (b : bool)
| VDouble (bits : Z)
| VInt (z : Z)
| VString (l : list Z)
| VArray (items : list (option value))
| VMap (before : option value) (entries : list (option (list Z) * Z * option value)).

(** What yajl reports. *)
Inductive event :=
| EBool (b : bool) | EDouble (bits : Z) | EInt (z : Z) | ENull | EString (l : list Z)
| EKey (l : list Z) | EStartMap | EEndMap | EStartArray | EEndArray.

(** [json_parse_context_t], json.c:332-336: the open maps and arrays, innermost first, and
    the finished document. *)
Record context := MkContext { x_stack : list value; x_root : option value }.

(** [json_map_last_key_value] and [json_map_set_value], json.c:131-190. *)
Fixpoint set_last (entries : list (option (list Z) * Z * option value)) (v : option value) : list (option (list Z) * Z * option value) :=
  match entries with
  | [] => []
  | [(k, n, _)] => [(k, n, v)]
  | e :: rest => e :: set_last rest v
  end.
Definition map_set (before : option value) entries (v : option value) : value :=
  match entries with [] => VMap v [] | _ => VMap before (set_last entries v) end.

(** [json_parse_context_set_value], json.c:420-469.  [a]: the entry of an array can be
    allocated; if not, the value is dropped and nobody is told (452-460, 243-265). *)
Definition set_value (c : context) (v : option value) (a : bool) : context :=
  match x_stack c with
  | [] => MkContext [] v
  | VMap before entries :: rest => MkContext (map_set before entries v :: rest) (x_root c)
  | VArray items :: rest => MkContext (VArray (if a then items ++ [v] else items) :: rest) (x_root c)
  | _ => c
  end.
(** [json_parse_context_pop], json.c:471-488. *)
Definition pop (c : context) (a : bool) : context :=
  match x_stack c with
  | [] => c
  | v :: rest => set_value (MkContext rest (x_root c)) (Some v) a
  end.

(** MAX_KEY_LENGTH, json.c:27. *)
Definition MAX_KEY_LENGTH := 255.
(** The callbacks, json.c:679-864; [a i] answers the [i]-th allocation of the callback.  [None]
    is a callback that returns 0, which stops yajl. *)
Definition callback (c : context) (e : event) (a : nat -> bool) : option context :=
  let scalar v := if a 0%nat && a 1%nat then Some (set_value c (Some v) (a 2%nat)) else None in
  let start v := if a 0%nat && a 1%nat && a 2%nat then Some (MkContext (v :: x_stack c) (x_root c)) else None in
  match e with
  | EBool b => scalar (VBool b)
  | EDouble d => scalar (VDouble d)
  | EInt z => scalar (VInt z)
  | EString l => scalar (VString l)
  | ENull => Some (set_value c None (a 0%nat))
  | EKey k =>
      match x_stack c with
      | VMap before entries :: rest =>
          if MAX_KEY_LENGTH <? zlen k then None
          else if negb (a 0%nat) then None
          else Some (MkContext (VMap before (entries ++ [(if a 1%nat then Some k else None, zlen k, None)]) :: rest) (x_root c))
      | _ => None
      end
  | EStartMap => start (VMap None [])
  | EStartArray => start (VArray [])
  | EEndMap | EEndArray => Some (pop c (a 0%nat))
  end.
Fixpoint callbacks (c : context) (es : list (event * (nat -> bool))) : option context :=
  match es with
  | [] => Some c
  | (e, a) :: rest => match callback c e a with None => None | Some c => callbacks c rest end
  end.

(** [json_parse_bytes], json.c:866-906.  [yajl] gives the events of a text, [None] if it is not
    a JSON text; [allocs i] answers the allocations of the [i]-th callback.  A NULL result is
    [None], which is also what the text [null] gives.  The allocation of the parser itself is
    [new]. *)
Definition parse (yajl : list Z -> option (list event)) (l : list Z) (new : bool) (allocs : nat -> nat -> bool) : option value :=
  if negb new then None
  else match yajl l with
  | None => None
  | Some es =>
      match callbacks (MkContext [] None) (combine es (List.map allocs (seq 0 (List.length es)))) with
      | None => None
      | Some c => x_root c
      end
  end.

(** [json_value_as_bool], [json_value_as_integer], [json_value_as_string], json.c:936-953,
    1046-1088: 0 or NULL for a value of another type. *)
Definition as_bool (v : option value) : bool := match v with Some (VBool b) => b | _ => false end.
Definition as_integer (v : option value) : Z := match v with Some (VInt z) => z | _ => 0 end.
Definition as_string (v : option value) : option (list Z) := match v with Some (VString l) => Some l | _ => None end.
(** [json_value_as_array], json.c:974-1007.  [ArrayNull]: NULL, the count is not written.
    [ArrayWild]: the allocation failed and its result is written to. *)
Inductive array := ArrayNull | ArrayWild | ArrayOf (l : list (option value)).
Definition as_array (v : option value) (a : bool) : array :=
  match v with
  | Some (VArray l) => if a then ArrayOf l else match l with [] => ArrayOf [] | _ => ArrayWild end
  | _ => ArrayNull
  end.

(** [json_key_value_find], json.c:1109-1137, on the entries [json_value_as_map] (1009-1044)
    copied.  [FoundWild]: an entry without key is compared. *)
Inductive found := FoundNone | FoundWild | Found (v : option value).
Fixpoint find_field (name : list Z) (entries : list (option (list Z) * Z * option value)) : found :=
  match entries with
  | [] => FoundNone
  | (k, n, v) :: rest =>
      if negb (n =? zlen name) then find_field name rest
      else match k with
           | None => if zlen name =? 0 then Found v else FoundWild
           | Some k => if list_eq_dec Z.eq_dec k name then Found v else find_field name rest
           end
  end.

(** How deep json_value_free, json_map_free and json_array_free (json.c:112-121, 203-211, 908-
    925) call one another for a value: the lists are released by recursion. *)
Fixpoint free_depth (v : value) : nat :=
  let opt o := match o with None => 1%nat | Some v => free_depth v end in
  match v with
  | VArray l => S (S ((fix items l := match l with [] => 1%nat | v :: rest => S (Nat.max (opt v) (items rest)) end) l))
  | VMap b es => S (S (Nat.max (opt b)
      ((fix entries es := match es with [] => 1%nat | (_, v) :: rest => S (Nat.max (opt v) (entries rest)) end) es)))
  | _ => 1%nat
  end.

(** [b64_decoded_length], json.h. *)
Definition b64_decoded_length (n : Z) : Z := (n / 4 + (if 0 <? n mod 4 then 1 else 0)) * 3.
Definition b64_data_length (n : Z) : Z := (n / 4 + (if 0 <? n mod 4 then 1 else 0)) * 4.
(** [b64_decode], json.c:1139-1220, with [*out_length] from [b64_decoded_length], as all callers
    have it.  [bio] is OpenSSL's decoder, [None] an error; whether a malformed text is an error
    or yields fewer bytes is left open.  [ok]: memory and the BIO objects were there.  The text
    is extended to a multiple of four characters, with '=' if [url], else with what the
    allocated memory held, [junk].  The bytes decoded are the result; they are written to
    [out].  Texts of 2 GiB and more, whose length is converted to int, are not modelled. *)
Definition b64_translate (c : Z) : Z := if c =? 45 then 43 else if c =? 95 then 47 else c.
Definition b64_decode (bio : list Z -> option (list Z)) (url : bool) (l junk : list Z) (ok : bool) : option (list Z) :=
  let more := Z.to_nat (b64_data_length (zlen l) - zlen l) in
  let data := if url then List.map b64_translate l ++ repeat 61 more else l ++ firstn more junk in
  if negb ok then None
  else match bio data with
       | None => None
       | Some d => Some (firstn (Z.to_nat (b64_decoded_length (zlen l))) d)
       end.

(** [string_to_lowercase], json.c:1222-1228. *)
Definition to_lower (l : list Z) : list Z := List.map (fun c => if (65 <=? c) && (c <=? 90) then c + 32 else c) l.
