(** Provisioning: sa_key_provision_ta (clientimpl/src/sa_key_provision.c:26-111), its checks
    (porting/sa_key_provision_impl.c:26-82), the command in the trusted application (taimpl/src/internal/ta.c:375-509,
    1905-1950, 2128-2137) and what it calls there (ta_sa_key_import.c:356-415 and 527-623, ta_sa_key_release.c).

    The build without shared memory: the trusted application sees the application's own structure through the pointer it
    was given.  Other threads of the application import and release keys of their own meanwhile.  How a container is
    opened is C51 and C52; here it is a parameter.  Certificates and the ESN are only logged by the code. *)
From Verif Require Import Base.
Local Open Scope Z_scope.

Inductive status := Ok | NullParameter | InvalidParameter | InvalidKeyFormat | NotSupported | NoSlot | InternalError | Fails (n : Z).
Inductive kind := Widevine | PlayReady | AppleMfi | AppleFairPlay | Netflix | OtherKind.     (* sa_types.h:1039-1045 *)

(** A length and a pointer to memory with these bytes. *)
Record field := MkField { f_length : Z; f_at : option (list Z) }.
(** The structure behind [in]: sa_types.h:1061-1096.  Netflix: HMAC key, wrapping key, ESN; others: private key, certificate.
    [s_there]: bytes of memory at [in]. *)
Record structure := MkStructure { s_model : Z; s_first : field; s_second : field; s_third : field; s_there : Z }.
Definition size_of (k : kind) : Z := match k with Netflix => 48 | _ => 32 end.
Definition SOC_SIZE := 624.      (* sizeof(sa_import_parameters_soc) *)

Inductive owner := App | Ours.
Record world := MkWorld {
  w_keys : Z -> option owner;
  w_checked : list (list Z);     (* containers opened *)
  w_lost : bool                  (* a key of the application was released by the library *)
}.
Definition set_key (w : world) (h : Z) (o : option owner) : world :=
  MkWorld (fun x => if x =? h then o else w_keys w x) (w_checked w) (w_lost w).
(** What other threads do. *)
Inductive other := Adds (h : Z) | Drops (h : Z).
Definition other_step (w : world) (o : other) : world :=
  match o with
  | Adds h => match w_keys w h with None => set_key w h (Some App) | Some _ => w end
  | Drops h => match w_keys w h with Some App => set_key w h None | _ => w end
  end.
Definition others (l : list other) (w : world) : world := fold_left other_step l w.

Record surroundings := MkSurroundings {
  x_session : bool;
  x_command : bool;                            (* memory for the command *)
  x_cache : bool;                              (* and for its copy in the trusted application *)
  x_client : nat -> bool;                      (* client_store_acquire succeeds, the n-th time *)
  x_slot : nat -> option Z;                    (* the free slot that is found, the n-th time *)
  x_check : list Z -> list Z -> status;        (* opening a container with parameters *)
  x_others : nat -> list other                 (* what other threads do before the n-th access to the store *)
}.
Definition INVALID : Z := 2 ^ 32 - 1.

Inductive result := Bad | Answer (w : world) (s : status).
(** In the trusted application the handle in the command goes along. *)
Inductive inner := IBad | IAnswer (w : world) (key : Z) (s : status).

(** ta_sa_key_import with SA_KEY_FORMAT_PROVISION_TA. *)
Definition import (x : surroundings) (n : nat) (f : field) (parameters : list Z) (w : world) (key : Z) : inner :=
  let w := others (x_others x n) w in
  match f_at f with
  | None => IAnswer w key NullParameter
  | Some b =>
      if negb (x_client x n) then IAnswer w key InternalError
      else if f_length f <=? 0 then IAnswer w INVALID InvalidKeyFormat
      else if zlen b <? f_length f then IBad
      else
        let c := firstn (Z.to_nat (f_length f)) b in
        let w := MkWorld (w_keys w) (w_checked w ++ [c]) (w_lost w) in
        match x_check x c parameters with
        | Ok => match x_slot x n with
                | Some h => match w_keys w h with None => IAnswer (set_key w h (Some Ours)) h Ok | Some _ => IAnswer w INVALID NoSlot end
                | None => IAnswer w INVALID NoSlot
                end
        | s => IAnswer w INVALID s
        end
  end.
(** ta_sa_key_release. *)
Definition release (x : surroundings) (n : nat) (w : world) (key : Z) : world * status :=
  let w := others (x_others x n) w in
  if negb (x_client x n) then (w, InternalError)
  else match w_keys w key with
       | None => (w, InvalidParameter)
       | Some Ours => (set_key w key None, Ok)
       | Some App => let w := set_key w key None in (MkWorld (w_keys w) (w_checked w) true, Ok)
       end.

(** ta_invoke_key_provision, ta.c:375-509; [seen] is the structure as it is by then. *)
Definition invoke (x : surroundings) (k : kind) (seen : structure) (parameters : list Z) (w : world) (key : Z) : inner :=
  if zlen parameters =? 0 then IAnswer w key NullParameter
  else if SOC_SIZE <? zlen parameters then IBad                           (* memcpy into a structure on the stack *)
  else
    match k with
    | Widevine | PlayReady => import x 0 (s_first seen) parameters w key
    | Netflix =>
        match import x 0 (s_first seen) parameters w key with
        | IAnswer w key Ok =>
            let '(w, s) := if key =? INVALID then (w, Ok) else release x 1 w key in
            match s with
            | Ok => import x 2 (s_second seen) parameters w key
            | s => IAnswer w key s
            end
        | r => r
        end
    | _ => IAnswer w key Ok
    end.

Definition empty (f : field) : bool := match f_at f with None => true | Some _ => f_length f =? 0 end.
(** sa_key_provision_preprocessing. *)
Definition preprocess (k : kind) (input : option structure) (in_length : Z) (parameters : option (list Z)) : option status :=
  match input, parameters with
  | Some s, Some _ =>
      if in_length =? 0 then Some NullParameter
      else match k with
           | Widevine | PlayReady | Netflix =>
               if s_there s <? size_of k then None
               else if empty (s_first s) || empty (s_second s) || match k with Netflix => empty (s_third s) | _ => false end
               then Some NullParameter else Some Ok
           | AppleMfi | AppleFairPlay => Some NotSupported
           | OtherKind => Some InvalidParameter
           end
  | _, _ => Some NullParameter
  end.

(** The two bytes that say how long the parameters are; None: they are not there. *)
Definition told (parameters : list Z) : option Z :=
  match parameters with a :: b :: _ => Some (a * 256 + b) | _ => None end.

(** sa_key_provision_ta.  [change] is what the application makes of its structure meanwhile. *)
Definition provision (x : surroundings) (k : kind) (input : option structure) (change : structure -> structure) (in_length : Z)
    (parameters : option (list Z)) (w : world) : result :=
  match preprocess k input in_length parameters with
  | None => Bad
  | Some Ok =>
      match input, parameters with
      | Some s, Some p =>
          if negb (x_session x) then Answer w InternalError
          else if negb (x_command x) then Bad                              (* key_provision_ta->key after the loop *)
          else match told p with
               | None => Bad
               | Some n =>
                   if zlen p <? n then Bad                                 (* handed to memcpy later *)
                   else
                     match (if negb (x_cache x) then IAnswer w INVALID InternalError
                            else invoke x k (change s) (firstn (Z.to_nat n) p) w INVALID) with
                     | IBad => Bad
                     | IAnswer w key s => if key =? INVALID then Answer w s else Answer (fst (release x 3 w key)) s
                     end
               end
      | _, _ => Answer w NullParameter
      end
  | Some s => Answer w s
  end.
