(** The calls that tell about the implementation, from the application to the answer: clientimpl/src/sa_get_version.c,
    sa_get_name.c, sa_get_device_id.c and sa_get_ta_uuid.c (all of each), the macros of clientimpl/src/porting/ta_client.h:52-123
    with and without USE_SHARED_MEMORY, taimpl/src/ta_sa_get_version.c, ta_sa_get_name.c and ta_sa_get_ta_uuid.c.
    Pointers to results are not NULL. The handler between (ta.c:47-147) is M_Marshal.v; here it passes the call on, or the call
    fails on its way with a status other than SA_STATUS_OK. *)
From Verif Require Import Base.

(** ta_sa_get_name.c:24-57; [nm] is what get_implementation_name gives, without the zero at the end; [buf] the memory at
    [name], [None] for NULL, as long as [name_length] says. Status, memory, [*name_length]. *)
Definition ta_get_name (nm : list Z) (buf : option (list Z)) (n : Z) : status * option (list Z) * Z :=
  let required := Z.of_nat (length nm) + 1 in
  match buf with
  | None => (OK, None, required)
  | Some b => if n <? required then (INVALID_PARAMETER, buf, n) else (OK, Some ((nm ++ [0]) ++ skipn (length (nm ++ [0])) b), n)
  end.

(** sa_get_name.c:25-77. [shared]: built with USE_SHARED_MEMORY; [m1], [m2]: the memory of the command and of the parameter
    can be had; [junk]: what is in the latter; [fail]: the call fails on its way.  Status, memory, [*name_length]. *)
Definition get_name (nm : list Z) (shared m1 m2 : bool) (junk : nat -> Z) (fail : option status) (buf : option (list Z)) (n : Z) : status * option (list Z) * Z :=
  if negb m1 then (INTERNAL_ERROR, buf, n)
  else match buf with
       | None => match fail with Some s => (s, buf, n) | None => ta_get_name nm None n end
       | Some b =>
           if shared && negb m2 then (INTERNAL_ERROR, buf, n)
           else match fail with
                | Some s => (s, buf, n)
                | None =>
                    let param := if shared then map junk (seq 0 (length b)) else b in
                    let '(s, p, n') := ta_get_name nm (Some param) n in
                    if status_eqb s OK then (s, p, n') else (s, buf, n)
                end
       end.

(** sa_get_version.c:25-62, sa_get_ta_uuid.c:25-62, sa_get_device_id.c:25-63 *)
Inductive info := Version | Uuid | DeviceId.
(** The command's memory, when the function returns: still there? sa_get_device_id.c:54-57 returns without RELEASE_COMMAND. *)
Definition get_info (i : info) (m1 : bool) (fail : option status) (old value : list Z) : status * list Z * Z :=
  if negb m1 then (INTERNAL_ERROR, old, 0)
  else match i, fail with
       | DeviceId, Some s => (s, old, 1)
       | _, Some s => (s, old, 0)              (* the command holds what the caller had, and is copied back *)
       | _, None => (OK, value, 0)
       end.

Inductive call :=
| Name (shared m1 m2 : bool) (junk : nat -> Z) (fail : option status) (buf : option (list Z)) (n : Z)
| Info (i : info) (m1 : bool) (fail : option status) (old value : list Z).
(** Blocks of memory never given back, over a history of calls; sa_get_name gives back both of its own. *)
Fixpoint left_behind (l : list call) : Z :=
  match l with
  | [] => 0
  | Name _ _ _ _ _ _ _ :: l => left_behind l
  | Info i m1 fail old value :: l => snd (get_info i m1 fail old value) + left_behind l
  end.
