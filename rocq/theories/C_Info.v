(** C83: what the calls about the implementation give. *)
From Verif Require Import Base M_Info S_Info P_Info.

(** A call of sa_get_name that succeeds: with no memory given, the length is that of the name and its zero; with memory, that
    was long enough, and holds the name and its zero. Built without shared memory, the rest of it is untouched. *)
Theorem C83_name_partial : forall nm shared m1 m2 junk fail buf n buf' n', honest buf n -> no_success fail ->
  get_name nm shared m1 m2 junk fail buf n = (OK, buf', n') ->
  match buf with
  | None => buf' = None /\ n' = needed nm
  | Some b => needed nm <= n /\ n' = n /\ exists b', buf' = Some b' /\ length b' = length b /\ firstn (length (text nm)) b' = text nm /\
      (shared = false -> skipn (length (text nm)) b' = skipn (length (text nm)) b)
  end.
Proof. exact name_right. Qed.
Print Assumptions C83_name_partial.
Example C83_case : get_name [82; 101; 102] false true true (fun _ => 7) None (Some [1; 2; 3; 4; 5; 6]) 6 = (OK, Some [82; 101; 102; 0; 5; 6], 6) /\
  get_name [82; 101; 102] true true true (fun _ => 7) None (Some [1; 2; 3; 4; 5; 6]) 6 = (OK, Some [82; 101; 102; 0; 7; 7], 6) /\
  get_name [82; 101; 102] true true true (fun _ => 7) None None 0 = (OK, None, 4) /\
  get_name [82; 101; 102] false true true (fun _ => 7) None (Some [1; 2; 3]) 3 = (INVALID_PARAMETER, Some [1; 2; 3], 3).
Proof. exact reference_name. Qed.

(** One that does not succeed changes nothing. *)
Theorem C83_name_refused : forall nm shared m1 m2 junk fail buf n s buf' n',
  get_name nm shared m1 m2 junk fail buf n = (s, buf', n') -> s <> OK -> buf' = buf /\ n' = n.
Proof. exact name_refused. Qed.
Print Assumptions C83_name_refused.

(** If memory can be had and the call gets through, it is refused for too little memory, and for nothing else. *)
Theorem C83_name_given : forall nm shared junk buf n, honest buf n ->
  fst (fst (get_name nm shared true true junk None buf n)) =
  match buf with None => OK | Some b => if Z.of_nat (length b) <? needed nm then INVALID_PARAMETER else OK end.
Proof. exact name_given. Qed.
Print Assumptions C83_name_given.

(** Asking for the length and then with that much memory gives the name, in both builds. *)
Theorem C83_asked_then_read : forall nm shared junk b n0, let n := snd (get_name nm shared true true junk None None n0) in
  Z.of_nat (length b) = n -> get_name nm shared true true junk None (Some b) n = (OK, Some (text nm), n).
Proof. exact asked_then_read. Qed.
Print Assumptions C83_asked_then_read.

(** sa.h says that name_length is set to the number of bytes required.  It is not, with more memory than that. *)
Theorem C83_length_set_refuted : forall nm shared junk b, needed nm < Z.of_nat (length b) ->
  exists b', get_name nm shared true true junk None (Some b) (Z.of_nat (length b)) = (OK, b', Z.of_nat (length b)) /\ Z.of_nat (length b) <> needed nm.
Proof. exact length_not_set. Qed.
Print Assumptions C83_length_set_refuted.

(** Built with shared memory, everything after the name is overwritten by what happened to be in that memory. *)
Theorem C83_rest_refuted : forall nm b x k, (length (text nm) <= k < length b)%nat ->
  exists b', get_name nm true true true (fun _ => x) None (Some b) (Z.of_nat (length b)) = (OK, Some b', Z.of_nat (length b)) /\ nth k b' (x + 1) = x.
Proof. exact rest_overwritten. Qed.
Print Assumptions C83_rest_refuted.

(** Version, id of the device and UUID: given on success, and untouched otherwise. *)
Theorem C83_info : forall i m1 fail old value s new left, no_success fail -> get_info i m1 fail old value = (s, new, left) ->
  (s = OK -> new = value /\ m1 = true /\ fail = None) /\ (s <> OK -> new = old).
Proof. exact info_right. Qed.
Print Assumptions C83_info.

(** No memory is left behind by any history in which the id of the device never fails to come. *)
Theorem C83_memory_partial : forall l, forallb (fun c => negb (id_failed c)) l = true -> left_behind l = 0.
Proof. exact none_left. Qed.
Print Assumptions C83_memory_partial.
(** Each time it fails to come, the memory of its command is lost. *)
Theorem C83_memory_refuted : forall n s, left_behind (repeat (Info DeviceId true (Some s) [] []) n) = Z.of_nat n.
Proof. exact id_leaks. Qed.
Print Assumptions C83_memory_refuted.
