(** The keystore with the root keys and the device id: util/src/pkcs12.c (all) and porting/otp.c:34-145 and 630-644.
    OpenSSL's part, decoding and decrypting PKCS #12, is done: a safe is the bags in it, a bag its friendly name, if any,
    and the secret in it, if it is a secret bag that decrypts; [scan] below is the code that finds the secret in a bag.
    Names are bytes; the uninitialised rest of the caller's name buffer is zero here.  Calls are whole here, except
    in [common_during]. *)
From Verif Require Import Base.

(** ** Finding the secret in a bag, pkcs12.c:31-44 and 106-141 *)
Inductive found := Found (secret : list Z) | Malformed | BeyondEnd | Overflow.
Definition byte_at (data : list Z) (i : Z) : option Z := if i <? 0 then None else nth_error data (Z.to_nat i).
(** [find_asn1_item_length]: the length and the offset after it; [Overflow] of the int is undefined in C. *)
Inductive measured := Length (n off : Z) | MBeyond | MOverflow.
Fixpoint length_bytes (k : nat) (data : list Z) (n off : Z) : measured :=
  match k with
  | O => Length n (off + 1)
  | S k => match byte_at data (off + 1) with
           | None => MBeyond
           | Some b => if 2 ^ 31 <=? n * 256 + b then MOverflow else length_bytes k data (n * 256 + b) (off + 1)
           end
  end.
Definition item_length (data : list Z) (off : Z) : measured :=
  match byte_at data off with
  | None => MBeyond
  | Some b => if b <? 128 then Length b (off + 1) else length_bytes (Z.to_nat (b - 128)) data 0 off
  end.
(** The loop to the next A0 tag (118-125) and past its length (127-128); every round moves on. *)
Inductive at_a0 := At (off : Z) | ABeyond | AOverflow.
Fixpoint to_a0 (fuel : nat) (data : list Z) (off : Z) : at_a0 :=
  match fuel with
  | O => ABeyond
  | S fuel =>
      match byte_at data off with
      | None => ABeyond
      | Some tag =>
          match item_length data (off + 1) with
          | MBeyond => ABeyond
          | MOverflow => AOverflow
          | Length n off =>
              if tag =? 160 then At off
              else if tag mod 32 =? 16 then to_a0 fuel data off
              else if 2 ^ 31 <=? off + n then AOverflow else to_a0 fuel data (off + n)
          end
      end
  end.
Definition scan (data : list Z) : found :=
  let fuel := S (length data) in
  match to_a0 fuel data 0 with
  | ABeyond => BeyondEnd
  | AOverflow => Overflow
  | At off =>
      match to_a0 fuel data off with
      | ABeyond => BeyondEnd
      | AOverflow => Overflow
      | At off =>
          match byte_at data off with
          | None => BeyondEnd
          | Some t =>
              if negb (t =? 4) then Malformed
              else match item_length data (off + 1) with
                   | MBeyond => BeyondEnd
                   | MOverflow => Overflow
                   | Length n off => if zlen data <? off + n then BeyondEnd else Found (firstn (Z.to_nat n) (skipn (Z.to_nat off) data))
                   end
          end
      end
  end.

(** ** The keystore *)
Record bag := MkBag { b_name : option (list Z); b_secret : option (list Z) }.
Inductive safe := Data (bags : option (list bag)) (* [None]: does not decrypt *) | OtherType.
Definition keystore := option (list safe).              (* [None]: no file, not PKCS #12 or a wrong MAC *)

(** common.h:71 *)
Definition COMMON : list Z := [99; 111; 109; 109; 111; 110; 114; 111; 111; 116].
(** strncmp of [n] bytes, equal *)
Fixpoint strneq (n : nat) (a b : list Z) : bool :=
  match n, a, b with
  | O, _, _ => true
  | S n, x :: a, y :: b => if x =? y then (x =? 0) || strneq n a b else false
  | S _, _, _ => false
  end.

(** The caller's buffers. [s_key] is 16 bytes long in both callers. *)
Record bufs := MkBufs { s_key : list Z; s_key_length : Z; s_name : list Z; s_name_length : Z }.
Inductive loaded := Ret (b : bool) | Undefined.

(** [parse_pkcs12_safe_bag], pkcs12.c:46-181: the third outcome is a write past [s_key]. *)
Inductive parsed := Parsed | NotParsed | PastEnd.
Definition parse (b : bag) (s : bufs) : parsed * bufs :=
  match b_name b with
  | None => (NotParsed, s)
  | Some n =>
      let s := if (0 <? zlen n) && (zlen n <=? s_name_length s)
               then MkBufs (s_key s) (s_key_length s) (n ++ skipn (length n) (s_name s)) (zlen n)
               else MkBufs (s_key s) (s_key_length s) (s_name s) 0 in
      match b_secret b with
      | None => (NotParsed, s)
      | Some k => if 16 <? zlen k then (PastEnd, s)
                  else (Parsed, MkBufs (k ++ skipn (length k) (s_key s)) (zlen k) (s_name s) (s_name_length s))
      end
  end.
(** The bags of a safe, 245-256: whether one was found, whether parsing failed. *)
Inductive bags_end := End (found failed : bool) | EndUndefined.
Fixpoint parse_bags (common : bool) (l : list bag) (s : bufs) : bags_end * bufs :=
  match l with
  | [] => (End false false, s)
  | b :: l =>
      match parse b s with
      | (PastEnd, s) => (EndUndefined, s)
      | (r, s) =>
          let failed := match r with Parsed => false | _ => true end in
          if Bool.eqb (strneq 10 COMMON (s_name s)) common then (End true failed, s)
          else if failed then (End false true, s) else parse_bags common l s
      end
  end.
(** The safes, 228-259; [stack] is [pkcs12_safebags], freed already if there is one from the round before. *)
Fixpoint parse_safes (common : bool) (l : list safe) (stack status : bool) (s : bufs) : loaded * bufs :=
  match l with
  | [] => (Ret status, s)
  | OtherType :: _ => (if stack then Undefined else Ret status, s)          (* freed again; the loop ends *)
  | Data None :: l => parse_safes common l false status s
  | Data (Some bags) :: l =>
      match parse_bags common bags s with
      | (EndUndefined, s) => (Undefined, s)
      | (End f failed, s) => if failed then (Ret (status || f), s) else parse_safes common l true (status || f) s
      end
  end.
(** [load_pkcs12_secret_key], 183-266 *)
Definition load (k : keystore) (s : bufs) : loaded * bufs :=
  let common := strneq (Z.to_nat (s_name_length s)) (s_name s) (COMMON ++ [0]) in
  match k with None => (Ret false, s) | Some safes => parse_safes common safes false false s end.

(** ** otp.c *)
(** [convert_str_to_int], 38-65 *)
Definition hex (c : Z) : option Z :=
  let c := if (65 <=? c) && (c <=? 90) then c + 32 else c in
  if (48 <=? c) && (c <=? 57) then Some (c - 48) else if (97 <=? c) && (c <=? 102) then Some (c - 87) else None.
Fixpoint to_int_from (v : Z) (l : list Z) : Z :=
  match l with [] => v | c :: l => match hex c with Some d => to_int_from ((v * 16) mod 2 ^ 64 + d) l | None => 0 end end.
Definition to_int (l : list Z) : Z := if 16 <? zlen l then 0 else to_int_from 0 l.

(** The static variables of [get_root_key] and [get_common_root_key], and [device_id]. *)
Record world := MkWorld { r_key : list Z; r_length : Z; c_key : list Z; c_length : Z; w_id : Z; w_dead : bool }.
Definition zeros (n : nat) : list Z := repeat 0 n.
Definition start : world := MkWorld (zeros 16) 0 (zeros 16) 0 0 false.
Inductive op := GetRoot (k : keystore) | GetCommon (k : keystore) | DeviceId (k : keystore).   (* with the file as it is then *)
Inductive answer := Key (l : list Z) | Id (n : Z) | Failed | Crash.

(** [get_root_key], 67-108; its callers give 32 bytes of room *)
Definition get_root (k : keystore) (w : world) : world * answer :=
  if r_length w =? 0 then
    match load k (MkBufs (r_key w) 0 (zeros 16) 16) with
    | (Undefined, _) => (MkWorld (r_key w) (r_length w) (c_key w) (c_length w) (w_id w) true, Crash)
    | (Ret false, s) => (MkWorld (s_key s) (s_key_length s) (c_key w) (c_length w) (w_id w) false, Failed)
    | (Ret true, s) =>
        let id := to_int (firstn (Z.to_nat (s_name_length s)) (s_name s)) in
        (MkWorld (s_key s) (s_key_length s) (c_key w) (c_length w) id false,
         if id =? 0 then Failed else Key (firstn (Z.to_nat (s_key_length s)) (s_key s)))
    end
  else (w, Key (firstn (Z.to_nat (r_length w)) (r_key w))).
(** [get_common_root_key], 110-145; MAX_NAME_SIZE is 50 *)
Definition get_common (k : keystore) (w : world) : world * answer :=
  if c_length w =? 0 then
    match load k (MkBufs (c_key w) 0 (COMMON ++ zeros 40) 50) with
    | (Undefined, _) => (MkWorld (r_key w) (r_length w) (c_key w) (c_length w) (w_id w) true, Crash)
    | (Ret r, s) =>
        (MkWorld (r_key w) (r_length w) (s_key s) (s_key_length s) (w_id w) false,
         if r then Key (firstn (Z.to_nat (s_key_length s)) (s_key s)) else Failed)
    end
  else (w, Key (firstn (Z.to_nat (c_length w)) (c_key w))).
Definition step (o : op) (w : world) : world * answer :=
  if w_dead w then (w, Crash)
  else match o with
       | GetRoot k => get_root k w
       | GetCommon k => get_common k w
       | DeviceId k =>                                              (* [otp_device_id], 630-644: the result is ignored *)
           let '(w, a) := if w_id w =? 0 then get_root k w else (w, Failed) in
           (w, if w_dead w then Crash else Id (w_id w))
       end.
Fixpoint run (l : list op) (w : world) : world * list answer :=
  match l with
  | [] => (w, [])
  | o :: l => let '(w1, a) := step o w in let '(w2, r) := run l w1 in (w2, a :: r)
  end.

(** What a thread gets from [get_common_root_key] while another, the first to call it, has parsed [n] bags of the
    first safe: the static variables are written as the bags are parsed. *)
Definition common_during (bags : list bag) (n : nat) (w : world) : world * answer :=
  let '(_, s) := parse_bags true (firstn n bags) (MkBufs (c_key w) 0 (COMMON ++ zeros 40) 50) in
  get_common (Some [Data (Some bags)]) (MkWorld (r_key w) (r_length w) (s_key s) (s_key_length s) (w_id w) (w_dead w)).
