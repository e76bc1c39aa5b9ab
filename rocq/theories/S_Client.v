(** What an application relies on: a library function behaves like a direct call of the
    implementation with the same arguments. *)
From Verif Require Import Base M_KeyStore M_Marshal M_Client.

(** Arguments that C's types can hold, with parameter structures of the kind the selector asks for. *)
Definition u32 (x : Z) : Prop := 0 <= x < 2 ^ 32.
Definition fits (b : bytes) : Prop := zlen b < W64.
Definition wf_in (x : inb) : Prop := match x with InNull n => is_u64 n | In b => fits b end.
Definition wf_out (x : outb) : Prop := match x with OutNull n => is_u64 n | Out _ _ n => is_u64 n end.
Definition wf_buf {X} (wf : X -> Prop) (x : abuf X) : Prop :=
  match x with Clear y off => wf y /\ is_u64 off | Svp ty h off => u32 ty /\ ty <> 0 /\ is_u64 h /\ is_u64 off end.
Definition wf_span (s : span) : Prop := is_u64 (sp_out s) /\ is_u64 (sp_in s) /\ is_u64 (sp_len s).
Definition rights_ok (b : bytes) : Prop := zlen b = 608.
Definition opt {X} (wf : X -> Prop) (x : option X) : Prop := match x with Some y => wf y | None => True end.

Definition proper (a : app) : Prop :=
  match a with
  | GetVersion | GetDeviceId | GetTaUuid | SvpSupported => True
  | GetName o => wf_out o
  | CryptoRandom o => wf_out o
  | KeyGenerate r type p => rights_ok r /\ u32 type /\
      match p with
      | GenNone => True | GenSymmetric n => type = 0 /\ is_u64 n | GenRsa n => type = 2 /\ is_u64 n
      | GenEc c => type = 1 /\ u32 c | GenDh p g => type = 3 /\ wf_in p /\ wf_in g
      end
  | KeyExport o m k => wf_out o /\ wf_in m /\ is_u64 k
  | KeyImport format d p => u32 format /\ wf_in d /\
      match p with
      | ImpNone => True | ImpSymmetric r => format = 0 /\ rights_ok r | ImpRsa r => format = 2 /\ rights_ok r
      | ImpEc r c => format = 1 /\ rights_ok r /\ u32 c | ImpTypej a b => format = 5 /\ is_u64 a /\ is_u64 b
      | ImpSoc s => format = 4 /\ zlen s = 624 /\ 256 * w1 s 0 + w1 s 1 = 624   (* the structure holds its own size *)
      end
  | KeyUnwrap r type curve alg p k d => rights_ok r /\ u32 type /\ u32 alg /\ is_u64 k /\ wf_in d /\
      (type <> 1 -> curve = None) /\ opt u32 curve /\
      match p with
      | UnwNone => True | UnwCbc i => (alg = 2 \/ alg = 3) /\ wf_in i | UnwCtr i => alg = 4 /\ wf_in i
      | UnwGcm i a t => alg = 5 /\ wf_in i /\ wf_in a /\ wf_in t | UnwChacha c n => alg = 9 /\ wf_in c /\ wf_in n
      | UnwPoly n a t => alg = 10 /\ wf_in n /\ wf_in a /\ wf_in t
      | UnwElgamal s => alg = 8 /\ wf_in s /\ match s with In b => zlen b = 16 | _ => True end
      | UnwOaep d m l => alg = 7 /\ u32 d /\ u32 m /\ wf_in l
      end
  | KeyGetPublic o k => wf_out o /\ is_u64 k
  | KeyDerive r alg p => rights_ok r /\
      match p with
      | KdfLadder a b c d => (alg = 0 \/ alg = 6) /\ fits a /\ fits b /\ fits c /\ fits d
      | KdfHkdf l d p s i => alg = 1 /\ is_u64 l /\ u32 d /\ is_u64 p /\ wf_in s /\ wf_in i
      | KdfConcat l d p i => alg = 2 /\ is_u64 l /\ u32 d /\ is_u64 p /\ wf_in i
      | KdfX963 l d p i => alg = 3 /\ is_u64 l /\ u32 d /\ is_u64 p /\ wf_in i
      | KdfCmac l c p o => alg = 4 /\ is_u64 l /\ 0 <= c < 256 /\ is_u64 p /\ wf_in o
      | KdfNetflix e h => alg = 5 /\ is_u64 e /\ is_u64 h
      end
  | KeyExchange r alg k o p => rights_ok r /\ u32 alg /\ is_u64 k /\ wf_in o /\
      match p with ExchNone => True | ExchNetflix w e h => alg = 2 /\ is_u64 w /\ rights_ok e /\ rights_ok h end
  | KeyRelease x | KeyHeader x | CipherRelease x | MacRelease x | SvpRelease x => is_u64 x
  | KeyDigest o k d => wf_out o /\ is_u64 k /\ u32 d
  | CipherInit alg mode k p => u32 alg /\ u32 mode /\ is_u64 k /\
      match p with
      | CipNone => True | CipCbc i => (alg = 2 \/ alg = 3) /\ wf_in i | CipCtr i => alg = 4 /\ wf_in i
      | CipGcm i a => alg = 5 /\ wf_in i /\ wf_in a | CipChacha n c => alg = 9 /\ wf_in n /\ wf_in c
      | CipPoly n a => alg = 10 /\ wf_in n /\ wf_in a | CipOaep d m l => alg = 7 /\ u32 d /\ u32 m /\ wf_in l
      end
  | CipherUpdateIv c i => is_u64 c /\ wf_in i
  | CipherProcess o c i n => opt (wf_buf wf_out) o /\ is_u64 c /\ wf_buf wf_in i /\ is_u64 n
  | CipherProcessLast o c i n t => opt (wf_buf wf_out) o /\ is_u64 c /\ wf_buf wf_in i /\ is_u64 n /\ opt wf_out t
  | MacInit alg k d => u32 alg /\ is_u64 k /\ (alg <> 1 -> d = None) /\ opt u32 d
  | MacProcess c d => is_u64 c /\ wf_in d
  | MacProcessKey c k => is_u64 c /\ is_u64 k
  | MacCompute o c => wf_out o /\ is_u64 c
  | CryptoSign o alg k d p => wf_out o /\ u32 alg /\ is_u64 k /\ wf_in d /\
      match p with
      | SigNone => True | SigPss d m _ s => alg = 1 /\ u32 d /\ u32 m /\ is_u64 s
      | SigPkcs d _ => alg = 0 /\ u32 d | SigEcdsa d _ => alg = 2 /\ u32 d
      end
  | SvpCreate m s => is_u64 m /\ is_u64 s
  | SvpWrite o d l => is_u64 o /\ wf_in d /\ Forall wf_span l /\ 24 * Z.of_nat (length l) < W64
  | SvpCopy o i l => is_u64 o /\ is_u64 i /\ Forall wf_span l /\ 24 * Z.of_nat (length l) < W64
  | SvpKeyCheck k i n e => is_u64 k /\ wf_buf wf_in i /\ is_u64 n /\ wf_in e
  | SvpBufferCheck b o l d h => is_u64 b /\ is_u64 o /\ is_u64 l /\ u32 d /\ wf_in h
  | CommonEncryption s => fits (sm_iv s) /\ is_u64 (sm_crypt s) /\ is_u64 (sm_skip s) /\ is_u64 (sm_context s) /\
      Forall (fun l => is_u64 (fst l) /\ is_u64 (snd l)) (sm_lengths s) /\ 16 * Z.of_nat (length (sm_lengths s)) < W64 /\
      wf_buf wf_out (sm_out s) /\ wf_buf wf_in (sm_in s)
  end.

(** Calls in which everything that must be there is there: the others are refused. *)
Definition given (x : inb) : bool := match x with In _ => true | _ => false end.
Definition filled (x : inb) : bool := match x with In (_ :: _) => true | _ => false end.
Definition sized_in (x : inb) (n : Z) : bool := match x with In b => zlen b =? n | _ => false end.
(** Memory may be missing only if nothing is in it. *)
Definition optional (x : inb) : bool := match x with InNull n => n =? 0 | In _ => true end.
Definition in_place (x : abuf inb) : bool :=
  match x with Clear (In b) off => off <=? zlen b | Clear _ _ => false | Svp _ _ _ => true end.
Definition out_place (x : abuf outb) : bool :=
  match x with Clear (Out _ _ n) off => off <=? n | Clear _ _ => false | Svp _ _ _ => true end.
Definition in_room (x : abuf inb) : bool := match x with Clear (In b) off => off <? zlen b | Clear _ _ => false | _ => true end.
Definition out_room (x : abuf outb) : bool := match x with Clear (Out _ _ n) off => off <? n | Clear _ _ => false | _ => true end.
Definition is_some {X} (x : option X) : bool := match x with Some _ => true | None => false end.
Definition nonempty {X} (l : list X) : bool := match l with [] => false | _ => true end.

Definition complete (a : app) : bool :=
  match a with
  | KeyGenerate _ _ p => match p with GenNone => false | GenDh p g => given p && given g | _ => true end
  | KeyExport o m _ => match o with OutNull n => n =? 0 | _ => true end && optional m
  | KeyImport f d p => filled d && match p with ImpNone => (f =? 3) || (f =? 4) | _ => true end
  | KeyUnwrap _ type curve alg p _ d => optional d && (negb (type =? 1) || is_some curve) &&
      match p with
      | UnwNone => (alg =? 0) || (alg =? 1) || (alg =? 6)
      | UnwCbc i | UnwCtr i => sized_in i 16
      | UnwGcm i a t => sized_in i 12 && given a && match t with In b => zlen b <=? 16 | _ => false end
      | UnwChacha c n => sized_in c 4 && sized_in n 12
      | UnwPoly n a t => sized_in n 12 && given a && sized_in t 16
      | UnwElgamal s => given s
      | UnwOaep _ _ l => optional l
      end
  | KeyDerive _ _ p =>
      match p with
      | KdfLadder a b c d => (zlen a =? 16) && (zlen b =? 16) && (zlen c =? 16) && (zlen d =? 16)
      | KdfHkdf _ _ _ s i => optional s && optional i
      | KdfConcat _ _ _ i | KdfX963 _ _ _ i | KdfCmac _ _ _ i => optional i
      | KdfNetflix _ _ => true
      end
  | KeyExchange _ alg _ o p => filled o && match p with ExchNone => negb (alg =? 2) | _ => true end
  | CryptoRandom o => match o with Out _ _ n => negb (n =? 0) | _ => false end
  | CipherInit alg _ _ p =>
      match p with
      | CipNone => (alg =? 0) || (alg =? 1) || (alg =? 6) || (alg =? 8)
      | CipCbc i | CipCtr i => given i
      | CipGcm i a | CipPoly i a => given i && optional a
      | CipChacha n c => given n && given c
      | CipOaep _ _ l => optional l
      end
  | CipherUpdateIv _ i => filled i
  | CipherProcess o _ i _ => match o with Some o => out_place o | None => true end && in_place i
  | CipherProcessLast o _ i _ t =>
      match o with Some o => out_place o | None => true end && in_place i && match t with Some (OutNull _) => false | _ => true end
  | MacInit alg _ d => negb (alg =? 1) || is_some d
  | MacProcess _ d => optional d
  | CryptoSign _ alg _ d p => optional d && match p with SigNone => 2 <? alg | _ => true end
  | SvpCreate m _ => negb (m =? 0)
  | SvpWrite _ d l => filled d && nonempty l
  | SvpCopy _ _ l => nonempty l
  | SvpKeyCheck _ i _ e => match i with Clear x _ => filled x | _ => true end && filled e
  | SvpBufferCheck _ _ _ _ h => filled h
  | CommonEncryption s => (zlen (sm_iv s) =? 16) && nonempty (sm_lengths s) && out_room (sm_out s) && in_room (sm_in s)
  | _ => true
  end.

(** The memory a buffer with an offset stands for: from the offset on. *)
Definition from_in (x : abuf inb) : abuf inb :=
  match x with Clear (In b) off => Clear (In (skipn (Z.to_nat off) b)) 0 | _ => x end.
Definition from_out (x : abuf outb) : abuf outb :=
  match x with Clear (Out id o n) off => Clear (Out id (o + off) (n - off)) 0 | _ => x end.
Definition meaning (a : app) : app :=
  match a with
  | CipherProcess o c i n => CipherProcess (option_map from_out o) c (from_in i) n
  | CipherProcessLast o c i n t => CipherProcessLast (option_map from_out o) c (from_in i) n t
  | CommonEncryption s => CommonEncryption (MkSample (sm_iv s) (sm_crypt s) (sm_skip s) (sm_lengths s) (sm_context s)
      (from_out (sm_out s)) (from_in (sm_in s)))
  | _ => a
  end.

(** The results of an answer: how many words each function returns.  A call that was given clear
    memory from the offset on returns how far it got from there. *)
Definition advanced {X} (x : abuf X) (n : Z) : Z := match x with Clear _ off => wrap64 (off + n) | Svp _ _ _ => n end.
Definition results (a : app) (r : reply) : list Z :=
  match a with
  | GetVersion | GetTaUuid | KeyHeader _ | KeyRelease _ | CryptoRandom _ | CipherUpdateIv _ _ | CipherRelease _
  | MacProcess _ _ | MacProcessKey _ _ | MacRelease _ | SvpSupported | SvpWrite _ _ _ | SvpCopy _ _ _
  | SvpBufferCheck _ _ _ _ _ => []
  | KeyExchange _ _ _ _ (ExchNetflix _ _ _) => [word r 0; word r 1; word r 2]
  | CipherProcess out _ inp _ | CipherProcessLast out _ inp _ _ =>
      [word r 0; match out with Some o => advanced o (word r 1) | None => 0 end; advanced inp (word r 2)]
  | SvpRelease _ => [word r 0; word r 1]
  | CommonEncryption s => [advanced (sm_out s) (word r 0); advanced (sm_in s) (word r 1)]
  | _ => [word r 0]
  end.
(** The fields of a key header: magic, rights, type, and for elliptic curves the curve, for
    Diffie-Hellman the parameters; size. *)
Definition header_fields (type : Z) : list (nat * nat) :=
  [(0, 4); (8, 608); (616, 4); (1664, 2)]%nat ++
  (if type =? EC then [(624, 4)]%nat else if type =? DH then [(624, 512); (1136, 8); (1144, 512); (1656, 8)]%nat else []).
Definition same_fields (fs : list (nat * nat)) (x y : bytes) : Prop :=
  Forall (fun f => field x (fst f) (snd f) = field y (fst f) (snd f)) fs.
Definition answers (a : app) (r r' : reply) : Prop :=
  r_status r' = r_status r /\
  (r_status r = OK ->
     r_words r' = results a r /\
     match a with
     | GetVersion => r_bytes r' = fixed 32 (r_bytes r)
     | GetTaUuid => r_bytes r' = fixed 16 (r_bytes r)
     | KeyHeader _ => let h := fixed HEADER_SIZE (r_bytes r) in same_fields (header_fields (w4 h 616)) (r_bytes r') h
     | _ => r_bytes r' = []
     end).

(** The allocator returns blocks of the size asked for, the implementation words of 64 bits. *)
Definition allocator (junk : nat -> nat -> bytes) : Prop := forall k n, length (junk k n) = n.
Definition word_sized (implementation : app -> reply) : Prop := forall a, Forall is_u64 (r_words (implementation a)).

(** A write of a single kind: all entries of the table are equal. *)
Definition uniform (a : app) : Prop :=
  match a with SvpWrite _ _ l => exists s n, l = repeat s n | _ => True end.

(** The implementation is called once, with what the application meant, and its answer comes back. *)
Definition reaches (imp : app -> reply) (junk : nat -> nat -> bytes) (initial : Z) (a : app) : Prop :=
  exists r, lib_call imp junk initial a = Some (r, [meaning a]) /\ answers a (imp (meaning a)) r.
(** The call fails and the implementation is not called. *)
Definition refused (imp : app -> reply) (junk : nat -> nat -> bytes) (initial : Z) (a : app) : Prop :=
  exists st, lib_call imp junk initial a = Some (MkReply st [] [], []) /\ (st = NULL_PARAMETER \/ st = INVALID_PARAMETER).

(** A call with clear memory and offsets, and an implementation that knows it. *)
Definition example_call : app :=
  CipherProcess (Some (Clear (Out 5 100 16) 4)) 3 (Clear (In [10; 11; 12; 13; 14]) 2) 2.
Definition example_answer (a : app) : reply :=
  match a with CipherProcess (Some (Clear (Out 5 104 12) 0)) 3 (Clear (In [12; 13; 14]) 0) 2 => MkReply OK [2; 2; 2] [] | _ => MkReply NULL_PARAMETER [] [] end.
