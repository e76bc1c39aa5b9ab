(** C74: the root keys and the device id are those of the keystore. *)
From Verif Require Import Base M_RootKey S_RootKey P_RootKey.

(** In every secret bag, whatever its type, secret and attributes and however long, the secret is found. *)
Theorem C74_secret_found : forall oid type secret attributes, zlen (secret_bag oid type secret attributes) < 2 ^ 31 ->
  scan (secret_bag oid type secret attributes) = Found secret.
Proof. exact scan_finds. Qed.
Print Assumptions C74_secret_found.
(** False: that in other bags nothing is read but the bag: here the value is an OCTET STRING. *)
Theorem C74_other_secret_refuted : scan (item 48 (item 6 [42; 3] ++ item 160 (item 4 [7]) ++ item 49 [])) = BeyondEnd.
Proof. exact other_secret. Qed.
Print Assumptions C74_other_secret_refuted.

(** With one safe, and names none of which is longer than the one before, the device's key and id are found after any
    number of common ones, and the common key after any number of devices' keys. *)
Theorem C74_root_found_partial : forall pre b post w, w_dead w = false -> r_length w = 0 ->
  Forall (fun x => exists k, common x k) pre -> fits 16 (pre ++ [b]) ->
  forall n k, device b n k -> number n <> 0 ->
  exists w', step (GetRoot (Some [Data (Some (pre ++ b :: post))])) w = (w', Key k) /\ w_dead w' = false /\ w_id w' = number n /\
    r_length w' = 16 /\ firstn 16 (r_key w') = k /\ c_length w' = c_length w /\ c_key w' = c_key w.
Proof. exact root_found. Qed.
Print Assumptions C74_root_found_partial.
Theorem C74_common_found_partial : forall pre b post w, w_dead w = false -> c_length w = 0 ->
  Forall (fun x => exists n k, device x n k) pre -> fits 50 (pre ++ [b]) ->
  forall k, common b k ->
  exists w', step (GetCommon (Some [Data (Some (pre ++ b :: post))])) w = (w', Key k) /\ w_dead w' = false /\ w_id w' = w_id w /\
    c_length w' = 16 /\ firstn 16 (c_key w') = k /\ r_length w' = r_length w /\ r_key w' = r_key w.
Proof. exact common_found. Qed.
Print Assumptions C74_common_found_partial.

(** In every history of calls with a proper keystore each call gets its key or id. *)
Theorem C74_proper_partial : forall name key ckey l, Forall (fun o => proper name key ckey (store_of o)) l ->
  snd (run l start) = map (right name key ckey) l.
Proof. exact proper_run. Qed.
Print Assumptions C74_proper_partial.
(** Whatever the keystore is then: a root key once given does not change. *)
Theorem C74_root_stays : forall w k ks l ks', snd (step (GetRoot ks) w) = Key k -> k <> [] ->
  let a := snd (step (GetRoot ks') (fst (run l (fst (step (GetRoot ks) w))))) in a = Key k \/ a = Crash.
Proof. exact root_cached. Qed.
Print Assumptions C74_root_stays.

(** False: that the keys are found whatever their order. *)
Theorem C74_order_refuted : snd (run [GetRoot (one [com; dev]); GetRoot (one [com; dev]); DeviceId (one [com; dev])] start) = [Failed; Key dk; Id 0].
Proof. exact order_matters. Qed.
Print Assumptions C74_order_refuted.
(** False: that a device without a root key has none: from the second call on it is the common one. *)
Theorem C74_common_as_root_refuted : snd (run [GetRoot (one [com]); GetRoot (one [com])] start) = [Failed; Key ck].
Proof. exact common_as_root. Qed.
Print Assumptions C74_common_as_root_refuted.
(** False: that the key is that of the bag asked for: with two safes the common root key is the device's. *)
Theorem C74_two_safes_refuted : snd (run [GetCommon (Some [Data (Some [com]); Data (Some [dev])])] start) = [Key dk].
Proof. exact two_safes. Qed.
Print Assumptions C74_two_safes_refuted.
(** False: that keystores with keys of 256 bits, or with safes of other types, are refused. *)
Theorem C74_long_key_refuted : snd (run [GetRoot (one [MkBag (Some DEV) (Some (repeat 1 32))])] start) = [Crash].
Proof. exact long_key. Qed.
Print Assumptions C74_long_key_refuted.
Theorem C74_other_safe_refuted : snd (run [GetRoot (Some [Data (Some [dev; com]); OtherType])] start) = [Crash].
Proof. exact other_safe. Qed.
Print Assumptions C74_other_safe_refuted.
(** False: that bags without a secret, or ids that are none, are refused. *)
Theorem C74_no_secret_refuted : snd (run [GetRoot (one [MkBag (Some DEV) None]); GetCommon (one [MkBag None None])] start) = [Key []; Key []].
Proof. exact no_secret. Qed.
Print Assumptions C74_no_secret_refuted.
Theorem C74_refused_once_refuted : snd (run [GetRoot (one [MkBag (Some [120; 121]) (Some dk)]); GetRoot None] start) = [Failed; Key dk].
Proof. exact refused_once. Qed.
Print Assumptions C74_refused_once_refuted.
(** False: that threads may ask at the same time: one that asks for the common root key while another loads it gets the device's. *)
Theorem C74_threads_refuted : snd (common_during [dev; com] 1 start) = Key dk /\ snd (step (GetCommon (one [dev; com])) start) = Key ck.
Proof. exact during. Qed.
Print Assumptions C74_threads_refuted.

(** The hypotheses are met. *)
Example C74_example :
  proper DEV dk ck (one [dev; com]) /\ number DEV = 2 ^ 64 - 1 /\
  snd (run [DeviceId (one [dev; com]); GetCommon (one [dev; com]); GetRoot None; GetCommon None] start) = [Id (2 ^ 64 - 1); Key ck; Key dk; Key ck] /\
  device (MkBag (Some [97; 66; 48]) (Some dk)) [97; 66; 48] dk /\ number [97; 66; 48] = 2736 /\
  fits 16 ([com; com] ++ [MkBag (Some [97; 66; 48]) (Some dk)]) /\ fits 50 ([dev; dev] ++ [com]) /\
  snd (step (GetRoot (one [com; com; MkBag (Some [97; 66; 48]) (Some dk)])) start) = Key dk /\
  scan (secret_bag [42; 3] (repeat 5 300) (repeat 9 200) [49; 0]) = Found (repeat 9 200) /\
  zlen (secret_bag [42; 3] (repeat 5 300) (repeat 9 200) [49; 0]) = 528.
Proof.
  split. { exists dev, com, []. repeat split; try reflexivity; try (vm_compute; congruence). repeat constructor; vm_compute; congruence. }
  split; [reflexivity|]. split; [reflexivity|]. split. { repeat split; try (vm_compute; congruence). repeat constructor; vm_compute; congruence. }
  split; [reflexivity|]. split; [vm_compute; intuition congruence|]. split; [vm_compute; intuition congruence|]. split; [reflexivity|]. split; reflexivity.
Qed.
