(** Concrete SoC containers. *)
From Verif Require Import Base M_ObjectStore M_Memory M_Rights M_Mac M_KeyStore M_Kdf M_Unwrap M_Json M_TypeJ M_Soc
  S_Bytes S_Rights S_Mac S_Unwrap S_Json S_TypeJ S_Soc P_Bytes P_Rights P_Mac P_Unwrap P_Json P_TypeJ P_TypeJ2 P_TypeJ3 P_Soc P_Soc2 P_Soc3 P_Soc4.

(** Documents of 15 bytes mean the header, of 3000 bytes [fs]. *)
Definition soc_head : list (list Z * json) := [(txt "alg", JString (txt "A128GCM"))].
Definition soc_yajl (fs : list (list Z * json)) (l : list Z) : option (list event) :=
  if zlen l =? 15 then Some (events (JObject soc_head)) else if zlen l =? 3000 then Some (events (JObject fs)) else None.
Definition soc_ulib (gcm : list Z -> list Z -> list Z -> list Z -> list Z -> option (list Z)) : ulib :=
  MkUlib (u_ecb toy_ulib) (u_cbc toy_ulib) (u_ctr toy_ulib) gcm (u_chacha toy_ulib) (u_poly toy_ulib) (u_pkcs1 toy_ulib) (u_oaep toy_ulib)
    (u_elgamal toy_ulib) (u_rsa_size toy_ulib) (u_ec_size toy_ulib).
Definition soc_jlib gcm fs : jlib := MkJlib base64 (soc_yajl fs) toy_time P_Mac.toy_lib (soc_ulib gcm).
Definition toy_soc (strict : bool) : soc := MkSoc (fun _ => Some (repeat 7 16)) true (fun _ => [9; 9; 9]) strict (fun _ => repeat 5 16) (toy_e no_junk).
Definition soc_header : list Z := repeat 65 20.
Definition soc_body : list Z := repeat 65 4000.
Definition soc_input (tag : list Z) : list Z := soc_header ++ [46] ++ soc_body ++ [46] ++ encode tag.
Definition soc_toy gcm fs strict tag := import_soc (soc_jlib gcm fs) (toy_e no_junk) (toy_soc strict) (soc_input tag) None.

(** The fields. *)
Definition zeros16 : json := JString (txt "AAAAAAAAAAAAAAAAAAAAAA==").
Definition toy_said (root : list (list Z * json)) (type : list Z) (key iv c1 : json) (tas : json) : list (list Z * json) :=
  [(txt "containerVersion", JInt 5)] ++ root ++ [(txt "keyType", JString type); (txt "encryptedKey", key); (txt "iv", iv); (txt "keyUsage", JInt 1);
   (txt "entitledTaIds", tas); (txt "c1", c1); (txt "c2", zeros16); (txt "c3", zeros16)].
Definition unique_root : list (list Z * json) := [(txt "rootKeyType", JString (txt "unique"))].
Definition iv12 : json := JString (txt "AAAAAAAAAAAAAAAA").
Definition toy_fs := toy_said unique_root (txt "AES-128") zeros16 iv12 zeros16 one_ta.
Definition toy_p : soc_payload := MkPayload 5 1 (txt "AES-128") (repeat 0 16) (repeat 0 12) 1 0 [txt "00112233-4455-6677-8899-aabbccddeeff"]
  (repeat 0 16) (repeat 0 16) (repeat 0 16).
Definition aes : Z * Z * Z * Z := (0, 16, 1, 0).

Definition soc_texts (fs : list (list Z * json)) : Prop :=
  Forall (fun ev => match ev with EString s => zlen s <= 3000 | _ => True end) (events (JObject fs)).
Ltac soc_short := unfold soc_texts; cbn [events flat_map fst snd app List.map]; repeat (apply Forall_cons; [first [exact I|vm_compute; discriminate]|]); apply Forall_nil.
Lemma soc_jgood gcm fs : (forall k i a t l p, gcm k i a t l = Some p -> zlen p = zlen l) -> soc_texts fs -> good_jlib (soc_jlib gcm fs).
Proof.
  intros G H. split; [apply base64_good|]. split.
  { intros l es. cbn. unfold soc_yajl. destruct (_ =? _); [intros X; injection X as <-; now exists (JObject soc_head)|]. destruct (_ =? _); [|discriminate]. intros X. injection X as <-. now exists (JObject fs). }
  split; [apply P_Mac.toy_good|]. split.
  { destruct toy_ugood as (A1 & A2 & A3 & A4 & A5 & A6 & A7 & A8 & A9 & A10). repeat apply conj; try assumption. }
  split.
  - intros l t. cbn. unfold toy_time. destruct (_ =? _); intros X; injection X as <-; lia.
  - intros l es s. cbn [soc_jlib j_yajl]. unfold soc_yajl. destruct (Z.eqb_spec (zlen l) 15) as [->|].
    + intros X Hin. injection X as <-. cbn in Hin. repeat (destruct Hin as [Hin|Hin]; [try discriminate; injection Hin as <-; vm_compute; discriminate|]). destruct Hin.
    + destruct (Z.eqb_spec (zlen l) 3000) as [->|]; [|discriminate]. intros X Hin.
      assert (E : es = events (JObject fs)) by congruence. rewrite E in Hin. unfold soc_texts in H. rewrite Forall_forall in H. apply (H _ Hin).
Qed.
Lemma toy_vgood strict : good_soc (toy_soc strict).
Proof. split; [apply toy_egood; cbn; lia|]. reflexivity. Qed.
Lemma soc_three tag : three_parts (soc_input tag) soc_header soc_body (encode tag).
Proof. split; [reflexivity|]. split; unfold soc_header, soc_body; intros X; apply repeat_spec in X; discriminate. Qed.
Lemma soc_states_head gcm fs : states (soc_jlib gcm fs) soc_header soc_head.
Proof. eexists. split; [exists 0%nat; split; [lia|]; split; [reflexivity|]; vm_compute; reflexivity|]. reflexivity. Qed.
Lemma soc_states_body gcm fs : states (soc_jlib gcm fs) soc_body fs.
Proof. exists (repeat 0 3000). split; [exists 0%nat; split; [lia|]; split; [vm_compute; reflexivity|]; vm_compute; reflexivity|]. reflexivity. Qed.
Lemma soc_says_alg : says soc_head "alg" (JString (txt "A128GCM")).
Proof. exists [], []. split; [reflexivity|intros []]. Qed.
Ltac soc_field fs n := exists (firstn n fs), (skipn (S n) fs); split; [reflexivity|apply not_in_names; vm_compute; reflexivity].
Lemma toy_says gcm fs : fs = toy_fs -> says_plainly (soc_jlib gcm fs) fs toy_p.
Proof.
  intros ->. constructor; cbn [toy_p y_version y_root y_type y_key y_iv y_usage y_child y_tas y_c1 y_c2 y_c3].
  - soc_field toy_fs 0%nat.
  - right. right. left. split; [soc_field toy_fs 1%nat|reflexivity].
  - soc_field toy_fs 2%nat.
  - eexists. split; [soc_field toy_fs 3%nat|]. split; vm_compute; reflexivity.
  - eexists. split; [soc_field toy_fs 4%nat|]. split; vm_compute; reflexivity.
  - soc_field toy_fs 5%nat.
  - discriminate.
  - right. soc_field toy_fs 6%nat.
  - eexists. split; [soc_field toy_fs 7%nat|]. split; vm_compute; reflexivity.
  - eexists. split; [soc_field toy_fs 8%nat|]. exists 0%nat. split; [lia|]. split; vm_compute; reflexivity.
  - eexists. split; [soc_field toy_fs 9%nat|]. split; vm_compute; reflexivity.
Qed.
Lemma toy_documented : documented toy_p aes.
Proof.
  split; [|split; [exists "AES-128"%string; split; [now left|reflexivity]|discriminate]].
  constructor; cbn [toy_p y_version y_root y_type y_key y_iv y_usage y_child y_tas y_c1 y_c2 y_c3]; try lia; try reflexivity.
  - repeat split.
  - split; [cbn; lia|]. repeat constructor.
Qed.

(** An encryption that only knows one text ... *)
Definition one_gcm (k i a t l : list Z) : option (list Z) :=
  if list_eq_dec Z.eq_dec i (y_iv toy_p) then if list_eq_dec Z.eq_dec a (aad_of toy_p) then if list_eq_dec Z.eq_dec l (y_key toy_p) then
    if list_eq_dec Z.eq_dec t (repeat 3 16) then Some (repeat 1 16) else None else None else None else None.
Lemma one_gcm_some k i a t l m : one_gcm k i a t l = Some m -> i = y_iv toy_p /\ a = aad_of toy_p /\ l = y_key toy_p /\ t = repeat 3 16 /\ m = repeat 1 16.
Proof. unfold one_gcm. repeat (destruct (list_eq_dec _ _ _) as [->|]; [|discriminate]). intros X. injection X as <-. repeat split. Qed.
Definition toy_sealed (q : soc_payload) (t : Z * Z * Z * Z) (m : list Z) : Prop := q = toy_p /\ t = aes /\ m = repeat 1 16.
Lemma toy_unforgeable fs strict : unforgeable (soc_jlib one_gcm fs) (toy_soc strict) toy_sealed.
Proof.
  split; [intros q t m (-> & -> & ->); apply toy_documented|]. intros p key iv aad tag c m _ G. apply one_gcm_some in G. destruct G as (-> & -> & -> & _ & ->).
  exists toy_p, aes. repeat split.
Qed.
Lemma one_length k i a t l p : one_gcm k i a t l = Some p -> zlen p = zlen l.
Proof. intros H. apply one_gcm_some in H. destruct H as (_ & _ & -> & _ & ->). reflexivity. Qed.
(** ... one that checks the beginning of a tag, and one that accepts nothing. *)
Definition toy_tag (k i a l : list Z) : list Z := repeat (fold_right Z.add 0 (k ++ i ++ a ++ l) mod 251) 16.
Definition cut_gcm (k i a t l : list Z) : option (list Z) :=
  match t with [] => None | _ => if list_eq_dec Z.eq_dec t (firstn (List.length t) (toy_tag k i a l)) then Some (toy_stream (k ++ i) l) else None end.
Lemma cut_length k i a t l p : cut_gcm k i a t l = Some p -> zlen p = zlen l.
Proof. unfold cut_gcm. destruct t; [discriminate|]. destruct (list_eq_dec _ _ _); [|discriminate]. intros X. injection X as <-. apply toy_stream_length. Qed.
Lemma cut_cuts fs : cuts_tags (j_ulib (soc_jlib cut_gcm fs)).
Proof.
  intros k iv aad c. exists (toy_tag k iv aad c), (toy_stream (k ++ iv) c). split; [reflexivity|].
  split. { apply Forall_forall. intros x X. apply repeat_spec in X. subst x. assert (B := Z.mod_pos_bound (fold_right Z.add 0 (k ++ iv ++ aad ++ c)) 251 ltac:(lia)). lia. }
  split; [apply toy_stream_length|]. intros n H. cbn [soc_jlib j_ulib soc_ulib u_gcm]. unfold cut_gcm.
  assert (L : List.length (firstn n (toy_tag k iv aad c)) = n) by (rewrite firstn_length; unfold toy_tag; rewrite repeat_length; lia).
  rewrite L. destruct (firstn n (toy_tag k iv aad c)) as [|x l] eqn:E; [cbn in L; lia|]. destruct (list_eq_dec _ _ _) as [_|X]; [reflexivity|]. now contradiction X.
Qed.
Definition no_gcm (k i a t l : list Z) : option (list Z) := None.

Lemma toy_works : soc_works (toy_soc false).
Proof. split; [apply toy_quiet|]. now split. Qed.
Lemma toy_texts : soc_texts toy_fs.
Proof. soc_short. Qed.
Lemma one_byte b : 0 <= b < 256 -> url_content base64 (encode [b]) [b] /\ encode [b] <> [].
Proof.
  intros H. split; [|discriminate].
  assert (C : forallb (fun n => match base64 (List.map standard (encode [Z.of_nat n]) ++ repeat 61 2) with Some [x] => x =? Z.of_nat n | _ => false end) (seq 0 256) = true) by (vm_compute; reflexivity).
  rewrite forallb_forall in C. specialize (C (Z.to_nat b)). rewrite Z2Nat.id in C by lia. exists 2%nat. split; [lia|]. split; [reflexivity|].
  destruct (base64 _) as [[|x [|y l]]|]; try (specialize (C ltac:(apply in_seq; lia)); discriminate). f_equal. f_equal. specialize (C ltac:(apply in_seq; lia)). lia.
Qed.

(** ** Harm *)
Lemma soc_harm strict fs i (P : jlib -> list (list Z * json) -> Prop) : soc_texts fs -> P (soc_jlib no_gcm fs) fs -> soc_toy no_gcm fs strict [1] = Failed i -> soc_harmful P strict i.
Proof.
  intros H Q E. exists (soc_jlib no_gcm fs), (toy_e no_junk), (toy_soc strict), (soc_input [1]), soc_header, soc_body, (encode [1]), soc_head, fs.
  split; [apply soc_jgood; [discriminate|exact H]|]. split; [apply toy_egood; cbn; lia|]. split; [apply toy_quiet|]. split; [apply toy_vgood|].
  split; [apply toy_quiet|]. split; [reflexivity|]. split; [reflexivity|]. split; [reflexivity|]. split; [apply soc_three|]. split; [apply soc_states_head|].
  split; [apply soc_says_alg|]. split; [apply soc_states_body|]. split; [exact Q|exact E].
Qed.
Lemma iv_harm : soc_harmful long_iv false BadAccess.
Proof.
  set (fs := toy_said unique_root (txt "AES-128") zeros16 zeros16 zeros16 one_ta).
  apply (soc_harm false fs); [soc_short| |vm_compute; reflexivity].
  eexists. exists (repeat 0 16). split; [soc_field fs 4%nat|]. split; [split; vm_compute; reflexivity|reflexivity].
Qed.
Lemma c1_harm : soc_harmful long_c1 false BadAccess.
Proof.
  set (fs := toy_said unique_root (txt "AES-128") zeros16 iv12 (JString (txt "AAAAAAAAAAAAAAAAAAAAAAAA")) one_ta).
  apply (soc_harm false fs); [soc_short| |vm_compute; reflexivity].
  eexists. exists (repeat 0 18). split; [soc_field fs 7%nat|]. split; [split; vm_compute; reflexivity|reflexivity].
Qed.
Lemma socta_harm : soc_harmful many_tas false BadAccess.
Proof.
  set (tas := repeat (txt "00112233-4455-6677-8899-aabbccddeeff") 33).
  set (fs := toy_said unique_root (txt "AES-128") zeros16 iv12 zeros16 (JArray (List.map JString tas))).
  apply (soc_harm false fs); [soc_short| |vm_compute; reflexivity].
  exists tas. split; [soc_field fs 6%nat|cbn; lia].
Qed.
Lemma type_harm : soc_harmful long_type false BadAccess.
Proof.
  set (fs := toy_said unique_root (repeat 65 1301) zeros16 iv12 zeros16 one_ta).
  apply (soc_harm false fs); [soc_short| |vm_compute; reflexivity].
  eexists. split; [soc_field fs 2%nat|reflexivity].
Qed.
Lemma enckey_harm : soc_harmful bad_key false DoubleFree.
Proof.
  set (fs := toy_said unique_root (txt "AES-128") (JString (txt "!!!!")) iv12 zeros16 one_ta).
  apply (soc_harm false fs); [soc_short| |vm_compute; reflexivity].
  eexists. split; [soc_field fs 3%nat|]. split; vm_compute; reflexivity.
Qed.
Lemma overread_harm : soc_harmful all_documented true BadAccess.
Proof.
  set (fs := toy_said unique_root (txt "CHACHA20-256") (JString (txt "AAAAAAAAAAAAAAAAAAAAAAAAAAAAAAAAAAAAAAAAAAA=")) iv12 zeros16 one_ta).
  apply (soc_harm true fs); [soc_short| |vm_compute; reflexivity].
  exists (MkPayload 5 1 (txt "CHACHA20-256") (repeat 0 32) (repeat 0 12) 1 0 [txt "00112233-4455-6677-8899-aabbccddeeff"] (repeat 0 16) (repeat 0 16) (repeat 0 16)), (0, 32, 3, 0).
  split.
  - constructor; cbn [y_version y_root y_type y_key y_iv y_usage y_child y_tas y_c1 y_c2 y_c3].
    + soc_field fs 0%nat.
    + right. right. left. split; [soc_field fs 1%nat|reflexivity].
    + soc_field fs 2%nat.
    + eexists. split; [soc_field fs 3%nat|]. split; vm_compute; reflexivity.
    + eexists. split; [soc_field fs 4%nat|]. split; vm_compute; reflexivity.
    + soc_field fs 5%nat.
    + discriminate.
    + right. soc_field fs 6%nat.
    + eexists. split; [soc_field fs 7%nat|]. split; vm_compute; reflexivity.
    + eexists. split; [soc_field fs 8%nat|]. exists 0%nat. split; [lia|]. split; vm_compute; reflexivity.
    + eexists. split; [soc_field fs 9%nat|]. split; vm_compute; reflexivity.
  - split; [|split; [exists "CHACHA20-256"%string; split; [right; right; now left|reflexivity]|discriminate]].
    constructor; cbn [y_version y_root y_type y_key y_iv y_usage y_child y_tas y_c1 y_c2 y_c3]; try lia; try reflexivity.
    + repeat split.
    + split; [cbn; lia|]. repeat constructor.
Qed.

(** ** Cases *)
Lemma soc_genuine_case : exists k, good_jlib (soc_jlib one_gcm toy_fs) /\ good_surroundings (toy_e no_junk) /\ good_soc (toy_soc false) /\ zlen (soc_input (repeat 3 16)) < 2 ^ 30 - 4 /\
  soc_toy one_gcm toy_fs false (repeat 3 16) = Made k /\ k_size k = 16 /\ k_bytes k = repeat 1 16 /\ unforgeable (soc_jlib one_gcm toy_fs) (toy_soc false) toy_sealed.
Proof.
  assert (exists k, soc_toy one_gcm toy_fs false (repeat 3 16) = Made k /\ (k_size k =? 16) = true /\ (if list_eq_dec Z.eq_dec (k_bytes k) (repeat 1 16) then true else false) = true) as (k & K & S & B).
  { eexists. split; [vm_compute; reflexivity|]. split; vm_compute; reflexivity. }
  exists k. split; [apply soc_jgood; [apply one_length|apply toy_texts]|]. split; [apply toy_egood; cbn; lia|]. split; [apply toy_vgood|].
  split; [vm_compute; reflexivity|]. split; [exact K|]. split; [lia|]. split; [|apply toy_unforgeable]. now destruct (list_eq_dec _ _ _).
Qed.
Lemma soc_tidy_case fs : states (soc_jlib one_gcm toy_fs) soc_body fs -> soc_tidy (soc_jlib one_gcm toy_fs) (toy_soc true) fs.
Proof.
  intros (doc & (k & Hk & M & D) & Y). cbn [soc_jlib j_bio j_yajl] in *.
  assert (k = 0%nat) as ->. { change (zlen soc_body) with 4000 in M. destruct k as [|[|[|[|k]]]]; [reflexivity|discriminate|discriminate|discriminate|lia]. }
  assert (doc = repeat 0 3000) as ->. { assert (X : base64 (List.map standard soc_body ++ repeat 61 0) = Some (repeat 0 3000)) by (vm_compute; reflexivity). congruence. }
  assert (fs = toy_fs) as ->.
  { assert (X : JObject fs = JObject toy_fs); [|congruence]. apply events_one; [vm_compute; reflexivity|discriminate|]. unfold soc_yajl in Y.
    change (zlen (repeat 0 3000) =? 15) with false in Y. change (zlen (repeat 0 3000) =? 3000) with true in Y. congruence. }
  constructor.
  - intros j F. apply find_iff in F. exists (txt "unique"). split; [apply tree_one; vm_compute in F; vm_compute; congruence|]. right. vm_compute. discriminate.
  - intros text F. assert (X := proj2 (string_go toy_fs "keyType" text) F). vm_compute in X. injection X as <-. split; [right|]; vm_compute; discriminate.
  - intros j F. apply find_iff in F. exists (txt "AAAAAAAAAAAAAAAAAAAAAA=="), (repeat 0 16). split; [apply tree_one; vm_compute in F; vm_compute; congruence|]. split; vm_compute; reflexivity.
  - intros text F. assert (X := proj2 (string_go toy_fs "iv" text) F). vm_compute in X. injection X as <-. exists (repeat 0 12). split; [split; vm_compute; reflexivity|vm_compute; discriminate].
  - intros text F. assert (X := proj2 (string_go toy_fs "c1" text) F). vm_compute in X. injection X as <-. exists (repeat 0 16). split; [split; vm_compute; reflexivity|vm_compute; discriminate].
  - intros text F. assert (X := proj2 (string_go toy_fs "c2" text) F). vm_compute in X. injection X as <-. exists (repeat 0 16). split; [exists 0%nat; split; [lia|]; split; vm_compute; reflexivity|vm_compute; discriminate].
  - intros text F. assert (X := proj2 (string_go toy_fs "c3" text) F). vm_compute in X. injection X as <-. exists (repeat 0 16). split; [split; vm_compute; reflexivity|vm_compute; discriminate].
  - intros l F. apply find_iff in F. exists [txt "00112233-4455-6677-8899-aabbccddeeff"]. split; [|cbn; lia].
    assert (X : JArray l = JArray (List.map JString [txt "00112233-4455-6677-8899-aabbccddeeff"])); [|congruence]. apply tree_one. vm_compute in F. vm_compute. congruence.
Qed.
