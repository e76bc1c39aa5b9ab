(** Examples for encryption with the provider, and where it fails. *)
From Verif Require Import Base S_Bytes M_Rights M_Mac M_Unwrap M_Asym S_Rights S_Unwrap S_Asym P_Kdf P_Unwrap P_Asym P_Asym2 M_ProvSign S_ProvSign P_ProvSign P_ProvSignRuns M_ProvAsym S_ProvAsym P_ProvAsym.

(** ** A library *)
Definition frame (tag : Z) (msg : list Z) : option (list Z) :=
  if zlen msg <=? 100 then Some (tag :: zlen msg :: msg ++ repeat 0 (126 - length msg)) else None.
Definition unframe (tag : Z) (l : list Z) : option (list Z) :=
  match l with t :: n :: r => if t =? tag then Some (firstn (Z.to_nat n) r) else None | _ => None end.
Definition oaep_tag (d m : Z) (label : list Z) : Z := 1000 + 10000 * d + 100000 * m + fold_right Z.add 0 label.
Definition flib : ulib := MkUlib (u_ecb toy_ulib) (u_cbc toy_ulib) (u_ctr toy_ulib) (u_gcm toy_ulib) (u_chacha toy_ulib) (u_poly toy_ulib)
  (fun _ l => unframe 2 l) (fun _ d m label l => if digest_ok d && digest_ok m then unframe (oaep_tag d m label) l else None)
  (u_elgamal toy_ulib) (fun _ => 128) (u_ec_size toy_ulib).
Definition fenc : elib := fun s _ msg _ =>
  match s with
  | EPkcs1 => frame 2 msg
  | ENone => if zlen msg =? 128 then Some msg else None
  | EOaep d m label => if digest_ok d && digest_ok m then frame (oaep_tag d m label) msg else None
  end.
Lemma unframe_frame tag msg text : frame tag msg = Some text -> unframe tag text = Some msg /\ zlen text = 128.
Proof.
  unfold frame. destruct (Z.leb_spec (zlen msg) 100); [|discriminate]. intros H0.
  assert (E : text = tag :: zlen msg :: msg ++ repeat 0 (126 - length msg)) by congruence. clear H0. subst text. split.
  - unfold unframe. rewrite Z.eqb_refl. now rewrite firstn_zlen.
  - unfold zlen in *. set (z := 126%nat). assert (z = 126%nat) by reflexivity. clearbody z. cbn [length]. rewrite app_length, repeat_length. lia.
Qed.
Lemma unframe_length tag l p : unframe tag l = Some p -> zlen p <= zlen l.
Proof.
  destruct l as [|t [|n r] ]; try discriminate. cbn. destruct (t =? tag); [|discriminate]. intros H. injection H as <-. unfold zlen. rewrite firstn_length. cbn [length]. lia.
Qed.
Lemma flib_good : good_ulib flib.
Proof.
  destruct toy_ugood as (A & B & C & D & E & F & _ & _ & G & _). unfold good_ulib. cbn [flib u_ecb u_cbc u_ctr u_gcm u_chacha u_poly u_pkcs1 u_oaep u_elgamal u_rsa_size].
  repeat (split; [first [assumption | intros k l p; apply unframe_length | intros k d m b l p; destruct (digest_ok d && digest_ok m); [apply unframe_length|discriminate] ]|]).
  intros _. lia.
Qed.
Lemma flib_refuses : refuses_unknown flib.
Proof.
  intros key d m label text [H|H]; cbn; destruct (digest_ok d) eqn:D; cbn; try reflexivity; destruct (digest_ok m) eqn:M; cbn; try reflexivity; exfalso; apply H; now apply digest_ok_iff.
Qed.
Lemma fenc_good : good_elib mlib flib fenc.
Proof.
  constructor.
  - intros key msg coins text H. now apply unframe_frame in H.
  - intros key d m label msg coins text H. cbn in *. destruct (digest_ok d && digest_ok m); [|discriminate]. now apply unframe_frame in H.
  - intros s key msg coins text H. cbn. destruct s; cbn in H.
    + now apply unframe_frame in H.
    + destruct (Z.eqb_spec (zlen msg) 128); congruence.
    + destruct (digest_ok digest && digest_ok mgf1); [|discriminate]. now apply unframe_frame in H.
Qed.
Definition small_pair : stored_key :=
  MkKey (MkRights (repeat 0 64) (2 ^ 13 - 1) 0 0 (2 ^ 60) []) 2 no_params 128 [6; 1024; 9].
Lemma small_rsa : rsa_key flib small_pair.
Proof. split; [reflexivity|]. split; [constructor; cbn; tauto|reflexivity]. Qed.
Lemma small_data : data_of mlib small_pair (kd_of small_pair).
Proof. repeat split. Qed.
Lemma small_may : may_decrypt_clear small_pair 5.
Proof. repeat split; vm_compute; (discriminate || reflexivity). Qed.
Definition opened (o : aparams) : acx := snd (crypt_init new_acx (kd_of small_pair) o).
Definition oaep_with (md mgf1 : option Z) (label : list Z) : acx :=
  opened (MkAp (option_map Some md) (Some (AName (Some 4))) (option_map Some mgf1) (Some label)).
Definition room : list Z := repeat 0 128.

Lemma oaep_case : let c := oaep_with (Some 1) (Some 1) [7; 8] in settled c /\ asked c = Some (DOaep 1 1 [7; 8]) /\
  exists out, asym_encrypt fenc c (Some room) [5; 6; 7] 0 false = ADone 1 out (Some 128) /\
    asym_decrypt flib c 5 (Some room) out true true = Some (ADone 1 ([5; 6; 7] ++ repeat 0 125) (Some 3)).
Proof.
  cbv zeta. split; [right; split; [reflexivity|]; exists 1; repeat split; [right; left; reflexivity|right; reflexivity]|]. split; [reflexivity|].
  eexists. split; vm_compute; reflexivity.
Qed.

(** ** Where it fails *)
(** The digest for MGF1 is not used. *)
Lemma mgf1_ignored : exists L U E k kd c alg text, good_elib L U E /\ good_ulib U /\ rsa_key U k /\ data_of L k kd /\ x_key c = Some kd /\ may_decrypt_clear k 5 /\
  asked c = Some alg /\ asym_encrypt E c (Some room) [5; 6; 7] 0 true = ADone 1 text (Some 128) /\ decrypt_with U alg k text = None /\
  exists text', decryption_of U alg k text' [5; 6; 7] /\ zlen text' = 128 /\ asym_decrypt U c 5 (Some room) text' true true = Some (ADone 0 room None).
Proof.
  exists mlib, flib, fenc, small_pair, (kd_of small_pair), (oaep_with (Some 0) (Some 1) []), (DOaep 0 1 []). eexists.
  split; [exact fenc_good|]. split; [exact flib_good|]. split; [exact small_rsa|]. split; [exact small_data|]. split; [reflexivity|]. split; [exact small_may|].
  split; [reflexivity|]. split; [vm_compute; reflexivity|]. split; [vm_compute; reflexivity|].
  exists (oaep_tag 0 1 [] :: 3 :: [5; 6; 7] ++ repeat 0 123). split; [vm_compute; reflexivity|]. split; vm_compute; reflexivity.
Qed.
(** Without a digest nothing decrypts, although the default is a digest of the API. *)
Lemma never U c k kd now buf text ok answer : refuses_unknown U -> good_ulib U -> rsa_key U k -> x_key c = Some kd -> d_private kd = Some k -> x_pad c = 4 ->
  (x_md c = None /\ x_mgf1 c = None) \/ (exists d, x_md c = Some d /\ ~ known_digest d) ->
  asym_decrypt U c now (Some buf) text ok answer = Some (ADone 0 buf None).
Proof.
  intros RU GU RK CK DP P H. destruct (decrypt_general U c k kd now buf text ok answer GU RK CK DP) as (ret & b & n & -> & F & I & _).
  assert (N : ret <> 1).
  { intros R. apply I in R as (_ & _ & _ & _ & _ & msg & D). unfold decrypt_alg in D. rewrite P in D. change (4 =? RSA_OAEP) with true in D. cbv iota in D. cbn [decryption_of] in D.
    rewrite RU in D; [discriminate|]. unfold oaep_mgf1_md, oaep_md. destruct H as [ [-> ->]|(d & -> & K)].
    - right. cbn. unfold known_digest, NO_DIGEST. cbn. lia.
    - left. cbn. destruct (digest_ok d) eqn:E; [apply digest_ok_iff in E; contradiction|]. unfold known_digest, NO_DIGEST. cbn. lia. }
  destruct (F N) as (-> & -> & ->). reflexivity.
Qed.
Lemma default_case : let c := oaep_with None None [] in asked c = Some (DOaep 0 0 []) /\
  exists text, asym_encrypt fenc c (Some room) [5; 6; 7] 0 true = ADone 1 text (Some 128) /\ decryption_of flib (DOaep 0 0 []) small_pair text [5; 6; 7].
Proof. cbv zeta. split; [reflexivity|]. eexists. split; vm_compute; reflexivity. Qed.
(** Without padding the padding is taken away nevertheless. *)
Lemma no_padding : exists L U E k kd c msg text buf, good_elib L U E /\ good_ulib U /\ rsa_key U k /\ data_of L k kd /\ x_key c = Some kd /\ x_pad c = RSA_NONE /\
  asym_encrypt E c (Some room) msg 0 true = ADone 1 text (Some 128) /\ asym_decrypt U c 5 (Some room) text true true = Some (ADone 1 buf (Some 3)) /\ zlen msg = 128.
Proof.
  exists mlib, flib, fenc, small_pair, (kd_of small_pair), (opened (MkAp None (Some (ANumber 3)) None None)), (2 :: 3 :: repeat 9 126). do 2 eexists.
  split; [exact fenc_good|]. split; [exact flib_good|]. split; [exact small_rsa|]. split; [exact small_data|]. split; [reflexivity|]. split; [reflexivity|].
  split; [vm_compute; reflexivity|]. split; vm_compute; reflexivity.
Qed.
(** A padding of another name is accepted, then every text is taken for PKCS#1 v1.5. *)
Lemma name_accepted c : exists c', set_aparams c (MkAp None (Some (AName None)) None None) = (true, c') /\ asked c' = None /\ decrypt_alg c' = DPkcs1.
Proof. eexists. split; [reflexivity|]. split; reflexivity. Qed.
(** A digest that does not exist takes the place of the one there was. *)
Lemma digest_lost c d : x_md c = Some d -> exists c', set_aparams c (MkAp (Some None) None None None) = (false, c') /\ x_md c' = None.
Proof. intros _. eexists. split; reflexivity. Qed.
(** A copy never has the label, and mostly there is none. *)
Lemma copies c fresh : match dup_acx c fresh with
  | None => x_key c = None \/ x_md c = None \/ x_mgf1 c = None
  | Some None => x_label c = []
  | Some (Some c') => x_label c <> [] /\ x_label c' = fresh
  end.
Proof.
  unfold dup_acx. destruct (x_key c), (x_md c), (x_mgf1 c); auto. destruct (x_label c) eqn:E; [reflexivity|]. split; [discriminate|reflexivity].
Qed.
Lemma copy_differs : exists c c' fresh, settled c /\ zlen fresh = zlen (x_label c) /\ dup_acx c fresh = Some (Some c') /\ settings_of c' <> settings_of c.
Proof.
  exists (oaep_with (Some 1) (Some 1) [7; 8]). eexists. exists [0; 0]. split; [right; split; [reflexivity|]; exists 1; repeat split; [right; left; reflexivity|right; reflexivity]|].
  split; [reflexivity|]. split; [reflexivity|]. discriminate.
Qed.
