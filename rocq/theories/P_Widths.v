From Verif Require Import Base M_KeyStore P_KeyStore M_Widths S_Widths.

Lemma app_first : forall (a b : list Z) n, length a = n -> firstn n (a ++ b) = a.
Proof. intros a b n <-. rewrite firstn_app, Nat.sub_diag, firstn_all, firstn_O, app_nil_r. reflexivity. Qed.
Lemma app_skip : forall (a b : list Z) n, length a = n -> skipn n (a ++ b) = b.
Proof. intros a b n <-. rewrite skipn_app, Nat.sub_diag, skipn_all. reflexivity. Qed.
Lemma fits_num : forall w x, fits w x -> le_num (le_bytes 8 x) = x.
Proof. intros w x [A B]. apply le_num_bytes. split; auto. destruct w; cbn in *; lia. Qed.
Lemma fits_size : forall w x, fits w x -> to_size w x = x.
Proof. intros w x [A B]. unfold to_size. apply Z.mod_small. lia. Qed.

Lemma length_in_memory : forall w l, length (in_memory w l) = (2 * octets w * length l)%nat.
Proof.
  intros w l. unfold in_memory. induction l as [|p l IH]; cbn -[le_bytes octets Nat.mul]; [lia|].
  rewrite !app_length, !le_bytes_length, IH. lia.
Qed.
Lemma read_given : forall l, lengths_fit W64 l -> read_lengths W64 (length l) (in_memory W64 l) = l.
Proof.
  induction l as [|[a b] l IH]; intros F; [reflexivity|]. inversion F as [|? ? [Fa Fb] Fl]; subst. cbn [fst snd] in *.
  unfold in_memory. cbn [map concat length read_lengths octets fst snd]. 
  change (concat (map (fun p : Z * Z => le_bytes 8 (fst p) ++ le_bytes 8 (snd p)) l)) with (in_memory W64 l).
  rewrite <- !app_assoc. rewrite app_first by apply le_bytes_length. rewrite app_skip by apply le_bytes_length.
  rewrite app_first by apply le_bytes_length.
  replace (skipn 16 (le_bytes 8 a ++ le_bytes 8 b ++ in_memory W64 l)) with (in_memory W64 l).
  2:{ rewrite app_assoc. symmetry. apply app_skip. rewrite app_length, !le_bytes_length. reflexivity. }
  rewrite !(fits_num W64), !fits_size by auto. rewrite IH by auto. reflexivity.
Qed.
Lemma lengths_64 : forall l behind, lengths_fit W64 l -> arrives_as l (send_lengths W64 W64 l behind).
Proof.
  intros l behind F. unfold arrives_as, send_lengths. rewrite length_in_memory. cbn [octets].
  replace (length l * 16)%nat with (2 * 8 * length l)%nat by lia. rewrite Nat.eqb_refl. cbn [negb].
  rewrite Nat.sub_diag, app_first by apply (length_in_memory W64). now rewrite read_given.
Qed.
Lemma lengths_ta_32 : forall client l behind, l <> [] -> send_lengths client W32 l behind = Refused.
Proof.
  intros client l behind N. unfold send_lengths. cbn [octets].
  rewrite (proj2 (Nat.eqb_neq _ _)); [reflexivity|]. destruct l; [contradiction|]. cbn [length]. lia.
Qed.
Lemma le_num_app : forall a b, le_num (a ++ b) = le_num a + 256 ^ Z.of_nat (length a) * le_num b.
Proof.
  induction a as [|x a IH]; intros b; [cbn [app length le_num Z.of_nat]; lia|].
  cbn [app le_num length]. rewrite IH, Nat2Z.inj_succ, Z.pow_succ_r by lia. lia.
Qed.
Lemma lengths_client_32 : forall a b l behind, lengths_fit W32 ((a, b) :: l) -> exists second rest,
  send_lengths W32 W64 ((a, b) :: l) behind = Arrives ((a + 2 ^ 32 * b, second) :: rest) (8 * S (length l)).
Proof.
  intros a b l behind F. inversion F as [|? ? [Fa Fb] Fl]; subst. cbn [fst snd] in *.
  unfold send_lengths. rewrite length_in_memory. cbn [length octets].
  replace (S (length l) * 16)%nat with (2 * 8 * S (length l))%nat by lia. rewrite Nat.eqb_refl. cbn [negb].
  replace (2 * 8 * S (length l) - 2 * 4 * S (length l))%nat with (8 * S (length l))%nat by lia.
  cbn [read_lengths]. rewrite firstn_firstn. replace (Nat.min 8 (2 * 8 * S (length l))) with 8%nat by lia.
  replace (firstn 8 (in_memory W32 ((a, b) :: l) ++ behind)) with (le_bytes 4 a ++ le_bytes 4 b).
  2:{ unfold in_memory. cbn [map concat octets fst snd]. rewrite <- !app_assoc. rewrite (app_assoc (le_bytes 4 a)).
      symmetry. apply app_first. rewrite app_length, !le_bytes_length. reflexivity. }
  rewrite le_num_app, le_bytes_length, !le_num_bytes by (destruct Fa, Fb; cbn in *; lia).
  change (256 ^ Z.of_nat 4) with (2 ^ 32). rewrite fits_size by (destruct Fa, Fb; cbn in *; split; cbn; lia).
  eexists _, _. reflexivity.
Qed.

Lemma length_offsets : forall l, length (concat (map offset_s l)) = (24 * length l)%nat.
Proof.
  induction l as [|[[a b] c] l IH]; [reflexivity|]. cbn [map concat length]. rewrite app_length, IH. unfold offset_s.
  rewrite !app_length, !le_bytes_length. lia.
Qed.
Definition cut (w : width) (o : offset) : offset := let '(a, b, c) := o in (to_size w a, to_size w b, to_size w c).
Lemma read_offsets_given : forall w l, offsets_fit W64 l -> read_offsets w (length l) (concat (map offset_s l)) = map (cut w) l.
Proof.
  induction l as [|[[a b] c] l IH]; intros F; [reflexivity|]. inversion F as [|? ? H Fl]; subst. cbv beta iota in H. destruct H as (Fa & Fb & Fc).
  cbn [map concat length read_offsets offset_s cut]. set (t := concat (map offset_s l)) in *.
  rewrite <- !app_assoc. rewrite app_first by apply le_bytes_length.
  rewrite (app_skip (le_bytes 8 a)) by apply le_bytes_length. rewrite app_first by apply le_bytes_length.
  replace (skipn 16 (le_bytes 8 a ++ le_bytes 8 b ++ le_bytes 8 c ++ t)) with (le_bytes 8 c ++ t).
  2:{ rewrite (app_assoc (le_bytes 8 a)). symmetry. apply app_skip. rewrite app_length, !le_bytes_length. reflexivity. }
  rewrite app_first by apply le_bytes_length.
  replace (skipn 24 (le_bytes 8 a ++ le_bytes 8 b ++ le_bytes 8 c ++ t)) with t.
  2:{ rewrite (app_assoc (le_bytes 8 b)), (app_assoc (le_bytes 8 a)). symmetry. apply app_skip. rewrite !app_length, !le_bytes_length. reflexivity. }
  rewrite !(fits_num W64) by auto. rewrite IH by auto. reflexivity.
Qed.
Lemma offsets_sent : forall ta l, offsets_fit W64 l -> send_offsets ta l = Arrives (map (cut ta) l) 0.
Proof.
  intros ta l F. unfold send_offsets. rewrite length_offsets, Nat.mul_comm, Nat.div_mul by lia.
  now rewrite read_offsets_given.
Qed.
Lemma fits_wide : forall w x, fits w x -> fits W64 x.
Proof. intros w x [A B]. split; auto. destruct w; cbn in *; lia. Qed.
Lemma offsets_arrive : forall ta l, offsets_fit ta l -> arrives_as l (send_offsets ta l).
Proof.
  intros ta l F. unfold arrives_as. rewrite offsets_sent.
  - f_equal. induction F as [|[[a b] c] l (Fa & Fb & Fc) F IH]; [reflexivity|]. cbn [map cut]. rewrite IH, !fits_size by auto. reflexivity.
  - eapply Forall_impl; [|exact F]. intros [[a b] c] (Fa & Fb & Fc). repeat split; try apply (fits_wide ta); auto; apply Fa || apply Fb || apply Fc.
Qed.
Lemma offsets_cut : forall b c, fits W32 b -> fits W32 c -> send_offsets W32 [(2 ^ 32, b, c)] = Arrives [(0, b, c)] 0.
Proof.
  intros b c B C. rewrite offsets_sent.
  - cbn [map cut]. rewrite !(fits_size W32 b), !(fits_size W32 c) by auto. reflexivity.
  - constructor; [|constructor]. split; [split; cbn; lia|]. split; now apply (fits_wide W32).
Qed.
