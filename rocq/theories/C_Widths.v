(** C85 — Tables of sizes reach the implementation as they were given, whatever the width of size_t. *)
From Verif Require Import Base M_Widths S_Widths P_Widths.

(** Where both sides have 64 bits, the lengths of subsamples arrive as given, and nothing else is read. *)
Theorem C85_lengths_partial : forall l behind, lengths_fit W64 l -> arrives_as l (send_lengths W64 W64 l behind).
Proof. exact lengths_64. Qed.
Print Assumptions C85_lengths_partial.
Example C85_lengths_example : lengths_fit W64 [(16, 2 ^ 40); (0, 32)].
Proof. repeat constructor; unfold fits; cbn; lia. Qed.
(** An implementation with 32 bits refuses every sample that has subsamples, whatever the application. *)
Theorem C85_implementation_32_refuted : forall client l behind, l <> [] -> send_lengths client W32 l behind = Refused.
Proof. exact lengths_ta_32. Qed.
Print Assumptions C85_implementation_32_refuted.
(** From an application with 32 bits, an implementation with 64 gets two lengths in one, and reads as much again as the table
    behind it. *)
Theorem C85_application_32_refuted : forall a b l behind, lengths_fit W32 ((a, b) :: l) -> exists second rest,
  send_lengths W32 W64 ((a, b) :: l) behind = Arrives ((a + 2 ^ 32 * b, second) :: rest) (8 * S (length l)).
Proof. exact lengths_client_32. Qed.
Print Assumptions C85_application_32_refuted.
Example C85_application_32_example : send_lengths W32 W64 [(16, 32)] [7; 0; 0; 0; 0; 0; 0; 0] = Arrives [(137438953488, 7)] 8.
Proof. reflexivity. Qed.

(** The offsets of a copy between buffers arrive as given if the implementation has sizes that large. *)
Theorem C85_offsets_partial : forall ta l, offsets_fit ta l -> arrives_as l (send_offsets ta l).
Proof. exact offsets_arrive. Qed.
Print Assumptions C85_offsets_partial.
Example C85_offsets_example : offsets_fit W32 [(0, 16, 16); (16, 0, 4096)].
Proof. repeat constructor; cbn; lia. Qed.
(** If it has not, they are cut, not refused. *)
Theorem C85_offsets_cut_refuted : forall b c, fits W32 b -> fits W32 c -> send_offsets W32 [(2 ^ 32, b, c)] = Arrives [(0, b, c)] 0.
Proof. exact offsets_cut. Qed.
Print Assumptions C85_offsets_cut_refuted.
