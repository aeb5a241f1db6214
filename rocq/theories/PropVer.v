(** Theorems about version information (C54, C55). *)
From Verif Require Import ManagerFacts VerFacts VerRound VerRead VerFormat.
From Verif Require Import SpecVerAny VerAny.

(** C54. A version block below 65536 bytes is written with the size its padded parts add up to, and reads back as what was written. *)
Theorem C54_round_trip : forall i s t, info_ok i -> tables_ok s -> translations_ok t -> block_bytes s t < 65536 ->
  exists d, version_data i s t = Ok d /\ zlen d = block_bytes s t /\ version_info d = Ok (i, (s, t)).
Proof. exact version_round. Qed.
Print Assumptions C54_round_trip.
(** C54. In a resource tree: get_version_info after set_version_info returns what was set, all other resources are as before, and
    after remove_version_info there is none. *)
Theorem C54_in_the_tree : forall tree i s t language codepage timestamp,
  three_levels tree -> info_ok i -> tables_ok s -> translations_ok t -> block_bytes s t < 65536 ->
  exists tree', set_version_info tree i s t language codepage timestamp = Ok tree' /\ three_levels tree' /\ version_info_by_lang tree' language = Ok (i, (s, t)) /\
    (forall r n l, r <> Ided 16 \/ n <> Ided 1 \/ l <> language -> resource_data tree' l r n = resource_data tree l r n) /\
    exists tree'', remove_version_info tree' language = Ok (tree'', true) /\ version_info_by_lang tree'' language = Throw resource_directory_entry_not_found.
Proof. exact version_tree. Qed.
Print Assumptions C54_in_the_tree.
Example C54_met : three_levels sample_tree /\ info_ok sample_info /\ tables_ok sample_strings /\ translations_ok sample_trans /\ block_bytes sample_strings sample_trans < 65536.
Proof. split; [exact sample_tree_ok|exact sample_version_ok]. Qed.
(** C54. What is written is the documented format, byte for byte, and data in that format reads as what it describes. *)
Theorem C54_format : forall i s t, zlen (version_format i s t) < 65536 ->
  version_data i s t = Ok (version_format i s t) /\ (info_ok i -> tables_ok s -> translations_ok t -> version_info (version_format i s t) = Ok (i, (s, t))).
Proof. intros i s t H. split; [exact (format_written i s t H)|intros A B C; exact (format_read i s t A B C H)]. Qed.
Print Assumptions C54_format.
Example C54_format_met : zlen (version_format sample_info sample_strings sample_trans) < 65536 /\ sample_strings <> [] /\ sample_trans <> [].
Proof. split; [vm_compute; reflexivity|split; discriminate]. Qed.
(** C54. Files of other writers: the blocks may come in any order and number and the strings in any order. Of strings with one key, and of
    tables with one key, the first counts; the pairs are all there. *)
Theorem C54_any_order : forall i cs, info_ok i -> Forall child_ok cs -> zlen (version_file i cs) < 65536 ->
  exists s t, version_info (version_file i cs) = Ok (i, (s, t)) /\ tables_of (all_tables cs) s /\ pairs_of (all_pairs cs) t.
Proof. exact any_order. Qed.
Print Assumptions C54_any_order.
(** Pairs first and descending, strings descending and with a key twice, a table twice. *)
Definition C54_children : list version_child :=
  [Pairs [(0x0419, 1200); (0x0409, 1252); (0x0409, 1200)]; Strings [([52; 57], [([66], [1; 2]); ([65], [3]); ([66], [4])]); ([48], [])]; Strings [([52; 57], [([67], [5])])]; Pairs []].
Example C54_any_order_met : info_ok sample_info /\ Forall child_ok C54_children /\ zlen (version_file sample_info C54_children) < 65536 /\
  version_info (version_file sample_info C54_children) = Ok (sample_info, ([([48], []); ([52; 57], [([65], [3]); ([66], [1; 2])])], [(0x0409, 1252); (0x0409, 1200); (0x0419, 1200)])).
Proof.
  split; [exact (proj1 sample_version_ok)|]. split; [|split; vm_compute; reflexivity].
  repeat (constructor; try (cbn; unfold is_u16; lia)); cbn; unfold is_u16; lia.
Qed.
(** C54. The bound is needed: a larger block is written without complaint and does not read back. *)
Theorem C54_bound_needed : exists s d, tables_ok s /\ version_data no_file_info s [] = Ok d /\ version_info d <> Ok (no_file_info, (s, [])).
Proof. destruct large_lost as (d & H). exact (ex_intro _ _ (ex_intro _ d (conj (two_strings_ok _ large_value_ok) H))). Qed.
Print Assumptions C54_bound_needed.

(** C55, part. On any data the reader stays within 65535 bytes behind the end of the data. Missing: it does not stay within the data. *)
Theorem C55_in_bounds_partial : forall fuel d slack s t, bytes d -> bytes slack -> 65535 <= zlen slack ->
  in_bounds (version_info_from fuel (d ++ slack) (zlen d) s t).
Proof. exact version_in_bounds. Qed.
Print Assumptions C55_in_bounds_partial.
(** C55, part. It terminates on data in which no 16-bit word is 0xFFFD or more. Missing: it does not terminate on all data. *)
Theorem C55_terminates_partial : forall d s t, bytes d -> no_huge_word d -> version_info_from big_fuel d (zlen d) s t <> Fuel.
Proof. exact version_ends. Qed.
Print Assumptions C55_terminates_partial.
(** C55 as stated is false: a string whose length in characters fits the data only as a length in bytes is read past the end, ... *)
Theorem C55_overread_refuted : exists d, bytes d /\ version_info d = Ub OobRead.
Proof. exact (ex_intro _ overread_data (conj overread_bytes overread)). Qed.
Print Assumptions C55_overread_refuted.
(** ... so is a translation table whose size is not a multiple of four, ... *)
Theorem C55_odd_translation_refuted : exists d, bytes d /\ version_info d = Ub OobRead /\ d <> overread_data.
Proof. exact (ex_intro _ odd_translation (conj odd_bytes (conj odd_overread odd_other))). Qed.
Print Assumptions C55_odd_translation_refuted.
(** ... and on these data no number of steps is enough. *)
Theorem C55_loop_refuted : exists d, bytes d /\ forall fuel, version_info_from fuel d (zlen d) [] [] = Fuel.
Proof. exact (ex_intro _ endless_data (conj endless_bytes endless)). Qed.
Print Assumptions C55_loop_refuted.
Example C55_met : exists d, bytes d /\ no_huge_word d /\ version_info d = Ok (sample_info, (sample_strings, sample_trans)).
Proof. exact sample_read. Qed.
