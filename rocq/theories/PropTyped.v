(** C82: resources by type, from the tree to the file and back. *)
From Verif Require Import SamplesTyped PropResData.

(** C82. A bitmap that is added to a tree can be read from it: the file with a regenerated header; everything else is as before. Removing it removes it. *)
Theorem C82_bitmap_in_tree : forall t file name language codepage timestamp d, three_levels t -> bytes file -> zlen file < 2^32 -> bitmap_data file = Ok d -> 40 <= zlen d ->
  exists t', add_bitmap t file name language codepage timestamp = Ok t' /\ three_levels t' /\ get_bitmap t' (ByLanguage language) name = Ok (bitmap_header d ++ zdrop 14 file) /\
    (forall r n l, r <> Ided 2 \/ n <> name \/ l <> language -> resource_data t' l r n = resource_data t l r n) /\
    exists t'', remove_bitmap t' name language = Ok (t'', true) /\ get_bitmap t'' (ByLanguage language) name = Throw resource_directory_entry_not_found.
Proof. exact bitmap_in_tree. Qed.
Print Assumptions C82_bitmap_in_tree.
(** C82. A string with a 16-bit number is found in the table of sixteen that has it, chosen by language or by index; empty strings are not found. *)
Theorem C82_string_in_tree : forall t w id ss d rest, is_u16 id -> length ss = 16%nat -> Forall string_ok ss -> bytes d -> d = concat (map SpecResData.counted ss) ++ rest ->
  data_by t w (Ided 6) (Ided (id / 16 + 1)) = Ok d ->
  get_string_by t w id = match nth_error ss (Z.to_nat (id mod 16)) with Some (x :: s) => Ok (x :: s) | _ => Throw resource_string_not_found end.
Proof. exact string_in_tree. Qed.
Print Assumptions C82_string_in_tree.
(** C82. Messages are those of the message table (resource type 11) with this number. *)
Theorem C82_messages_in_tree : forall t w id d m, bytes d -> zlen d < 2^32 -> data_by t w (Ided 11) (Ided id) = Ok d ->
  (get_messages t w id = Ok m <-> exists e, message_table d e /\ first_wins (concat (map snd e)) m).
Proof. intros t w id d m B L E. unfold get_messages. change message_type with (Ided 11). rewrite E. exact (message_table_iff d m B L). Qed.
Print Assumptions C82_messages_in_tree.
Example C82_messages_case : let t := RDir empty_rhead [(Ided 11, RDir empty_rhead [(Ided 3, RDir empty_rhead [(Ided 9, RData C53_d 0)])])] in
  data_by t (ByLanguage 9) (Ided 11) (Ided 3) = Ok C53_d /\ get_messages t (ByLanguage 9) 3 = Ok [(7, (false, [72;105])); (8, (true, [0x20ac]))].
Proof. split; vm_compute; reflexivity. Qed.
(** C82, part. A tree that is stored in an image, which is then realigned, written and opened again, is read as a tree with the same types, names, languages and data; all
    bitmaps, strings, messages, icon and cursor files and version information chosen by language are the same, and also those chosen by index and the single
    pictures, if the tree was in order. Missing: the trees that C39 leaves out. *)
Theorem C82_saved_partial : forall p start i t off strip s a, editable a p ->
  0 <= off -> valid_tree t -> storable_tree t -> full_root t -> ordered_tree t \/ even_tree t -> room p start i (resource_end off t) -> dir_resource < nrva p <= 16 ->
  nth_error (p_sections p) i = Some s ->
  exists p' where_ sorted, rebuild_resources p t i off true strip = Ok (p', where_, sorted) /\ editable a p' /\
    forall r, saved p' a r -> exists t', get_resources r = Ok t' /\ reads_same t t' /\ (forall language, typed_same (ByLanguage language) t t') /\
      (ordered_tree t -> (forall index, typed_same (ByIndex index) t t') /\ forall k w id, get_single t' k w id = get_single t k w id).
Proof. exact resources_kept. Qed.
Print Assumptions C82_saved_partial.
(** C82, part. So any history of additions and removals ends in a file that has what the same history leaves in a map. *)
Theorem C82_changes_saved_partial : forall p a t t1 i off start strip s, editable a p -> 0 <= off -> valid_tree t1 -> storable_tree t1 -> ordered_tree t1 \/ even_tree t1 ->
  room p start i (resource_end off t1) -> dir_resource < nrva p <= 16 -> nth_error (p_sections p) i = Some s ->
  forall ops, three_levels t -> mfold apply_change ops t = Ok t1 -> full_root t1 ->
  exists q where_ sorted, rebuild_resources p t1 i off true strip = Ok (q, where_, sorted) /\ editable a q /\
    forall r, saved q a r -> exists t', get_resources r = Ok t' /\ forall root n l, content t' root n l = fold_left effect ops (content t) root n l.
Proof. exact changes_saved. Qed.
Print Assumptions C82_changes_saved_partial.
(** C82, part. A bitmap file that is added to a tree and saved is found in the opened file, beside everything that was in the tree. *)
Theorem C82_bitmap_saved_partial : forall p a t t1 i off start strip s, editable a p -> 0 <= off -> valid_tree t1 -> storable_tree t1 -> ordered_tree t1 \/ even_tree t1 ->
  room p start i (resource_end off t1) -> dir_resource < nrva p <= 16 -> nth_error (p_sections p) i = Some s ->
  forall file name language codepage timestamp, three_levels t -> bytes file -> 54 <= zlen file < 2^32 -> add_bitmap t file name language codepage timestamp = Ok t1 ->
  exists q where_ sorted, rebuild_resources p t1 i off true strip = Ok (q, where_, sorted) /\ editable a q /\
    forall r, saved q a r -> exists t', get_resources r = Ok t' /\ get_bitmap t' (ByLanguage language) name = Ok (bitmap_header (zdrop 14 file) ++ zdrop 14 file) /\
      forall root n l, root <> bitmap_type \/ n <> name \/ l <> language -> resource_data t' l root n = resource_data t l root n.
Proof. exact bitmap_saved. Qed.
Print Assumptions C82_bitmap_saved_partial.
(** C82, part. So is version information. *)
Theorem C82_version_saved_partial : forall p a t t1 i off start strip s, editable a p -> 0 <= off -> valid_tree t1 -> storable_tree t1 -> ordered_tree t1 \/ even_tree t1 ->
  room p start i (resource_end off t1) -> dir_resource < nrva p <= 16 -> nth_error (p_sections p) i = Some s ->
  forall info strings translations language codepage timestamp, three_levels t -> info_ok info -> tables_ok strings -> translations_ok translations -> block_bytes strings translations < 65536 ->
  set_version_info t info strings translations language codepage timestamp = Ok t1 ->
  exists q where_ sorted, rebuild_resources p t1 i off true strip = Ok (q, where_, sorted) /\ editable a q /\
    forall r, saved q a r -> exists t', get_resources r = Ok t' /\ version_info_by_lang t' language = Ok (info, (strings, translations)) /\
      forall root n l, root <> rt_version \/ n <> Ided 1 \/ l <> language -> resource_data t' l root n = resource_data t l root n.
Proof. exact version_saved. Qed.
Print Assumptions C82_version_saved_partial.

(** Two bitmaps and version information in a section of the sample image; the file that is written for it, and what is read from it. *)
Example C82_case : editable 0x200 sample_pe /\ three_levels typed1 /\ three_levels typed2 /\ bytes small_bitmap /\ zlen small_bitmap = 66 /\
  add_bitmap typed1 small_bitmap (Ided 7) 1033 0 7 = Ok typed2 /\ set_version_info typed2 sample_info sample_strings sample_trans 1049 1200 8 = Ok typed3 /\
  (valid_tree typed2 /\ storable_tree typed2 /\ ordered_tree typed2) /\ (valid_tree typed3 /\ storable_tree typed3 /\ ordered_tree typed3) /\
  (exists start, room sample_pe start 1 (resource_end 6 typed2)) /\ (exists start, room sample_pe start 1 (resource_end 6 typed3)) /\ dir_resource < nrva sample_pe <= 16 /\
  (info_ok sample_info /\ tables_ok sample_strings /\ translations_ok sample_trans /\ block_bytes sample_strings sample_trans < 65536).
Proof.
  split; [exact sample_editable|]. split; [apply typed1_levels|]. split; [apply typed2_levels|]. split; [exact small_bytes|]. split; [vm_compute; reflexivity|].
  split; [apply typed2_levels|]. split; [exact typed3_is|]. split; [exact typed_valid|]. split; [exact typed3_valid|]. split; [apply typed_room|]. split; [apply typed_room|].
  split; [split; vm_compute; congruence|exact sample_version_ok].
Qed.
Example C82_way : match typed_way typed3 with
  | Ok t => get_bitmap t (ByLanguage 1033) (Ided 7) = Ok small_bitmap /\ get_bitmap t (ByIndex 0) (Named [65]) = Ok small_bitmap /\ version_info_by_lang t 1049 = Ok (sample_info, (sample_strings, sample_trans))
  | _ => False
  end.
Proof. vm_compute. repeat split; reflexivity. Qed.
(** A table with the strings 32 and 34. *)
Example C82_string_case : let ss := [[72;105]; []; [0x20ac]] ++ repeat [] 13 in let d := concat (map SpecResData.counted ss) in
  Forall string_ok ss /\ bytes d /\ data_by (RDir empty_rhead [(string_type, RDir empty_rhead [(Ided 3, RDir empty_rhead [(Ided 9, RData d 0)])])]) (ByIndex 0) string_type (Ided (34 / 16 + 1)) = Ok d.
Proof. split; [repeat constructor; vm_compute; congruence|]. split; [vm_compute; repeat constructor; congruence|vm_compute; reflexivity]. Qed.
