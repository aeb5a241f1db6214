(** Theorems about the resource viewer and the resource manager (C42). *)
From Verif Require Import ManagerFacts.

(** C42. A tree read by its keys either yields data or throws resource_directory_entry_not_found. *)
Theorem C42_reading_is_total : forall t language root name, three_levels t ->
  resource_data t language root name = Throw resource_directory_entry_not_found \/ exists v, resource_data t language root name = Ok v.
Proof. intros t language root name H. exact (data_total t H language root name). Qed.
Print Assumptions C42_reading_is_total.
(** C42. After add_resource the key reads back as the data and codepage given, and every other key as before. *)
Theorem C42_add : forall t data root name language codepage timestamp, three_levels t ->
  exists t', add_resource t data root name language codepage timestamp = Ok t' /\ three_levels t' /\
    forall r n l, resource_data t' l r n =
      if rname_dec r root then if rname_dec n name then if Z.eq_dec l language then Ok (data, codepage)
      else resource_data t l r n else resource_data t l r n else resource_data t l r n.
Proof. exact add_ok. Qed.
Print Assumptions C42_add.
(** C42. remove_resource with a language reports whether the key was there, and takes that key only. *)
Theorem C42_remove_language : forall t root name language, three_levels t ->
  exists t' b, remove_language t root name language = Ok (t', b) /\ three_levels t' /\ (b = true <-> exists v, resource_data t language root name = Ok v) /\
    forall r n l, resource_data t' l r n =
      if rname_dec r root then if rname_dec n name then if Z.eq_dec l language then Throw resource_directory_entry_not_found
      else resource_data t l r n else resource_data t l r n else resource_data t l r n.
Proof. exact remove_language_ok. Qed.
Print Assumptions C42_remove_language.
(** C42. remove_resource with a name reports whether there was such a directory, and takes all its languages and nothing else. *)
Theorem C42_remove_name : forall t root name, three_levels t ->
  exists t' b, remove_name t root name = Ok (t', b) /\ three_levels t' /\ (b = true <-> exists l, languages_of t root name = Ok l) /\
    forall r n l, resource_data t' l r n =
      if rname_dec r root then if rname_dec n name then Throw resource_directory_entry_not_found else resource_data t l r n else resource_data t l r n.
Proof. exact remove_name_ok. Qed.
Print Assumptions C42_remove_name.
(** C42. remove_resource_type. *)
Theorem C42_remove_type : forall t root, three_levels t ->
  exists t' b, remove_root t root = Ok (t', b) /\ three_levels t' /\ resource_exists t root = Ok b /\
    forall r n l, resource_data t' l r n = if rname_dec r root then Throw resource_directory_entry_not_found else resource_data t l r n.
Proof. exact remove_root_ok. Qed.
Print Assumptions C42_remove_type.
(** C42. Any history of additions and removals leaves what the same history leaves in a map. *)
Theorem C42_history : forall ops t, three_levels t ->
  exists t', mfold apply_change ops t = Ok t' /\ three_levels t' /\ forall r n l, content t' r n l = fold_left effect ops (content t) r n l.
Proof. exact history_ok. Qed.
Print Assumptions C42_history.
(** C42. The languages listed for a name are exactly those that can be read, each once, and the count is their number. *)
Theorem C42_languages : forall t root name, three_levels t ->
  match list_languages t root name with
  | Ok ids => (forall l, In l ids <-> exists v, resource_data t l root name = Ok v) /\ NoDup ids /\ language_count t root name = Ok (u32 (zlen ids))
  | x => x = Throw resource_directory_entry_not_found /\ forall l, resource_data t l root name = Throw resource_directory_entry_not_found
  end.
Proof. exact languages_spec. Qed.
Print Assumptions C42_languages.
(** C42. The names and numbers listed for a type are exactly those with a directory of languages. *)
Theorem C42_names : forall t root, three_levels t ->
  match list_ids t root, list_names t root with
  | Ok ids, Ok names => (forall k, In k ids <-> exists m, languages_of t root (Ided k) = Ok m) /\ (forall s, In s names <-> exists m, languages_of t root (Named s) = Ok m)
  | x, y => x = Throw resource_directory_entry_not_found /\ y = Throw resource_directory_entry_not_found /\ forall n, languages_of t root n = Throw resource_directory_entry_not_found
  end.
Proof. exact names_ok. Qed.
Print Assumptions C42_names.
(** C42. The types listed are exactly those that exist. *)
Theorem C42_types : forall t, three_levels t -> match list_types t with Ok ids => forall k, In k ids <-> resource_exists t (Ided k) = Ok true | _ => False end.
Proof. exact types_ok. Qed.
Print Assumptions C42_types.
(** C42. get_resource_count is the number of names and numbers listed for the type. *)
Theorem C42_count : forall t root, three_levels t -> match resource_count t root with
  | Ok n => exists ids names, list_ids t root = Ok ids /\ list_names t root = Ok names /\ NoDup ids /\ NoDup names /\ n = (zlen ids + zlen names) mod 2^32
  | x => x = Throw resource_directory_entry_not_found /\ list_ids t root = Throw resource_directory_entry_not_found
  end.
Proof. exact count_ok. Qed.
Print Assumptions C42_count.
(** C42. Reading by an index gives the resource of the language at that index of the list, counted from zero, and throws behind the end. *)
Theorem C42_index : forall t root name l ids, three_levels t -> languages_of t root name = Ok l -> Forall (fun e => exists k, fst e = Ided k) l -> list_languages t root name = Ok ids ->
  forall i, 0 <= i -> resource_data_at t root name i = match nth_error ids (Z.to_nat i) with Some language => resource_data t language root name | None => Throw resource_data_entry_not_found end.
Proof. exact index_ok. Qed.
Print Assumptions C42_index.
(** C42. add_resource makes at most the directories of the type and of the name, with the timestamp given, and changes the header of no other. *)
Theorem C42_add_directories : forall t data root name language codepage timestamp t', three_levels t -> add_resource t data root name language codepage timestamp = Ok t' ->
  forall path, head_at path t' = match head_at path t with Some h => Some h
    | None => let made := {| r_chars := 0; r_time := timestamp; r_major := 0; r_minor := 0; r_named := 0; r_ids := 0 |} in
              if rpath_dec path [root] then Some made else if rpath_dec path [root; name] then Some made else None end.
Proof. exact add_heads. Qed.
Print Assumptions C42_add_directories.
(** C42. Removing makes no directory and changes no header. *)
Theorem C42_remove_directories : forall t o t', three_levels t -> match o with Add _ _ _ _ _ _ => False | _ => True end -> apply_change t o = Ok t' -> heads_within t t'.
Proof. exact remove_heads. Qed.
Print Assumptions C42_remove_directories.
(** C42. Uniqueness is needed: with one language twice in a directory, adding it again does not replace what is read, and removing it leaves it readable. *)
Theorem C42_unique_needed_to_add : exists t data root name language codepage t',
  add_resource t data root name language codepage 0 = Ok t' /\ resource_data t' language root name <> Ok (data, codepage).
Proof. exact twice_refuted. Qed.
Print Assumptions C42_unique_needed_to_add.
Theorem C42_unique_needed_to_remove : exists t root name language t' v,
  remove_language t root name language = Ok (t', true) /\ resource_data t' language root name = Ok v.
Proof. exact twice_remove_refuted. Qed.
Print Assumptions C42_unique_needed_to_remove.

(** The hypotheses are met by a tree with two types, names and numbers, and two languages; a history on it. *)
Example C42_sample : three_levels sample_tree. Proof. exact sample_tree_ok. Qed.
Example C42_sample_new : three_levels (dir_new []). Proof. do 2 eexists. split; [reflexivity|split; constructor]. Qed.
Example C42_sample_read : resource_data sample_tree 1049 (Ided 3) (Named [65]) = Ok ([5; 6], 1251). Proof. reflexivity. Qed.
Example C42_sample_history :
  match mfold apply_change [Add [8] (Ided 3) (Ided 1) 1033 5 0; RemoveLanguage (Named [77; 89]) (Ided 7) 0; Add [9; 9] (Ided 24) (Ided 1) 0 0 0; RemoveName (Ided 3) (Named [65])] sample_tree with
  | Ok t => (content t (Ided 3) (Ided 1) 1033, content t (Ided 24) (Ided 1) 0, content t (Ided 3) (Named [65]) 1033, resource_exists t (Named [77; 89])) = (Some ([8], 5), Some ([9; 9], 0), None, Ok false)
  | _ => False
  end.
Proof. reflexivity. Qed.
Example C42_sample_index : list_languages sample_tree (Ided 3) (Named [65]) = Ok [1033; 1049] /\ resource_data_at sample_tree (Ided 3) (Named [65]) 0 = Ok ([4], 0) /\
  resource_data_at sample_tree (Ided 3) (Named [65]) 1 = Ok ([5; 6], 1251) /\ resource_data_at sample_tree (Ided 3) (Named [65]) 2 = Throw resource_data_entry_not_found /\ resource_count sample_tree (Ided 3) = Ok 2.
Proof. repeat split; reflexivity. Qed.
Example C42_sample_stamp : match add_resource sample_tree [8] (Ided 3) (Ided 2) 1033 5 77 with
  | Ok t => (option_map r_time (head_at [Ided 3] t), option_map r_time (head_at [Ided 3; Ided 2] t)) = (Some 0, Some 77) | _ => False end.
Proof. reflexivity. Qed.
