(** Vocabulary of C82: what can be read from two trees of resources. *)
From Verif Require Export TypedModel SpecManager SpecResData SpecVer SpecRes SpecKeep.

(** Both give the same elements, in some order, or the same exception. *)
Definition listed {A} (x y : res (list A)) : Prop := match x, y with Ok l, Ok m => Permutation l m | _, _ => x = y end.
(** Both trees have the same types, names, languages, data and code pages. *)
Definition reads_same (t t' : rnode) : Prop :=
  (forall language root name, resource_data t' language root name = resource_data t language root name) /\
  (forall root, resource_exists t' root = resource_exists t root) /\ (forall root, resource_count t' root = resource_count t root) /\
  (forall root name, language_count t' root name = language_count t root name) /\
  listed (list_types t) (list_types t') /\ (forall root, listed (list_ids t root) (list_ids t' root) /\ listed (list_names t root) (list_names t' root)) /\
  (forall root name, listed (list_languages t root name) (list_languages t' root name)).
(** Chosen by [w], both give the same bitmaps, string tables, strings, message tables, icon and cursor files. *)
Definition typed_same (w : choice) (t t' : rnode) : Prop :=
  (forall name, get_bitmap t' w name = get_bitmap t w name) /\ (forall id, get_string_table t' w id = get_string_table t w id) /\
  (forall id, get_string_by t' w id = get_string_by t w id) /\ (forall id, get_messages t' w id = get_messages t w id) /\
  (forall k name, get_file t' k w name = get_file t k w name) /\
  match w with ByLanguage l => version_info_by_lang t' l = version_info_by_lang t l | ByIndex i => version_info_at t' i = version_info_at t i end.
