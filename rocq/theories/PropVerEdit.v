(** Theorems about the version information viewer and editor (C56) and file_version_info (C65). *)
From Verif Require Import VerEditMore.

(** C56. get_property after set_property with the same arguments returns the value set, also when no translation is named. *)
Theorem C56_set_get : forall s t p v tr throw_if_absent, get_property (fst (set_property (s, t) p v tr)) p tr throw_if_absent = Ok v.
Proof. exact set_get. Qed.
Print Assumptions C56_set_get.
(** C56. Every other property, and every property of another translation, is as before. *)
Theorem C56_set_others : forall s t p v tr k q tr' f, meant s tr k -> tr' <> [] -> tr' <> k \/ q <> p ->
  get_property (fst (set_property (s, t) p v tr)) q tr' f = get_property s q tr' f.
Proof. exact set_others. Qed.
Print Assumptions C56_set_others.
(** C56. With no translation named, viewer and editor take the same table: some table is meant, and naming it gives the same. *)
Theorem C56_default : forall s tr, exists k, meant s tr k /\
  (k <> [] -> forall p f, get_property s p tr f = get_property s p k f) /\ (k <> [] -> forall t p v, set_property (s, t) p v tr = set_property (s, t) p v k).
Proof. intros s tr. destruct (meant_exists s tr) as [k M]. exact (ex_intro _ k (conj M (conj (fun N p f => view_default s tr k p f M N) (fun N t p v => edit_default s t tr k p v M N)))). Qed.
Print Assumptions C56_default.
(** C56. set_property lists the translation if it had to make the table, and only then. *)
Theorem C56_set_pairs : forall s t p v tr k, meant s tr k ->
  (has_table s k -> snd (set_property (s, t) p v tr) = t) /\ (~ has_table s k -> snd (set_property (s, t) p v tr) = add_translation_string t k).
Proof. exact set_pairs. Qed.
Print Assumptions C56_set_pairs.
(** C56. add_translation lists a pair that is not listed, changes nothing if it is, and is idempotent. *)
Theorem C56_add : forall t l c,
  (In (l, c) t -> add_translation t l c = t) /\ (~ In (l, c) t -> Permutation (add_translation t l c) ((l, c) :: t)) /\
  add_translation (add_translation t l c) l c = add_translation t l c.
Proof. intros t l c. exact (conj (proj1 (add_pairs t l c)) (conj (proj2 (add_pairs t l c)) (add_twice t l c))). Qed.
Print Assumptions C56_add.
(** C56. remove_translation takes away the table of that name, and no other. *)
Theorem C56_remove_table : forall s t l c q tr f, keys_ascending s -> tr <> [] ->
  get_property (fst (remove_translation (s, t) l c)) q tr f =
  if str_dec tr (translation_string l c) then (if f then Throw version_info_string_does_not_exist else Ok []) else get_property s q tr f.
Proof. exact remove_get. Qed.
Print Assumptions C56_remove_table.
(** C56. ... and one listing of the pair: all of them, if none is listed twice. *)
Theorem C56_remove_pair : forall s t l c,
  (In (l, c) t -> Permutation t ((l, c) :: snd (remove_translation (s, t) l c))) /\ (~ In (l, c) t -> snd (remove_translation (s, t) l c) = t) /\
  (NoDup t -> NoDup (snd (remove_translation (s, t) l c)) /\ forall e, In e (snd (remove_translation (s, t) l c)) <-> In e t /\ e <> (l, c)).
Proof. intros s t l c. exact (conj (proj1 (erase_perm l c t)) (conj (proj2 (erase_perm l c t)) (erase_nodup l c t))). Qed.
Print Assumptions C56_remove_pair.
(** C56. Translation strings: up to eight hexadecimal digits of either case are read as the number they write; numbers are written
    in eight digits and read back; and exactly the strings of eight digits 0-9a-f are written as they were read. *)
Theorem C56_read_string : forall s n, writes s n -> zlen s <= 8 -> translation_from_string s = (n / 65536, n mod 65536).
Proof. exact from_string_writes. Qed.
Print Assumptions C56_read_string.
Theorem C56_write_string : forall l c, is_u16 l -> is_u16 c ->
  writes (translation_string l c) (l * 65536 + c) /\ lower_hex8 (translation_string l c) /\ translation_from_string (translation_string l c) = (l, c).
Proof. intros l c Hl Hc. exact (conj (string_writes l c Hl Hc) (conj (string_lower l c) (from_to_string l c Hl Hc))). Qed.
Print Assumptions C56_write_string.
Theorem C56_canonical : forall s, lower_hex8 s <-> translation_string (fst (translation_from_string s)) (snd (translation_from_string s)) = s.
Proof. exact string_canonical. Qed.
Print Assumptions C56_canonical.
(** C56, part. Removing a translation by a name of that form removes its table. Missing: names of another form. *)
Theorem C56_remove_string_partial : forall s t tr q, keys_ascending s -> lower_hex8 tr ->
  get_property (fst (remove_translation_string (s, t) tr)) q tr true = Throw version_info_string_does_not_exist.
Proof. exact remove_string_gone. Qed.
Print Assumptions C56_remove_string_partial.
(** C56, for other names, is false: a table made under a name with a capital letter stays when its pair is removed by that name. *)
Theorem C56_capital_refuted : exists tr p v, let st := remove_translation_string (set_property ([], []) p v tr) tr in
  get_property (fst st) p tr true = Ok v /\ snd st = [].
Proof. exact (ex_intro _ upper_translation (ex_intro _ [65] (ex_intro _ [66] (conj upper_stays upper_pair_gone)))). Qed.
Print Assumptions C56_capital_refuted.
(** C56. Any history of edits that name their translations leaves what it leaves in a map, keeps the maps maps, and lists no pair twice. *)
Theorem C56_history : forall es s t, maps_ok s -> Forall edit_named es ->
  maps_ok (fst (fold_left apply_edit es (s, t))) /\
  (forall tr p, tr <> [] -> value_of (fst (fold_left apply_edit es (s, t))) tr p = fold_left edit_values es (value_of s) tr p) /\
  (NoDup t -> NoDup (snd (fold_left apply_edit es (s, t)))).
Proof. intros es s t S F. exact (conj (proj1 (edits_values es s t S F)) (conj (proj2 (edits_values es s t S F)) (edits_nodup es s t))). Qed.
Print Assumptions C56_history.
(** C56 with C54. Whatever was edited from nothing, with keys and values that can be stored, reads back after being written. *)
Theorem C56_stored : forall i es, info_ok i -> Forall edit_storable es ->
  let '(s, t) := fold_left apply_edit es ([], []) in block_bytes s t < 65536 -> exists d, version_data i s t = Ok d /\ version_info d = Ok (i, (s, t)).
Proof. exact edits_round. Qed.
Print Assumptions C56_stored.
(** C56. The eight named properties: each getter sees its setter only. *)
Theorem C56_named : forall st p v tr q, get_named (fst (set_named st p v tr)) q tr = if property_dec q p then Ok v else get_named (fst st) q tr.
Proof. exact named_get. Qed.
Print Assumptions C56_named.
Example C56_met : let st := fold_left apply_edit [SetProperty [65] [66] []; SetProperty [65] [67] (translation_string 1033 1200); SetProperty [68] [69] []; RemoveTranslation 1049 1200] ([], []) in
  st = ([(translation_string 1033 1200, [([65], [67])])], [(1033, 1200)]) /\ maps_ok (fst st) /\ meant (fst st) [] (translation_string 1033 1200) /\ writes [70; 102] 255.
Proof.
  split; [vm_compute; reflexivity|]. split; [vm_compute; repeat constructor|]. split.
  - right; right. split; [reflexivity|]. split; [|do 2 eexists; vm_compute; reflexivity]. apply no_table_find. vm_compute. reflexivity.
  - apply (writes_snoc [70] 15 102 15); [|unfold hex_char; lia]. apply (writes_snoc [] 0 70 15); [constructor|unfold hex_char; lia].
Qed.

(** C65. A flag setter changes the flag of its getter, no other flag, no other bit and no other field. *)
Theorem C65_flags : forall i f b, is_u32 (fi_flags i) ->
  set_file_flag i f b = with_flags i (fi_flags (set_file_flag i f b)) /\ is_u32 (fi_flags (set_file_flag i f b)) /\
  (forall g, get_file_flag (set_file_flag i f b) g = if flag_dec g f then b else get_file_flag i g) /\
  (forall n, 6 <= n -> Z.testbit (fi_flags (set_file_flag i f b)) n = Z.testbit (fi_flags i) n).
Proof. exact set_flag_ok. Qed.
Print Assumptions C65_flags.
(** C65. Operating systems and file types set are those got; setting what was got changes nothing. *)
Theorem C65_os : forall i, (forall o, o <> os_unknown -> get_file_os (set_file_os i o) = o) /\ set_file_os i (get_file_os i) = i.
Proof. exact (fun i => conj (os_set_get i) (os_get_set i)). Qed.
Print Assumptions C65_os.
Theorem C65_type : forall i, (forall k, k <> type_unknown -> get_file_type (set_file_type i k) = k) /\ set_file_type i (get_file_type i) = i.
Proof. exact (fun i => conj (type_set_get i) (type_get_set i)). Qed.
Print Assumptions C65_type.
(** C65. The version string is the four 16-bit parts as decimal numerals between dots, so it determines the version. *)
Theorem C65_version_string : forall ms ls, is_u32 ms -> is_u32 ls -> exists a b c d, version_string ms ls = a ++ [46] ++ b ++ [46] ++ c ++ [46] ++ d /\
  numeral a (ms / 65536) /\ numeral b (ms mod 65536) /\ numeral c (ls / 65536) /\ numeral d (ls mod 65536).
Proof. exact version_string_form. Qed.
Print Assumptions C65_version_string.
(** C65. get_file_version_string is made from the two halves of the file version, get_product_version_string from those of the product version. *)
Theorem C65_version_strings : forall i, (is_u32 (fi_version_ms i) -> is_u32 (fi_version_ls i) -> exists a b c d, file_version_string i = a ++ [46] ++ b ++ [46] ++ c ++ [46] ++ d /\
    numeral a (fi_version_ms i / 65536) /\ numeral b (fi_version_ms i mod 65536) /\ numeral c (fi_version_ls i / 65536) /\ numeral d (fi_version_ls i mod 65536)) /\
  (is_u32 (fi_product_ms i) -> is_u32 (fi_product_ls i) -> exists a b c d, product_version_string i = a ++ [46] ++ b ++ [46] ++ c ++ [46] ++ d /\
    numeral a (fi_product_ms i / 65536) /\ numeral b (fi_product_ms i mod 65536) /\ numeral c (fi_product_ls i / 65536) /\ numeral d (fi_product_ls i mod 65536)).
Proof. exact version_strings. Qed.
Print Assumptions C65_version_strings.
Theorem C65_version_string_injective : forall ms ls ms' ls', is_u32 ms -> is_u32 ls -> is_u32 ms' -> is_u32 ls' ->
  version_string ms ls = version_string ms' ls' -> ms = ms' /\ ls = ls'.
Proof. exact version_string_inj. Qed.
Print Assumptions C65_version_string_injective.
Example C65_met : version_string 0x000A0002 0x00000457 = [49; 48; 46; 50; 46; 48; 46; 49; 49; 49; 49] /\ get_file_flag (set_file_flag no_file_info Patched true) Patched = true.
Proof. split; vm_compute; reflexivity. Qed.
