(** Theorems about what the version information viewer shows of a file (C88), and about the numbers of file_version_info (C65). *)
From Coq Require Import String.
From Verif Require Import ManagerFacts VerRead VerAny VerFile SpecVerFile.

(** C88. The version resource of any writer, in any tree: every property is shown as the file says, under the table named or under the default one, and a
    property the file does not have is absent. *)
Theorem C88_shown : forall t language codepage i cs, info_ok i -> Forall child_ok cs -> zlen (version_file i cs) < 65536 ->
  resource_data t language (Ided 16) (Ided 1) = Ok (version_file i cs, codepage) ->
  exists s tr, version_info_by_lang t language = Ok (i, (s, tr)) /\ pairs_of (all_pairs cs) tr /\
    (forall key name v, key <> [] -> get_property s name key true = Ok v <-> says cs key name v) /\
    (forall key name, key <> [] -> (forall v, ~ says cs key name v) -> get_property s name key true = Throw version_info_string_does_not_exist /\ get_property s name key false = Ok []) /\
    (forall name v, get_property s name [] true = Ok v <-> exists key, default_key cs key /\ says cs key name v).
Proof. exact shown_of_file. Qed.
Print Assumptions C88_shown.
(** C88. The getters of named properties show, and the setters set, the strings of those names. *)
Theorem C88_named : forall cs s, tables_of (all_tables cs) s ->
  (forall key q v, key <> [] -> v <> [] -> get_named s q key = Ok v <-> says cs key (documented_name q) v) /\
  (forall st q v key, set_named st q v key = set_property st (documented_name q) v key).
Proof. intros cs s T. split; [intros key q v N Nv; exact (named_says s cs key q v T N Nv)|exact named_sets]. Qed.
Print Assumptions C88_named.

(** A table twice, a string twice, none of the tables the default one; a tree with it. *)
Definition C88_children : list version_child :=
  [Pairs [(0x0419, 1200); (0x0409, 1252)]; Strings [(text "040904e4", [(text "ProductName", [1; 2]); (text "CompanyName", [3]); (text "ProductName", [4])]); (text "040704b0", [(text "CompanyName", [7])])];
   Strings [(text "040904e4", [(text "FileVersion", [5])])]].
Definition C88_tree : rnode := match add_resource sample_tree (version_file sample_info C88_children) (Ided 16) (Ided 1) 1033 0 0 with Ok t => t | _ => sample_tree end.
Example C88_case : info_ok sample_info /\ Forall child_ok C88_children /\ zlen (version_file sample_info C88_children) < 65536 /\
  resource_data C88_tree 1033 (Ided 16) (Ided 1) = Ok (version_file sample_info C88_children, 0) /\
  says C88_children (text "040904e4") (text "ProductName") [1; 2] /\ default_key C88_children (text "040704b0").
Proof.
  split; [exact (proj1 sample_version_ok)|]. split; [|split; [vm_compute; reflexivity|]].
  - repeat (constructor; try (cbn; unfold is_u16; lia)); cbn; unfold is_u16; lia.
  - split; [vm_compute; reflexivity|]. split.
    + eexists. split; [exists []; eexists; split; [reflexivity|intros []]|exists []; eexists; split; [reflexivity|intros []]].
    + split; [right; left; reflexivity|]. right. split; [cbn; intuition discriminate|]. intros k [<-|[<-|[<-|[]]]]; [right; apply ExportFacts.str_ltb_before; reflexivity|left; reflexivity|right; apply ExportFacts.str_ltb_before; reflexivity].
Qed.

(** C65. The operating systems, types and flags are those of the documented numbers. *)
Theorem C65_numbers : forall i,
  (forall o n, os_number o = Some n -> (get_file_os i = o <-> fi_os i = n) /\ fi_os (set_file_os i o) = n) /\
  (forall k n, type_number k = Some n -> (get_file_type i = k <-> fi_type i = n) /\ fi_type (set_file_type i k) = n) /\
  (forall f, get_file_flag i f = Z.testbit (fi_flags i) (flag_number f)).
Proof. intros i. split; [exact (os_codes i)|]. split; [exact (type_codes i)|exact (flag_codes i)]. Qed.
Print Assumptions C65_numbers.
Example C65_numbers_case : os_number os_nt_win32 = Some 0x40004 /\ type_number type_dll = Some 2 /\ get_file_flag (mk_file_info 0 0 0 0 4 0x40004 2 0 0 0) Patched = true.
Proof. repeat split. Qed.
