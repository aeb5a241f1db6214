(** C83: what an edit that throws leaves behind. *)
From Verif Require Import SamplesDir FailRebase.

(** The runs are the operations of the other models: they return and throw the same. *)
Theorem C83_agrees : forall p,
  (forall id rva, same_image (run_set_directory_rva id rva p) (set_directory_rva p id rva)) /\ (forall id size, same_image (run_set_directory_size id size p) (set_directory_size p id size)) /\
  (forall a, same_image (run_set_file_alignment a p) (set_file_alignment p a)) /\ (forall i, same_image (run_realign_section i p) (realign_section p i)) /\
  (forall i v, same_image (run_set_section_virtual_size i v p) (set_section_virtual_size p i v)) /\ (forall s auto, same_image (run_add_section s auto p) (add_section p s auto)) /\
  (forall i strip, same_image (run_recalculate i strip p) (recalculate_section_sizes p i strip)) /\ (forall i rva n k, same_result (run_expand_section i rva n k p) (expand_section p i rva n k)) /\
  (forall tables i off save strip, same_result (run_rebuild_relocations tables i off save strip p) (rebuild_relocations p tables i off save strip)) /\
  (forall l i off save strip, same_result (run_rebuild_bound_imports l i off save strip p) (rebuild_bound_imports p l i off save strip)) /\
  (forall info l i off save strip, same_result (run_rebuild_exports info l i off save strip p) (rebuild_exports p info l i off save strip)) /\
  (forall t i off save strip, same_result (run_rebuild_resources t i off save strip p) (r <- rebuild_resources p t i off save strip ;; Ok (fst (fst r), (snd (fst r), snd r)))) /\
  (forall tables base, same_image (run_rebase_image tables base p) (rebase_image p tables base)) /\
  (forall t i off callbacks data k save strip, same_result (run_rebuild_tls t i off callbacks data k save strip p) (rebuild_tls p t i off callbacks data k save strip)) /\
  (forall c i off handlers locks save strip, (forall q d, run_rebuild_config c i off handlers locks save strip p = (q, Ok d) <-> rebuild_config p c i off handlers locks save strip = Ok (q, d)) /\
     (forall e, snd (run_rebuild_config c i off handlers locks save strip p) = Throw e -> rebuild_config p c i off handlers locks save strip = Throw e)).
Proof. exact all_agree. Qed.
Print Assumptions C83_agrees.

(** An edit of the headers or of the section list that throws has changed nothing. *)
Theorem C83_edits : forall p q e,
  (forall id rva, run_set_directory_rva id rva p = (q, Throw e) -> q = p) /\ (forall id size, run_set_directory_size id size p = (q, Throw e) -> q = p) /\
  (forall a, run_set_file_alignment a p = (q, Throw e) -> q = p) /\ (forall i, run_realign_section i p = (q, Throw e) -> q = p) /\
  (forall i v, run_set_section_virtual_size i v p = (q, Throw e) -> q = p) /\ (forall s auto, run_add_section s auto p = (q, Throw e) -> q = p) /\
  (forall i rva n, run_expand_section i rva n ExpandVirtual p = (q, Throw e) -> q = p).
Proof. exact edits_strong. Qed.
Print Assumptions C83_edits.
(** All of them can throw. *)
Example C83_edits_ok :
  snd (run_set_directory_rva 16 0 sample_pe) = Throw directory_does_not_exist /\ snd (run_set_directory_size 16 0 sample_pe) = Throw directory_does_not_exist /\
  snd (run_set_file_alignment 0x300 sample_pe) = Throw incorrect_file_alignment /\ snd (run_realign_section 2 sample_pe) = Throw section_not_found /\
  snd (run_set_section_virtual_size 0 0x2000 sample_pe) = Throw error_changing_section_virtual_size /\
  snd (run_add_section (set_s_rawsize 0 (set_s_vsize 0 (set_s_data [] sample_code))) true sample_pe) = Throw zero_section_sizes /\
  snd (run_expand_section 0 0x1000 0x2000 ExpandVirtual sample_pe) = Throw error_expanding_section.
Proof. ands; vm_compute; reflexivity. Qed.

(** A rebuilder that throws has changed nothing, provided the headers have the entry it is to store. *)
Theorem C83_rebuild : forall p q e i save, good_align p -> sized p i -> at_most_2g q i ->
  (forall tables off strip, entry_for p save dir_basereloc -> run_rebuild_relocations tables i off save strip p = (q, Throw e) -> q = p) /\
  (forall l off strip, entry_for p save dir_bound_import -> run_rebuild_bound_imports l i off save strip p = (q, Throw e) -> q = p) /\
  (forall info l off strip, entry_for p save dir_export -> run_rebuild_exports info l i off save strip p = (q, Throw e) -> q = p) /\
  (forall t off strip, entry_for p save dir_resource -> run_rebuild_resources t i off save strip p = (q, Throw e) -> q = p) /\
  (forall rva n, run_expand_section i rva n ExpandRaw p = (q, Throw e) -> q = p).
Proof. exact rebuilds_strong. Qed.
Print Assumptions C83_rebuild.
Definition C83_info : export_info := mk_info 0 0 0 0 [97] 1 0 0 0 0 0.
Definition C83_twice : list exported := [mk_exported 1 0x1000 [98] 0 []; mk_exported 1 0x1004 [99] 0 []].
Definition C83_wide : list reloc_table := [(0x1000, repeat (4, 3) 300)].
Example C83_rebuild_ok : good_align sample_pe /\ sized sample_pe 0 /\ at_most_2g sample_pe 0 /\ entry_for sample_pe true dir_resource /\
  run_rebuild_relocations C83_wide 0 0 true true sample_pe = (sample_pe, Throw insufficient_space) /\
  run_rebuild_exports C83_info C83_twice 0 0 true true sample_pe = (sample_pe, Throw duplicate_exported_function_ordinal) /\
  run_rebuild_resources (RDir (mk_rhead 0 0 0 0 0 0) [(Ided 1, RNone)]) 0 0 true true sample_pe = (sample_pe, Throw resource_directory_entry_error).
Proof.
  split; [exact sample_align|]. split; [intros s H; injection H as <-; vm_compute; intuition discriminate|]. split; [intros s H; injection H as <-; vm_compute; discriminate|]. split; [intros _; reflexivity|].
  ands; vm_compute; reflexivity.
Qed.

(** A failed rebuild of the load configuration changes at most the section it writes to, and nothing at all in PE32+ images or
    without tables of addresses. *)
Theorem C83_config : forall c i off handlers locks save strip p q e, good_align p -> sized p i -> entry_for p save dir_load_config -> at_most_2g q i ->
  run_rebuild_config c i off handlers locks save strip p = (q, Throw e) ->
  same_but i p q /\ (p_plus p = true \/ handlers = false /\ locks = false -> q = p).
Proof. exact config_basic. Qed.
Print Assumptions C83_config.
(** In PE32 images a lock prefix whose address does not fit is found when the section was already written to. *)
Definition C83_conf : config := mk_config 7 4 5 6 8 9 10 11 0 12 13 14 15 3 16 17 0 0 [0x11] [0x1234; 0xFFFFFFFF].
Theorem C83_config_refuted : exists c p q e, good_align p /\ sized p 1 /\ entry_for p true dir_load_config /\ at_most_2g q 1 /\
  run_rebuild_config c 1 0 true true true true p = (q, Throw e) /\ q <> p.
Proof.
  exists C83_conf, sample_pe, (fst (run_rebuild_config C83_conf 1 0 true true true true sample_pe)), incorrect_address_conversion. split; [exact sample_align|].
  split; [intros s H; injection H as <-; vm_compute; intuition discriminate|]. split; [intros _; reflexivity|].
  split; [intros s H; vm_compute in H; injection H as <-; vm_compute; discriminate|]. split; [vm_compute; reflexivity|].
  intros H. apply (f_equal (fun p => length (s_data (nth 1 (p_sections p) sample_code)))) in H. vm_compute in H. discriminate H.
Qed.
Print Assumptions C83_config_refuted.

(** A failed rebuild of the TLS directory changes nothing in PE32+ images if neither data nor callbacks are written. *)
Theorem C83_tls : forall t i off k save strip p q e, good_align p -> sized p i -> entry_for p save dir_tls -> at_most_2g q i -> p_plus p = true ->
  run_rebuild_tls t i off false false k save strip p = (q, Throw e) -> q = p.
Proof. exact tls_strong. Qed.
Print Assumptions C83_tls.
Definition C83_plus : pe := set_p_sections [sample_code; sample_data] (create_pe true 0x1000 false 3).
Example C83_tls_ok : good_align C83_plus /\ sized C83_plus 0 /\ entry_for C83_plus true dir_tls /\ at_most_2g C83_plus 0 /\ p_plus C83_plus = true /\
  run_rebuild_tls (mk_tls 0 0 0 0 0 0 [] []) 0 0 false false ExpandRaw true true C83_plus = (C83_plus, Throw incorrect_tls_directory).
Proof.
  split; [exact sample_align|]. split; [intros s H; injection H as <-; vm_compute; intuition discriminate|]. split; [intros _; reflexivity|]. split; [intros s H; injection H as <-; vm_compute; discriminate|].
  split; [reflexivity|]. vm_compute. reflexivity.
Qed.
(** With callbacks, the directory is written before the missing space is found. *)
Definition C83_cb : tls := mk_tls 0 0 0x2000 0x11F8 0 0 [] [1; 2; 3].
Theorem C83_tls_refuted : exists t p q e, good_align p /\ sized p 1 /\ entry_for p true dir_tls /\ at_most_2g q 1 /\ p_plus p = true /\
  run_rebuild_tls t 1 0 true false ExpandRaw true true p = (q, Throw e) /\ q <> p.
Proof.
  exists C83_cb, C83_plus, (fst (run_rebuild_tls C83_cb 1 0 true false ExpandRaw true true C83_plus)), insufficient_space. split; [exact sample_align|].
  split; [intros s H; injection H as <-; vm_compute; intuition discriminate|]. split; [intros _; reflexivity|].
  split; [intros s H; vm_compute in H; injection H as <-; vm_compute; discriminate|]. split; [reflexivity|]. split; [vm_compute; reflexivity|].
  intros H. apply (f_equal (fun p => length (s_data (nth 1 (p_sections p) sample_code)))) in H. vm_compute in H. discriminate H.
Qed.
Print Assumptions C83_tls_refuted.

(** A failed rebasing leaves the words before the failing entry changed, in the order of the tables, and the image base as it was. *)
Theorem C83_rebase : forall tables base p q e, run_rebase_image tables base p = (q, Throw e) ->
  p_nt q = p_nt p /\ exists l1 t l2 es1 x es2, tables = l1 ++ t :: l2 /\ snd t = es1 ++ x :: es2 /\
    rebase_image p (l1 ++ [(fst t, es1)]) base = Ok (with_nt (set_h_imagebase (base mod base_mod p)) q) /\ rebase_image p (l1 ++ [(fst t, es1 ++ [x])]) base = Throw e.
Proof. exact rebase_fails. Qed.
Print Assumptions C83_rebase.
Theorem C83_rebase_refuted : exists tables base p q e, run_rebase_image tables base p = (q, Throw e) /\ q <> p.
Proof.
  exists [(0x1000, [(4, 3); (0x800, 3)])], 0x10000000, sample_pe, (fst (run_rebase_image [(0x1000, [(4, 3); (0x800, 3)])] 0x10000000 sample_pe)), rva_not_exists. split; [vm_compute; reflexivity|].
  intros H. apply (f_equal (fun p => s_data (nth 0 (p_sections p) sample_code))) in H. vm_compute in H. discriminate H.
Qed.
Print Assumptions C83_rebase_refuted.

(** Without the entry in the headers the section is written to before the rebuilder throws. *)
Definition C83_few : pe := with_nt (set_h_nrva 5) sample_pe.
Theorem C83_no_entry_refuted : exists tables p q e, good_align p /\ sized p 1 /\ at_most_2g q 1 /\ run_rebuild_relocations tables 1 0 true true p = (q, Throw e) /\ q <> p.
Proof.
  exists [(0x1000, [(4, 3)])], C83_few, (fst (run_rebuild_relocations [(0x1000, [(4, 3)])] 1 0 true true C83_few)), directory_does_not_exist. split; [apply (good_align_eq C83_few sample_pe); [vm_compute; reflexivity|vm_compute; reflexivity|exact sample_align]|].
  split; [intros s H; injection H as <-; vm_compute; intuition discriminate|].
  split; [intros s H; vm_compute in H; injection H as <-; vm_compute; discriminate|]. split; [vm_compute; reflexivity|].
  intros H. apply (f_equal (fun p => length (s_data (nth 1 (p_sections p) sample_code)))) in H. vm_compute in H. discriminate H.
Qed.
Print Assumptions C83_no_entry_refuted.
