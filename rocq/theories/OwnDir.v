(** Proof of C87. *)
From Verif Require Export SpecOwnDir BaseFacts.

Section View.
Context (p q : pe) (V : same_view p q).
Lemma v_plus : p_plus q = p_plus p. Proof. apply V. Qed.
Lemma v_debug : p_debug q = p_debug p. Proof. apply V. Qed.
Lemma v_imagebase : imagebase q = imagebase p. Proof. apply V. Qed.
Lemma v_chars : chars q = chars p. Proof. apply V. Qed.
Lemma v_nrva : nrva q = nrva p. Proof. apply V. Qed.
Ltac same := revert V; clear; destruct p as [? ? ? ? ? nt ? ? ? ?], q as [? ? ? ? ? nt' ? ? ? ?]; destruct nt, nt'; unfold same_view, salign, imagebase, chars, nrva; cbn; intros V; decompose [and] V; subst; reflexivity.
Lemma v_read : read_rva q = read_rva p. Proof. same. Qed.
Lemma v_length : length_rva q = length_rva p. Proof. same. Qed.
Lemma v_ptr : ptr_rva q = ptr_rva p. Proof. same. Qed.
Lemma v_va : va_to_rva q = va_to_rva p. Proof. same. Qed.
Lemma v_read_va : read_va q = read_va p. Proof. same. Qed.
Lemma v_length_va : length_va q = length_va p. Proof. same. Qed.
Lemma v_mod : base_mod q = base_mod p. Proof. same. Qed.
Lemma v_size : base_size q = base_size p. Proof. same. Qed.
Lemma v_thunk : thunk_size q = thunk_size p. Proof. same. Qed.
Lemma v_snap : snap_flag q = snap_flag p. Proof. same. Qed.
Lemma v_config : config_widths q = config_widths p. Proof. same. Qed.
Lemma v_tls : tls_widths q = tls_widths p. Proof. same. Qed.
Lemma nth_ub_error {A} (l : list A) n : nth_ub l (Z.of_nat n) = match nth_error l n with Some x => Ok x | None => Ub BadIndex end.
Proof.
  unfold nth_ub. rewrite Nat2Z.id. destruct (nth_error l n) eqn:E; [|destruct (_ && _); reflexivity]. assert (n < length l)%nat by (apply nth_error_Some; congruence).
  replace ((0 <=? Z.of_nat n) && (Z.of_nat n <? zlen l)) with true by (unfold zlen; lia). reflexivity.
Qed.
Lemma v_ub n : same_entry n p q -> nth_ub (h_dirs (p_nt q)) (Z.of_nat n) = nth_ub (h_dirs (p_nt p)) (Z.of_nat n).
Proof. unfold same_entry. rewrite !nth_ub_error. intros ->. reflexivity. Qed.
Lemma v_rva n : same_entry n p q -> get_directory_rva q (Z.of_nat n) = get_directory_rva p (Z.of_nat n).
Proof. intros N. unfold get_directory_rva. rewrite v_nrva, (v_ub n N). reflexivity. Qed.
Lemma v_dsize n : same_entry n p q -> get_directory_size q (Z.of_nat n) = get_directory_size p (Z.of_nat n).
Proof. intros N. unfold get_directory_size. rewrite v_nrva, (v_ub n N). reflexivity. Qed.
Lemma v_exists n : same_entry n p q -> directory_exists q (Z.of_nat n) = directory_exists p (Z.of_nat n).
Proof. intros N. unfold directory_exists. rewrite v_nrva, (v_ub n N). reflexivity. Qed.
Ltac own := rewrite ?v_read, ?v_length, ?v_ptr, ?v_va, ?v_read_va, ?v_length_va, ?v_mod, ?v_size, ?v_thunk, ?v_snap, ?v_config, ?v_tls, ?v_plus, ?v_debug; reflexivity.
Ltac entry n N := rewrite ?(v_exists n N), ?(v_rva n N), ?(v_dsize n N).
Lemma own_exports (info : bool) : same_entry 0 p q -> get_exports q info = get_exports p info.
Proof. intros N. unfold get_exports, export_functions, export_name_scan, export_string. change dir_export with (Z.of_nat 0). entry 0%nat N. own. Qed.
Lemma own_imports  : same_entry 1 p q -> get_imports q = get_imports p.
Proof. intros N. unfold get_imports, import_entry, import_thunks, import_lookup, import_string. change dir_import with (Z.of_nat 1). entry 1%nat N. own. Qed.
Lemma own_resources  : same_entry 2 p q -> get_resources q = get_resources p.
Proof. intros N. unfold get_resources, process_resources, read_rdir, read_rentry, read_rname, read_rdata. change dir_resource with (Z.of_nat 2). entry 2%nat N. own. Qed.
Lemma own_exceptions  : same_entry 3 p q -> get_exception_directory_data q = get_exception_directory_data p.
Proof. intros N. unfold get_exception_directory_data, exception_loop. change dir_exception with (Z.of_nat 3). entry 3%nat N. own. Qed.
Lemma own_relocations (abs : bool) : same_entry 5 p q -> get_relocations q abs = get_relocations p abs.
Proof. intros N. unfold get_relocations, reloc_blocks, reloc_items, read_reloc_header, has_reloc, check_characteristics_flag. change dir_basereloc with (Z.of_nat 5). entry 5%nat N. fold (chars q) (chars p). rewrite ?v_chars. own. Qed.
Lemma own_debug  : same_entry 6 p q -> get_debug_information q = get_debug_information p.
Proof. intros N. unfold get_debug_information, debug_step, advanced_info. change dir_debug with (Z.of_nat 6). entry 6%nat N. own. Qed.
Lemma own_tls  : same_entry 9 p q -> get_tls q = get_tls p.
Proof. intros N. unfold get_tls, tls_size, va_list, fix_addresses, field_rva. change dir_tls with (Z.of_nat 9). entry 9%nat N. own. Qed.
Lemma own_config  : same_entry 10 p q -> get_config q = get_config p.
Proof. intros N. unfold get_config, config_size, config_handlers, va_list, fix_addresses, field_rva. change dir_load_config with (Z.of_nat 10). entry 10%nat N. own. Qed.
Lemma own_bound  : same_entry 11 p q -> get_bound_imports q = get_bound_imports p.
Proof. intros N. unfold get_bound_imports. change dir_bound_import with (Z.of_nat 11). entry 11%nat N. own. Qed.
Lemma own_dotnet  : same_entry 14 p q -> get_basic_dotnet_info q = get_basic_dotnet_info p.
Proof. intros N. unfold get_basic_dotnet_info, is_dotnet. change dir_com with (Z.of_nat 14). entry 14%nat N. own. Qed.
End View.
Lemma directory_view k d p : same_view p (with_directory k d p). Proof. repeat split. Qed.
Lemma directory_entry k d p n : k <> n -> same_entry n p (with_directory k d p).
Proof. intros N. unfold same_entry. change (h_dirs (p_nt (with_directory k d p))) with (upd (h_dirs (p_nt p)) k d). apply nth_error_upd_other. exact N. Qed.
