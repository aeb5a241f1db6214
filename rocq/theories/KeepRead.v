(** Each reader, on two images that are alike. *)
From Verif Require Export KeepFacts.

Lemma unle_pos v : bytes v -> 0 <= unle v. Proof. intros B. pose proof (unle_bound v B). lia. Qed.
Lemma u32_pos x : 0 <= u32 x. Proof. unfold u32. apply Z.mod_pos_bound. reflexivity. Qed.
Section Read.
Context (raw : bool) (p r : pe) (A : alike raw p r).
Ltac shown_ok := first [reflexivity | assumption | idtac].
Ltac step := match goal with
  | |- sub ?x ?x => apply sub_refl
  | |- sub (Throw _) _ => apply sub_throw
  | |- sub (bind _ _) (bind _ _) => apply sub_then; [|intros ? ?]
  | |- sub (read_rva p _ _ _ _) _ => apply (sub_read raw p r A); shown_ok
  | |- sub (ptr_rva p _ _ _) _ => apply (sub_ptr raw p r A); [shown_ok|]
  | |- sub (length_rva p _ _ _ _) _ => apply (sub_length raw p r A); [shown_ok|]
  | |- sub (if ?b then _ else _) _ => destruct b eqn:?
  | |- sub (match ?x with _ => _ end) _ => destruct x eqn:?
  end.
Lemma exists_eq id : same_dir p r id -> directory_exists r id = directory_exists p id. Proof. intros (H & _). exact H. Qed.
Lemma rva_eq id : same_dir p r id -> get_directory_rva r id = get_directory_rva p id. Proof. intros (_ & H & _). exact H. Qed.
Lemma size_eq id : same_dir p r id -> get_directory_size r id = get_directory_size p id. Proof. intros (_ & _ & H). exact H. Qed.
(** The address of a directory that exists is a number of 32 bits. *)
Context (D : dirs_ok p).
Lemma rva_pos id a : get_directory_rva p id = Ok a -> 0 <= a.
Proof.
  unfold get_directory_rva. destruct (nrva p <=? id); cbn [throw_if bind]; [discriminate|]. unfold nth_ub. destruct ((0 <=? id) && (id <? zlen (h_dirs (p_nt p)))); [|discriminate].
  destruct (nth_error (h_dirs (p_nt p)) (Z.to_nat id)) as [d|] eqn:E; [|discriminate]. cbn [bind]. intros [= <-]. destruct D as [_ F]. rewrite Forall_forall in F. specialize (F d (nth_error_In _ _ E)). unfold is_u32 in F. lia.
Qed.

Lemma keep_xstring a : 0 <= a -> sub (export_string p a) (export_string r a).
Proof. intros N. unfold export_string. repeat (step; try assumption). Qed.
Lemma keep_xscan dir size nn names ords o f : 0 <= e_rva f -> sub (export_name_scan p dir size nn names ords o f) (export_name_scan r dir size nn names ords o f).
Proof.
  intros N. unfold export_name_scan. apply sub_mloop. intros i. repeat step; apply keep_xstring; try exact N.
  all: match goal with H : read_rva p _ _ _ _ = Ok ?v |- 0 <= unle ?v => exact (unle_pos v (read_bytes raw p r A _ _ _ _ _ H)) end.
Qed.
Lemma keep_xfunctions dir size base nf nn f n o : sub (export_functions p dir size base nf nn f n o) (export_functions r dir size base nf nn f n o).
Proof.
  unfold export_functions. apply sub_mloop. intros [k acc]. repeat step. apply keep_xscan. cbn [e_rva].
  match goal with H : read_rva p _ _ _ _ = Ok ?v |- 0 <= unle ?v => exact (unle_pos v (read_bytes raw p r A _ _ _ _ _ H)) end.
Qed.
Lemma keep_exports want : same_dir p r dir_export -> sub (get_exports p want) (get_exports r want).
Proof.
  intros S. unfold get_exports. rewrite (exists_eq _ S), (rva_eq _ S), (size_eq _ S). apply sub_bind; [apply sub_refl|]. intros [|]; [|apply sub_refl].
  apply sub_then; [apply sub_refl|]. intros rva Hr. apply rva_pos in Hr. apply sub_bind; [apply (sub_length raw p r A); [shown_ok|exact Hr]|]. intros len. apply sub_bind; [apply sub_refl|]. intros [].
  apply sub_then; [apply (sub_read raw p r A); shown_ok|]. intros h Hh. apply (read_bytes raw p r A) in Hh. apply sub_bind; [apply sub_refl|]. intros size.
  destruct (dec_fields export_widths h) as [|chars [|time [|major [|minor [|name [|base [|nfuncs [|nnames [|funcs [|names [|ordinals [|]]]]]]]]]]]] eqn:E; try apply sub_throw.
  apply (dec_nonneg _ _ _ Hh) in E. repeat match goal with H : Forall _ (_ :: _) |- _ => inversion_clear H end.
  repeat step; try assumption; [apply keep_xstring; assumption|apply keep_xfunctions].
Qed.

Lemma base_size_eq : base_size r = base_size p. Proof. unfold base_size. rewrite (al_plus raw p r A). reflexivity. Qed.
Lemma base_mod_eq : base_mod r = base_mod p. Proof. unfold base_mod. rewrite (al_plus raw p r A). reflexivity. Qed.
Lemma thunk_size_eq : thunk_size r = thunk_size p. Proof. unfold thunk_size. rewrite base_size_eq. reflexivity. Qed.
Lemma keep_istring a : 0 <= a -> sub (import_string p a) (import_string r a).
Proof. intros N. unfold import_string. repeat (step; try assumption). Qed.
Lemma keep_lookup a w : 0 <= w -> sub (import_lookup p a w) (import_lookup r a w).
Proof. intros N. unfold import_lookup, snap_flag. rewrite base_mod_eq. repeat step. apply keep_istring. lia. Qed.
Ltac from_read := match goal with H : read_rva p _ _ _ _ = Ok ?v |- 0 <= unle ?v => exact (unle_pos v (read_bytes raw p r A _ _ _ _ _ H)) end.
Lemma keep_thunks i o : sub (import_thunks p i o) (import_thunks r i o).
Proof. unfold import_thunks. rewrite thunk_size_eq. apply sub_mloop. intros [[t k] acc]. repeat step. apply keep_lookup. from_read. Qed.
Lemma keep_entry oft time name ft : 0 <= name -> sub (import_entry p oft time name ft) (import_entry r oft time name ft).
Proof. intros N. unfold import_entry. rewrite thunk_size_eq. repeat step; [apply keep_istring, N|apply keep_thunks..]. Qed.
Lemma keep_imports : same_dir p r dir_import -> sub (get_imports p) (get_imports r).
Proof.
  intros S. unfold get_imports. rewrite (exists_eq _ S), (rva_eq _ S). apply sub_bind; [apply sub_refl|]. intros [|]; [|apply sub_refl].
  apply sub_bind; [apply sub_refl|]. intros rva. apply sub_then; [apply (sub_read raw p r A); shown_ok|]. intros e0 He. apply (read_bytes raw p r A) in He.
  apply (sub_mloop_inv (fun st => bytes (snd (fst st)))); [| |exact He].
  - intros [[pos e] acc] B. cbn [fst snd] in B. destruct (dec_fields descriptor_widths e) as [|oft [|time [|x [|name [|ft [|]]]]]] eqn:E; try apply sub_throw.
    apply (dec_nonneg _ _ _ B) in E. repeat match goal with H : Forall _ (_ :: _) |- _ => inversion_clear H end. repeat step. apply keep_entry. assumption.
  - intros [[pos e] acc] s' B. cbn [fst snd] in B. destruct (dec_fields descriptor_widths e) as [|oft [|time [|x [|name [|ft [|]]]]]]; try discriminate.
    destruct (name =? 0); [discriminate|]. destruct (import_entry p oft time name ft); try discriminate. cbn [bind]. destruct (negb (is_sum_safe pos 20)); cbn [throw_if bind]; [discriminate|].
    destruct (read_rva p (u32 (pos + 20)) 20 VirtData true) as [e'| | |] eqn:E; try discriminate. cbn [bind]. intros [= <-]. exact (read_bytes raw p r A _ _ _ _ _ E).
Qed.
Lemma keep_bound : raw = true -> same_dir p r dir_bound_import -> sub (get_bound_imports p) (get_bound_imports r).
Proof.
  intros Raw S. unfold get_bound_imports. rewrite (exists_eq _ S), (rva_eq _ S), (size_eq _ S). apply sub_bind; [apply sub_refl|]. intros [|]; [|apply sub_refl].
  apply sub_then; [apply sub_refl|]. intros rva Hr. apply rva_pos in Hr. repeat (step; try assumption).
Qed.
Lemma has_reloc_eq : same_dir p r dir_basereloc -> has_reloc r = has_reloc p.
Proof. intros S. unfold has_reloc, check_characteristics_flag. fold (chars r) (chars p). rewrite (exists_eq _ S), (al_chars raw p r A). reflexivity. Qed.
Lemma keep_relocations abs : same_dir p r dir_basereloc -> sub (get_relocations p abs) (get_relocations r abs).
Proof.
  intros S. unfold get_relocations. rewrite (has_reloc_eq S), (rva_eq _ S), (size_eq _ S). apply sub_bind; [apply sub_refl|]. intros [|]; [|apply sub_refl].
  apply sub_then; [apply sub_refl|]. intros rva Hr. apply rva_pos in Hr. unfold read_reloc_header at 1 2. repeat (step; try assumption).
  unfold reloc_blocks. apply sub_mloop. intros [[[[pos k] va] size] acc]. unfold read_reloc_header. repeat step. unfold reloc_items. apply sub_mloop. intros [i l]. repeat step.
Qed.
Lemma va_eq va b : va_to_rva r va b = va_to_rva p va b.
Proof. unfold va_to_rva. rewrite (al_base raw p r A). reflexivity. Qed.
Lemma keep_va va n ty h : shown raw ty = true -> sub (read_va p va n ty h) (read_va r va n ty h).
Proof. intros S. unfold read_va. rewrite va_eq. repeat step. Qed.
Lemma keep_va_list ty h next c va : shown raw ty = true -> sub (va_list p ty h next (fun va => va_to_rva p va c) va) (va_list r ty h next (fun va => va_to_rva r va c) va).
Proof. intros S. unfold va_list. rewrite base_mod_eq, base_size_eq. apply sub_mloop. intros [k acc]. apply sub_bind; [apply keep_va, S|]. intros bs. rewrite va_eq. repeat step. Qed.
Lemma va_pos va b a : va_to_rva p va b = Ok a -> 0 <= a.
Proof. unfold va_to_rva. destruct (b && _); cbn [throw_if bind]; [intros E0; discriminate E0|]. intros [= <-]. apply u32_pos. Qed.
Lemma keep_tls : same_dir p r dir_tls -> sub (get_tls p) (get_tls r).
Proof.
  intros S. unfold get_tls. rewrite (exists_eq _ S), (rva_eq _ S). assert (W : tls_widths r = tls_widths p) by (unfold tls_widths; rewrite base_size_eq; reflexivity).
  unfold tls_size. rewrite W. do 2 (apply sub_bind; [apply sub_refl|]; intros ?). apply sub_bind; [apply sub_refl|]. intros rva. apply sub_bind; [apply (sub_read raw p r A); shown_ok|]. intros e.
  destruct (dec_fields (tls_widths p) e) as [|s0 [|e0 [|index [|callbacks [|zero [|chars [|]]]]]]]; try apply sub_throw. unfold fix_addresses, field_rva, length_va. rewrite !va_eq, base_mod_eq, base_size_eq.
  apply sub_bind; [apply sub_refl|]. intros [start end_]. rewrite !va_eq.
  repeat first [step | apply keep_va_list; reflexivity]; eauto using va_pos.
Qed.
Lemma keep_config : raw = true -> same_dir p r dir_load_config -> sub (get_config p) (get_config r).
Proof.
  intros Raw S. unfold get_config, config_size. assert (W : config_widths r = config_widths p) by (unfold config_widths; rewrite base_size_eq, (al_plus raw p r A); reflexivity).
  rewrite (exists_eq _ S), (rva_eq _ S), W, base_mod_eq, base_size_eq, (al_plus raw p r A). do 2 (apply sub_bind; [apply sub_refl|]; intros ?). apply sub_bind; [apply sub_refl|]. intros rva. apply sub_bind; [apply (sub_read raw p r A); shown_ok|]. intros e.
  destruct (dec_fields (config_widths p) e) as [|a1 [|a2 [|a3 [|a4 [|a5 [|a6 [|a7 [|a8 [|a9 [|a10 [|a11 [|a12 [|a13 [|a14 [|a15 [|a16 [|a17 [|a18 [|a19 [|a20 [|]]]]]]]]]]]]]]]]]]]]]; try apply sub_throw.
  do 2 (apply sub_bind; [apply sub_refl|]; intros ?). apply sub_bind.
  - unfold config_handlers. rewrite base_mod_eq. apply sub_mloop. intros [i acc]. destruct (i =? a20); [apply sub_refl|]. apply sub_bind; [apply keep_va, Raw|intros; apply sub_refl].
  - intros hs. apply sub_bind; [destruct (a10 =? 0); [apply sub_refl|apply keep_va_list, Raw]|intros; apply sub_refl].
Qed.
Lemma keep_exceptions : same_dir p r dir_exception -> sub (get_exception_directory_data p) (get_exception_directory_data r).
Proof.
  intros S. unfold get_exception_directory_data. rewrite (exists_eq _ S), (rva_eq _ S). apply sub_bind; [apply sub_refl|]. intros [|]; [|apply sub_refl].
  apply sub_then; [apply sub_refl|]. intros rva Hr. apply rva_pos in Hr. repeat (step; try assumption). unfold exception_loop. repeat step. apply sub_mloop. intros [[pos e] acc]. repeat step.
Qed.
Lemma keep_dotnet : same_dir p r dir_com -> sub (get_basic_dotnet_info p) (get_basic_dotnet_info r).
Proof.
  intros S. unfold get_basic_dotnet_info, is_dotnet. rewrite (exists_eq _ S), (rva_eq _ S). do 3 (apply sub_bind; [apply sub_refl|]; intros ?). apply sub_bind; [apply (sub_read raw p r A); shown_ok|]. intros e. apply sub_refl.
Qed.
Lemma keep_rname rva w : sub (read_rname p rva w) (read_rname r rva w).
Proof. unfold read_rname. repeat step; apply u32_pos. Qed.
Lemma keep_rdata rva w : sub (read_rdata p rva w) (read_rdata r rva w).
Proof.
  unfold read_rdata. apply sub_then; [apply (sub_read raw p r A); shown_ok|]. intros e He. apply (read_bytes raw p r A) in He. destruct (dec_fields [4; 4; 4; 4]%nat e) as [|a [|size [|cp [|x [|]]]]] eqn:E; try apply sub_throw.
  apply (dec_nonneg _ _ _ He) in E. repeat match goal with H : Forall _ (_ :: _) |- _ => inversion_clear H end. repeat (step; try assumption).
Qed.
Lemma keep_resources : same_dir p r dir_resource -> sub (get_resources p) (get_resources r).
Proof.
  intros S. unfold get_resources. rewrite (exists_eq _ S), (rva_eq _ S). apply sub_bind; [apply sub_refl|]. intros [|]; [|apply sub_refl]. apply sub_bind; [apply sub_refl|]. intros rva.
  apply sub_bind; [|intros [t x]; apply sub_refl]. unfold process_resources. apply sub_pfun; [|intros; apply sub_refl]. intros f g H [off seen]. unfold read_rdir. repeat step.
  apply sub_mfold. intros [l' sn] i'. unfold read_rentry. repeat first [step|apply keep_rname|apply keep_rdata|apply H].
Qed.
End Read.
