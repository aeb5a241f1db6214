(** Model of what an operation leaves behind when it throws: the functions that edit an image, as steps on the image in memory. *)
From Verif Require Export ConfigModel BoundModel ExportModel ResModel RelocModel TlsModel.

(** An operation gets the image in memory; it leaves an image, and returns a value, throws, or is undefined. *)
Definition op (A : Type) : Type := pe -> pe * res A.
(** A result of something that does not change the image. *)
Definition pass {A} (r : res A) : op A := fun p => (p, r).
(** The image as it is now. *)
Definition look : op pe := fun p => (p, Ok p).
(** A change of the image. *)
Definition change (f : pe -> pe) : op unit := fun p => (f p, Ok tt).
(** One after the other; what throws ends the operation. *)
Definition step {A B} (m : op A) (k : A -> op B) : op B := fun p =>
  match m p with
  | (q, Ok a) => k a q
  | (q, Throw e) => (q, Throw e)
  | (q, Ub u) => (q, Ub u)
  | (q, Fuel) => (q, Fuel)
  end.
Notation "x <~ m ;; k" := (step m (fun x => k)) (at level 61, m at next level, right associativity).
Notation "m ;~ k" := (step m (fun _ : unit => k)) (at level 61, right associativity).
(** A list of steps. *)
Fixpoint each {A} (f : A -> op unit) (l : list A) : op unit :=
  match l with [] => pass (Ok tt) | a :: t => f a ;~ each f t end.

(** ** Headers and sections *)
(** pe_properties_generic.cpp:83-92 set_directory_rva. *)
Definition run_set_directory_rva (id rva : Z) : op unit :=
  p <~ look ;; pass (throw_if (nrva p <=? id) directory_does_not_exist) ;~
  d <~ pass (nth_ub (h_dirs (p_nt p)) id) ;; change (fun p => store_dir p id (rva, snd d)).
(** pe_properties_generic.cpp:94-102 set_directory_size. *)
Definition run_set_directory_size (id size : Z) : op unit :=
  p <~ look ;; pass (throw_if (nrva p <=? id) directory_does_not_exist) ;~
  d <~ pass (nth_ub (h_dirs (p_nt p)) id) ;; change (fun p => store_dir p id (fst d, size)).
(** pe_base.cpp:235-249 set_file_alignment. *)
Definition run_set_file_alignment (a : Z) : op unit :=
  pass (throw_if (a <? minimum_file_alignment) incorrect_file_alignment) ;~
  pass (throw_if (negb (is_power_of_2 a)) incorrect_file_alignment) ;~
  p <~ look ;; pass (throw_if (salign p <? a) incorrect_file_alignment) ;~
  change (with_nt (set_h_falign a)).
(** pe_base.cpp:191-224 realign_section. *)
Definition run_realign_section (index : nat) : op unit :=
  p <~ look ;; pass (throw_if (negb (Nat.ltb index (length (p_sections p)))) section_not_found) ;~
  s0 <~ pass (get_section p index) ;;
  let s := unmap_virtual s0 in
  let d := s_data s in
  let n := if Nat.eqb index (length (p_sections p) - 1) then zlen d - trailing0_count d else aligned_rawsize (falign p) s in
  let size := if Nat.eqb index (length (p_sections p) - 1) then u32 n else n in
  change (fun p => put_section p index (set_s_rawsize size s)) ;~
  change (fun p => put_section p index (set_s_data (resize d n) (set_s_rawsize size s))).
(** pe_base.cpp:334-360 set_section_virtual_size. *)
Definition run_set_section_virtual_size (i : nat) (vsize : Z) : op unit :=
  p <~ look ;; pass (throw_if (not_last p i) error_changing_section_virtual_size) ;~
  s <~ pass (get_section p i) ;;
  (if vsize =? 0 then
     pass (throw_if (sec_empty s) error_changing_section_virtual_size) ;~
     change (fun p => put_section p i (set_s_vsize (s_rawsize s) s))
   else change (fun p => put_section p i (set_s_vsize vsize s))) ;~
  change update_image_size.
(** pe_base.cpp:437-459 prepare_section on a section of the image: the raw size is stored before the check. *)
Definition run_prepare_section (i : nat) : op unit :=
  p <~ look ;; s <~ pass (get_section p i) ;;
  let s1 := unmap_virtual s in
  let s2 := set_s_rawsize (u32 (align_up64 (zlen (s_data s1)) (falign p))) s1 in
  change (fun p => put_section p i s2) ;~
  pass (throw_if ((s_rawsize s2 =? 0) && (s_vsize s2 =? 0)) zero_section_sizes) ;~
  change (fun p => put_section p i (if s_vsize s2 =? 0 then set_s_vsize (s_rawsize s2) s2
    else set_s_vsize (Z.max (align_up (s_rawsize s2) (falign p)) (align_up (s_vsize s2) (salign p))) s2)).
(** pe_base.cpp:1564-1592 recalculate_section_sizes. *)
Definition run_recalculate (i : nat) (auto_strip : bool) : op unit :=
  run_prepare_section i ;~
  p <~ look ;; s1 <~ pass (get_section p i) ;;
  (if auto_strip && negb (Nat.eqb i (length (p_sections p) - 1))
   then let d := strip_keep1 (s_data s1) in change (fun p => put_section p i (set_s_rawsize (u32 (zlen d)) (set_s_data d s1)))
   else pass (Ok tt)) ;~
  p <~ look ;; s2 <~ pass (get_section p i) ;;
  (if align_up (s_vsize s2) (salign p) <? align_up (s_rawsize s2) (falign p)
   then run_set_section_virtual_size i (align_up (s_rawsize s2) (salign p))
   else pass (Ok tt)).
(** pe_base.cpp:365-391 expand_section. *)
Definition run_expand_section (i : nat) (needed_rva needed_size : Z) (k : expand_kind) : op bool :=
  p <~ look ;; pass (throw_if (not_last p i) error_expanding_section) ;~
  s <~ pass (get_section p i) ;;
  match k with
  | ExpandRaw =>
      len <~ pass (length_in_section p s needed_rva RawData) ;;
      if len <? needed_size then
        change (fun p => put_section p i (with_raw (fun d => resize d (u32 (needed_rva - s_va s + needed_size))) s)) ;~
        run_recalculate i false ;~ pass (Ok true)
      else pass (Ok false)
  | ExpandVirtual =>
      len <~ pass (length_in_section p s needed_rva VirtData) ;;
      if len <? needed_size then run_set_section_virtual_size i (u32 (needed_rva - s_va s + needed_size)) ;~ pass (Ok true)
      else pass (Ok false)
  end.
(** pe_base.cpp:462-500 add_section; [s0] is the caller's copy, which prepare_section works on. *)
Definition run_add_section (s0 : section) (autoupdate : bool) : op unit :=
  p <~ look ;; pass (throw_if (maximum_number_of_sections <=? zlen (p_sections p)) no_more_sections_can_be_added) ;~
  s1 <~ pass (prepare_section (falign p) (salign p) s0) ;;
  s2 <~ (match rev (p_sections p) with
         | last :: _ =>
             (if autoupdate
              then let l := unmap_virtual last in
                   change (fun p => put_section p (length (p_sections p) - 1) (set_s_rawsize (u32 (align_up64 (zlen (s_data l)) (falign p))) l))
              else pass (Ok tt)) ;~
             pass (Ok (set_s_va (align_up (u32 (s_va last + aligned_vsize (salign p) last)) (salign p)) s1))
         | [] => pass (Ok (set_s_va (if s_va s1 =? 0 then align_up (hdrsize p) (salign p) else align_up (s_va s1) (salign p)) s1))
         end) ;;
  change (fun p => set_p_sections (p_sections p ++ [s2]) p) ;~
  change (fun p => set_number_of_sections (u16 (zlen (p_sections p))) p) ;~
  change (fun p => set_size_of_image (u32 (imagesize p + aligned_vsize (salign p) s2)) p).

(** ** Rebuilders *)
(** The checks and the lengthening of the section ([open_room] in DirModel.v cites the lines). *)
Definition run_open_room (i : nat) (total len : Z) : op section :=
  p <~ look ;; s <~ pass (open_room p i total len) ;; change (fun p => put_section p i s) ;~ pass (Ok s).
(** The end: sizes of the section, then the directory entry ([finish_directory] in DirModel.v cites the lines). *)
Definition run_finish (i : nat) (s1 : section) (d : list Z) (pos size id : Z) (save strip : bool) : op (Z * Z) :=
  change (fun p => put_section p i (set_s_data d s1)) ;~
  run_recalculate i strip ;~
  (if save then run_set_directory_rva id (rva_from_section_offset s1 pos) ;~ run_set_directory_size id size else pass (Ok tt)) ;~
  pass (Ok (rva_from_section_offset s1 pos, size)).
(** pe_relocations.cpp:171-260 rebuild_relocations. Nothing throws while the tables are written: that they are stored at once is not visible. *)
Definition run_rebuild_relocations (tables : list reloc_table) (i : nat) (off : Z) (save strip : bool) : op (Z * Z) :=
  p <~ look ;;
  let pos := align_up off 4 in
  let delta := u32 (pos - off) in
  let needed := reloc_needed pos delta tables in
  let total := u32 (needed + pos) in
  s <~ run_open_room i total (align_up total (falign p)) ;;
  r <~ pass (mfold write_table tables (s_data s, pos)) ;;
  d <~ run_finish i s (fst r) pos (u32 (needed - delta)) dir_basereloc save strip ;;
  (if save then change (fun p => with_nt (fun h => set_h_dllchars (Z.lor (h_dllchars h) image_dllcharacteristics_dynamic_base) h)
                                  (clear_characteristics_flags image_file_relocs_stripped p)) else pass (Ok tt)) ;~
  pass (Ok d).
(** pe_bound_import.cpp:203-289 rebuild_bound_imports. *)
Definition run_rebuild_bound_imports (imports : list bound_import) (i : nat) (off : Z) (save strip : bool) : op (Z * Z) :=
  let pos := align_up off 4 in
  let strings := bound_string_size imports in
  let needed := u32 (bound_struct_size imports + strings) in
  s1 <~ run_open_room i (u32 (needed + pos)) (u32 (needed + pos)) ;;
  r <~ pass (mfold (write_bound_import pos) imports (s_data s1, pos, u32 (pos + needed - strings))) ;;
  run_finish i s1 (fst (fst r)) pos needed dir_bound_import save strip.
(** pe_exports.cpp:479-677 rebuild_exports: duplicates are found before anything is changed. *)
Definition run_rebuild_exports (info : export_info) (l : list exported) (i : nat) (off : Z) (save strip : bool) : op (Z * Z) :=
  p <~ look ;; pass (throw_if (negb (section_attached p i)) section_is_not_attached) ;~
  sc <~ pass (export_scan (if is_empty l then xi_base info else 0xFFFFFFFF) l) ;;
  let '(nn, base, top, names_size, fwd_size) := sc in
  let sorted := sort_by_ordinal l in
  let dll_size := u32 (zlen (xi_name info) + 1) in
  let nfuncs := u32 (top - base + 1) in
  let pos := align_up off 4 in
  let needed := u32 (40 + u32 (nn * 2) + u32 (nfuncs * 4) + u32 (dll_size + names_size + fwd_size) + u32 (nn * 4)) in
  s1 <~ run_open_room i (u32 (needed + pos)) (u32 (needed + pos)) ;;
  let npos := u32 (zlen (xi_name info) + 1 + pos + 40) in
  let opos := u32 (npos + names_size) in
  let fpos := u32 (opos + u32 (nn * 2)) in
  let apos := u32 (fpos + fwd_size) in
  let rpos := u32 (apos + u32 (nfuncs * 4)) in
  d4 <~ pass (d1 <- wr (s_data s1) pos (enc_fields export_widths
                [xi_chars info; xi_time info; xi_major info; xi_minor info; rva_from_section_offset s1 (u32 (pos + 40)); base; nfuncs; nn;
                 rva_from_section_offset s1 apos; rva_from_section_offset s1 rpos; rva_from_section_offset s1 opos]) ;;
              d2 <- wr d1 (pos + 40) (xi_name info ++ [0]) ;;
              ' (d3, _, _, _, m) <- mfold (write_export s1 base) sorted (d2, base, apos, fpos, []) ;;
              ' (d4, _, _, _) <- mfold (write_export_name s1) m (d3, npos, rpos, opos) ;;
              Ok d4) ;;
  run_finish i s1 d4 pos needed dir_export save strip.
(** pe_resources.cpp:575-629 rebuild_resources: an entry that holds nothing is found when the sizes are computed. *)
Definition run_rebuild_resources (t : rnode) (i : nat) (off : Z) (save strip : bool) : op (Z * Z * rnode) :=
  p <~ look ;; pass (throw_if (negb (section_attached p i)) section_is_not_attached) ;~
  pass (throw_if (match t with RDir _ (_ :: _) => false | _ => true end) incorrect_resource_directory) ;~
  let base := align_up off 4 in
  ts <~ pass (tables_space t (u32 (base - off), 0)) ;;
  let '(structs, strings) := ts in
  ds <~ pass (data_space t (0, u32 (u32 (base + structs) + strings))) ;;
  let needed := u32 (u32 (structs + strings) + fst ds) in
  s1 <~ run_open_room i (u32 (needed + base)) (u32 (needed + base)) ;;
  let spos := u32 (base + structs) in
  w <~ pass (write_rdir s1 base (sort_tree t) (mk_rout (s_data s1) base (u32 (spos + strings)) spos)) ;;
  d <~ run_finish i s1 (w_data w) base needed dir_resource save strip ;;
  pass (Ok (d, sort_tree t)).
(** pe_load_config.cpp:503-519: the lock prefixes, each converted right before it is written, and the zero at the end. *)
Fixpoint run_write_locks (p : pe) (i : nat) (s1 : section) (l : list Z) (dk : list Z * Z) : op (list Z) :=
  match l with
  | [] => r <~ pass (write_words (base_size p) dk 0) ;; change (fun p => put_section p i (set_s_data (fst r) s1)) ;~ pass (Ok (fst r))
  | v :: l => va <~ pass (rva_to_va p v) ;; r <~ pass (write_words (base_size p) dk va) ;; change (fun p => put_section p i (set_s_data (fst r) s1)) ;~
              run_write_locks p i s1 l r
  end.
(** pe_load_config.cpp:388-534 rebuild_image_config_base: the addresses of the tables are converted after the section was lengthened, and each
    lock prefix while the list is written. *)
Definition run_rebuild_config (c : config) (i : nat) (off : Z) (handlers locks save strip : bool) : op (Z * Z) :=
  p <~ look ;;
  let sz := Z.of_nat (base_size p) in
  let pos := u32 (off + u32 (align_up off sz - off)) in
  let hpos := u32 (config_size p + pos) in
  let n1 := if handlers then u32 (config_size p + u32 (zlen (c_handlers c)) * 4) else config_size p in
  let lpos := u32 (n1 + pos) in
  let n2 := if locks then u32 (n1 + u32 ((zlen (c_locks c) + 1) * sz)) else n1 in
  s1 <~ run_open_room i (u32 (n2 + pos)) (u32 (n2 + pos)) ;;
  let wh := handlers && negb (zlen (c_handlers c) =? 0) in
  let wl := locks && negb (zlen (c_locks c) =? 0) in
  table <~ pass (if wh then rva_to_va p (rva_from_section_offset s1 hpos) else Ok (if handlers then 0 else c_table c mod base_mod p)) ;;
  lock <~ pass (if wl then rva_to_va p (rva_from_section_offset s1 lpos) else Ok (if locks then 0 else c_lock_table c mod base_mod p)) ;;
  let b v := v mod base_mod p in
  let x := if p_plus p then b (c_affinity c) else c_heap c in
  let y := if p_plus p then c_heap c else b (c_affinity c) in
  d1 <~ pass (wr (s_data s1) pos (enc_fields (config_widths p)
    [config_size p; c_time c; c_major c; c_minor c; c_clear c; c_set c; c_timeout c; b (c_free c); b (c_total c); lock;
     b (c_max c); b (c_threshold c); x; y; c_pack c; 0; b (c_edit c); b (c_cookie c); table; b (zlen (c_handlers c))])) ;;
  d2 <~ pass (if wh then ' (d, _) <- mfold (write_words 4) (sort_numbers (c_handlers c)) (d1, hpos) ;; Ok d else Ok d1) ;;
  change (fun p => put_section p i (set_s_data d2 s1)) ;~
  d3 <~ (if wl then run_write_locks p i s1 (c_locks c) (d2, lpos) else pass (Ok d2)) ;;
  run_finish i s1 d3 pos (config_size p) dir_load_config save strip.

(** pe_tls.cpp:284-317: the section is expanded before the lengths are checked. *)
Definition run_write_tls_data (t : tls) (k : expand_kind) : op unit :=
  let n := u32 (t_end t - t_start t) in
  p <~ look ;; p1 <~ pass (try_expand p (t_start t) n k) ;; change (fun _ => p1) ;~
  raw <~ pass (length_rva p1 (t_start t) (t_start t) RawData true) ;;
  m <~ pass (if raw <? n then virt <- length_rva p1 (t_start t) (t_start t) VirtData true ;; throw_if (virt <? n) insufficient_space ;;; Ok raw else Ok n) ;;
  if m =? 0 then pass (Ok tt) else p2 <~ pass (bs <- rd (t_data t) 0 m ;; write_rva p1 (t_start t) bs) ;; change (fun _ => p2).
(** pe_tls.cpp:320-358: the same, then the callbacks are converted. *)
Definition run_write_tls_callbacks (t : tls) : op unit :=
  p <~ look ;;
  let sz := Z.of_nat (base_size p) in
  let n := u32 ((zlen (t_list t) + 1) * sz) in
  p1 <~ pass (try_expand p (t_callbacks t) n ExpandRaw) ;; change (fun _ => p1) ;~
  raw <~ pass (length_rva p1 (t_callbacks t) (t_callbacks t) RawData true) ;;
  pass (throw_if (raw <? u64 (n - sz)) insufficient_space) ;~
  virt <~ pass (length_rva p1 (t_callbacks t) (t_callbacks t) VirtData true) ;;
  pass (throw_if (virt <? n) insufficient_space) ;~
  vas <~ pass (mmap (rva_to_va p1) (t_list t)) ;;
  p2 <~ pass (bs <- rd (concat (map (le (base_size p)) (vas ++ [0]))) 0 n ;; write_rva p1 (t_callbacks t) bs) ;; change (fun _ => p2).
(** pe_tls.cpp:229-374 rebuild_tls_base: the positions are checked before the section is lengthened, the addresses are converted after that. *)
Definition run_rebuild_tls (t : tls) (i : nat) (off : Z) (callbacks data : bool) (k : expand_kind) (save strip : bool) : op (Z * Z) :=
  p <~ look ;;
  let pos := align_up off (Z.of_nat (base_size p)) in
  let total := u32 (tls_size p + pos) in
  s1 <~ pass (open_room p i total total) ;;
  pass (throw_if ((t_end t <? t_start t) || (t_index t =? 0)) incorrect_tls_directory) ;~
  change (fun p => put_section p i s1) ;~
  start <~ pass (if t_start t =? 0 then Ok 0 else rva_to_va p (t_start t)) ;;
  end_ <~ pass (if t_end t =? 0 then Ok 0 else rva_to_va p (t_end t)) ;;
  index <~ pass (rva_to_va p (t_index t)) ;;
  cb <~ pass (if t_callbacks t =? 0 then Ok 0 else rva_to_va p (t_callbacks t)) ;;
  d1 <~ pass (wr (s_data s1) pos (enc_fields (tls_widths p) [start; end_; index; cb; (if t_start t =? 0 then 0 else t_zero t); t_chars t])) ;;
  change (fun p => put_section p i (set_s_data d1 s1)) ;~
  (if data && negb (t_start t =? 0) && negb (t_start t =? t_end t) then run_write_tls_data t k else pass (Ok tt)) ;~
  (if callbacks && negb (t_callbacks t =? 0) then run_write_tls_callbacks t else pass (Ok tt)) ;~
  run_recalculate i strip ;~
  (if save then run_set_directory_rva dir_tls (rva_from_section_offset s1 pos) ;~ run_set_directory_size dir_tls (tls_size p) else pass (Ok tt)) ;~
  pass (Ok (rva_from_section_offset s1 pos, tls_size p)).

(** ** Rebasing *)
(** pe_relocations.cpp:281-299: one entry of a table. *)
Definition run_rebase_entry (delta base_rva : Z) (e : reloc_entry) : op unit :=
  if snd e =? image_rel_based_absolute then pass (Ok tt)
  else
    p <~ look ;;
    q <~ pass (rebase_word delta p (u32 (base_rva + fst e))) ;;
    change (fun _ => q).
(** pe_relocations.cpp:263-302 rebase_image: every word is written before the next one is read, the image base at the end. *)
Definition run_rebase_image (tables : list reloc_table) (new_base : Z) : op unit :=
  p <~ look ;;
  let delta := (new_base - imagebase p) mod base_mod p in
  each (fun t => each (run_rebase_entry delta (fst t)) (snd t)) tables ;~
  change (with_nt (set_h_imagebase (new_base mod base_mod p))).
