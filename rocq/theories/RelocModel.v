(** Model of pe_relocations.cpp. *)
From Verif Require Export DirModel.

(** pe_relocations.h: relocation_entry (rva_, type_), relocation_table (rva_, relocations_). *)
Definition reloc_entry : Type := (Z * Z)%type.
(** pe_relocations.h: relocation_table. *)
Definition reloc_table : Type := (Z * list reloc_entry)%type.
(** pe_relocations.cpp:16-18, 55-59 relocation_entry(item), set_item. *)
Definition entry_of_item (v : Z) : reloc_entry := (Z.land v 0xFFF, Z.shiftr v 12).
(** pe_relocations.cpp:49-52 get_item: int arithmetic, converted to uint16_t. *)
Definition item_of_entry (e : reloc_entry) : Z := u16 (Z.lor (fst e) (Z.shiftl (snd e) 12)).
(** pe_structures.h:96 *)
Definition image_rel_based_absolute : Z := 0.

(** pe_relocations.cpp:138-143: the items of one block from offset [i]. *)
Definition reloc_items (p : pe) (pos size : Z) (abs : bool) : res (list reloc_entry) :=
  mloop big_fuel (fun st : Z * list reloc_entry =>
    let '(i, acc) := st in
    if i <? size then
      bs <- read_rva p (u32 (pos + i)) 2 VirtData true ;;
      let e := entry_of_item (unle bs) in
      Ok (inl (u32 (i + 2), if abs || negb (snd e =? image_rel_based_absolute) then acc ++ [e] else acc))
    else Ok (inr acc)) (8, []).
(** image_base_relocation (pe_structures.h:676-681): VirtualAddress, SizeOfBlock. *)
Definition read_reloc_header (p : pe) (pos : Z) : res (Z * Z) :=
  bs <- read_rva p pos 8 VirtData true ;;
  Ok (unle (slice bs 0 4), unle (slice bs 4 4)).
(** pe_relocations.cpp:126-158 the loop over the blocks. *)
Definition reloc_blocks (p : pe) (start va0 size0 reloc_size : Z) (abs : bool) : res (list reloc_table) :=
  mloop big_fuel (fun st : Z * Z * Z * Z * list reloc_table =>
    let '(pos, read_size, va, size, acc) := st in
    if negb (size =? 0) && (read_size <? reloc_size) then
      throw_if (negb (is_sum_safe pos size)) incorrect_relocation_directory ;;;
      items <- reloc_items p pos size abs ;;
      let acc' := acc ++ [(va, items)] in
      throw_if (negb (is_sum_safe pos size)) incorrect_relocation_directory ;;;
      let pos' := u32 (pos + size) in
      let read_size' := u32 (read_size + size) in
      if reloc_size <=? read_size' then Ok (inr acc')
      else
        ' (va', size') <- read_reloc_header p pos' ;;
        Ok (inl (pos', read_size', va', size', acc'))
    else Ok (inr acc)) (start, 0, va0, size0, []).
(** pe_relocations.cpp:100-161 get_relocations. *)
Definition get_relocations (p : pe) (abs : bool) : res (list reloc_table) :=
  has <- has_reloc p ;;
  if has then
    rva <- get_directory_rva p dir_basereloc ;;
    len <- length_rva p rva rva VirtData true ;;
    throw_if (len <? 8) incorrect_relocation_directory ;;;
    ' (va, size) <- read_reloc_header p rva ;;
    throw_if (negb (size mod 2 =? 0)) incorrect_relocation_directory ;;;
    reloc_size <- get_directory_size p dir_basereloc ;;
    reloc_blocks p rva va size reloc_size abs
  else Ok [].

(** pe_relocations.cpp:177-191: the size of the tables. *)
Definition reloc_needed (start delta : Z) (tables : list reloc_table) : Z :=
  fold_left (fun needed t =>
    let n := u32 (needed + u32 (2 * zlen (snd t) + 8)) in
    if u32 (start + n - delta) mod 4 =? 0 then n else u32 (n + 2)) tables delta.
(** pe_relocations.cpp:207-236: the tables are written one after the other. *)
Definition write_items (st : list Z * Z) (l : list reloc_entry) : res (list Z * Z) :=
  mfold (fun st e => d <- wr (fst st) (snd st) (le 2 (item_of_entry e)) ;; Ok (d, u32 (snd st + 2))) l st.
(** pe_relocations.cpp:207-236: one table. *)
Definition write_table (st : list Z * Z) (t : reloc_table) : res (list Z * Z) :=
  let n := zlen (snd t) in
  let size := u32 (8 + 2 * n) in
  let size' := if (2 * n) mod 4 =? 0 then size else u32 (size + 2) in
  d <- wr (fst st) (snd st) (le 4 (fst t) ++ le 4 size') ;;
  ' (d2, pos2) <- write_items (d, u32 (snd st + 8)) (snd t) ;;
  if pos2 mod 4 =? 0 then Ok (d2, pos2)
  else d3 <- wr d2 pos2 [0; 0] ;; Ok (d3, u32 (pos2 + 2)).
(** pe_relocations.cpp:169-260 rebuild_relocations. *)
Definition rebuild_relocations (p : pe) (tables : list reloc_table) (i : nat) (off : Z) (save auto_strip : bool)
  : res (pe * (Z * Z)) :=
  let pos := align_up off 4 in
  let delta := u32 (pos - off) in
  let needed := reloc_needed pos delta tables in
  let total := u32 (needed + pos) in
  s <- open_room p i total (align_up total (falign p)) ;;
  ' (d, _) <- mfold write_table tables (s_data s, pos) ;;
  let rva := rva_from_section_offset s pos in
  let size := u32 (needed - delta) in
  p2 <- recalculate_section_sizes (put_section p i (set_s_data d s)) i auto_strip ;;
  if save then
    p3 <- set_directory p2 dir_basereloc rva size ;;
    let p4 := clear_characteristics_flags image_file_relocs_stripped p3 in
    Ok (with_nt (fun h => set_h_dllchars (Z.lor (h_dllchars h) image_dllcharacteristics_dynamic_base) h) p4, (rva, size))
  else Ok (p2, (rva, size)).

(** memcpy to pe_base::section_data_from_rva(rva, true) (pe_base.cpp:732-745): writes
    [bs] to the headers or to the raw data of the section. *)
Definition poke (p : pe) (rva : Z) (bs : list Z) : res pe :=
  if rva <? zlen (p_full p) then d <- wr (p_full p) rva bs ;; Ok (set_p_full d p)
  else
    i <- section_from_rva p rva ;;
    s <- get_section p i ;;
    let s1 := unmap_virtual s in
    throw_if (zlen (s_data s1) =? 0) section_is_empty ;;;
    d <- wr (s_data s1) (rva - s_va s) bs ;;
    Ok (put_section p i (set_s_data d s1)).
(** sizeof(BaseSize), pe_structures.h:1064-1098. *)
Definition base_size (p : pe) : nat := if p_plus p then 8%nat else 4%nat.
(** pe_properties_generic.h:19: the number of values of BaseSize. *)
Definition base_mod (p : pe) : Z := if p_plus p then 2^64 else 2^32.
(** pe_relocations.cpp:291-298: one relocated word. *)
Definition rebase_word (delta : Z) (p : pe) (rva : Z) : res pe :=
  bs <- read_rva p rva (Z.of_nat (base_size p)) RawData true ;;
  poke p rva (le (base_size p) ((unle bs + delta) mod base_mod p)).
(** pe_relocations.cpp:281-299: one table; ABSOLUTE entries are skipped. *)
Definition rebase_table (delta : Z) (p : pe) (t : reloc_table) : res pe :=
  mfold (fun p e => if snd e =? image_rel_based_absolute then Ok p
                    else rebase_word delta p (u32 (fst t + fst e))) (snd t) p.
(** pe_relocations.cpp:263-301 rebase_image, rebase_image_base; set_image_base_64:
    pe_properties_generic.cpp:163-167. *)
Definition rebase_image (p : pe) (tables : list reloc_table) (new_base : Z) : res pe :=
  let delta := (new_base - imagebase p) mod base_mod p in
  p' <- mfold (rebase_table delta) tables p ;;
  Ok (with_nt (set_h_imagebase (new_base mod base_mod p)) p').
