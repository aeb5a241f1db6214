(** Model of pe_debug.cpp: the reader of the debug directory and the value type it returns. *)
From Verif Require Export LoadModel ReadersModel ResDataModel.

(** ** Records *)
(** pe_debug.h:112-165, pe_debug.cpp:506-515 coff_symbol: storage class, index, section number, RVA, name,
    "is a file name", type. *)
Record coff_symbol : Type := mk_sym {
  cs_class : Z; cs_index : Z; cs_section : Z; cs_rva : Z; cs_name : list Z; cs_file : bool; cs_type : Z }.
(** pe_debug.h:202-213, 272-286: the advanced information of an entry together with its type. A GUID is its
    16 bytes in storage order; wide strings are lists of UTF-16 units, the conversion by iconv outside
    Windows (utils.cpp) is left out. [AdvTyped t]: type [t] without a structure (CodeView 4.0, 5.0, other). *)
Inductive advanced : Type :=
| AdvNone
| AdvPdb7 (guid : list Z) (age : Z) (name : list Z)
| AdvPdb2 (signature age : Z) (name : list Z)
| AdvMisc (data_type : Z) (unicode : bool) (data : list Z)
| AdvCoff (header : list Z) (symbols : list coff_symbol)
| AdvTyped (t : Z).
(** pe_debug.h:202-213 advanced_info_type, pe_debug.cpp:244-247 get_advanced_info_type. *)
Definition advanced_type (a : advanced) : Z :=
  match a with
  | AdvNone => 0 | AdvPdb7 _ _ _ => 1 | AdvPdb2 _ _ _ => 2 | AdvMisc _ _ _ => 3 | AdvCoff _ _ => 4 | AdvTyped t => t
  end.
(** pe_debug.cpp:298-303 set_advanced_info_type: what there is is freed first, which makes the type
    "none" (187-210); the new type is stored only if the type is then at least advanced_info_codeview_4_0. *)
Definition set_advanced_type (a : advanced) (t : Z) : advanced :=
  let a1 := AdvNone in if 5 <=? advanced_type a1 then AdvTyped t else a1.
(** pe_debug.cpp:21-32 the fields of a directory entry: characteristics, time stamp, major and minor version,
    type, size, address and file offset of the data. *)
Record debug_info : Type := mk_debug {
  d_chars : Z; d_time : Z; d_major : Z; d_minor : Z; d_type : Z; d_size : Z; d_addr : Z; d_ptr : Z; d_adv : advanced }.
(** pe_debug.cpp:21-32: the constructor from a directory entry. *)
Definition debug_of (b : list Z) (a : advanced) : debug_info :=
  mk_debug (unle (slice b 0 4)) (unle (slice b 4 4)) (unle (slice b 8 2)) (unle (slice b 10 2)) (dd_type b) (dd_size b)
    (unle (slice b 20 4)) (dd_ptr b) a.

(** ** COFF symbols *)
(** pe_structures.h:787-803: sizeof(image_symbol), and int16_t. *)
Definition sizeof_symbol : Z := 18.
(** pe_structures.h:788-808 image_symbol: a 16-bit field that is signed. *)
Definition s16 (x : Z) : Z := if x <? 2^15 then x else x - 2^16.
(** pe_structures.h:191-193 ISFCN *)
Definition is_fcn (ty : Z) : bool := Z.land ty 0x30 =? 0x20.
(** pe_debug.cpp:702-733: the name of a symbol, in its 8 bytes or in the string table behind the [n] symbols. *)
Definition symbol_name (d : list Z) (n lva : Z) (sym : list Z) : res (list Z) :=
  if negb (unle (slice sym 0 4) =? 0) then
    r <- c_string (slice sym 0 8 ++ [0]) 0 9 ;;
    match r with Some name => Ok name | None => Ub OobRead end
  else
    let long := unle (slice sym 4 4) in
    throw_if (negb (is_sum_safe (u32 (lva + n * sizeof_symbol)) long)) incorrect_debug_directory ;;;
    let off := u32 (lva + n * sizeof_symbol + long) in
    throw_if (zlen d <? off) incorrect_debug_directory ;;;
    r <- c_string d off (zlen d - off) ;;
    match r with Some name => Ok name | None => Throw incorrect_debug_directory end.
(** pe_debug.cpp:659-741: one turn of the loop over the symbols, with the step of the for statement. *)
Definition symbol_step (d : list Z) (n lva : Z) (st : Z * list coff_symbol) : res (Z * list coff_symbol + list coff_symbol) :=
  let '(i, acc) := st in
  if i <? n then
    sym <- rd d (i * sizeof_symbol + lva) sizeof_symbol ;;
    let value := unle (slice sym 8 4) in
    let sec := s16 (unle (slice sym 12 2)) in
    let ty := unle (slice sym 14 2) in
    let class := unle (slice sym 16 1) in
    let aux := unle (slice sym 17 1) in
    throw_if (negb (is_sum_safe i aux) || (n <? u32 (i + aux)) ||
              (zlen d <? (i + 1) * sizeof_symbol + lva + aux * sizeof_symbol)) incorrect_debug_directory ;;;
    if class =? 0x67 then
      name <- rd d ((i + 1) * sizeof_symbol) (aux * sizeof_symbol) ;;
      Ok (inl (u32 (u32 (i + aux) + 1), acc ++ [mk_sym class i 0 0 (strip_nullbytes name) true ty]))
    else if ((class =? 3) && (aux =? 0) && (sec =? 1)) || ((class =? 2) && is_fcn ty && (0 <? sec)) then
      name <- symbol_name d n lva sym ;;
      Ok (inl (u32 (u32 (i + aux) + 1), acc ++ [mk_sym class i (u32 sec) value name false ty]))
    else Ok (inl (u32 (i + 1), acc))
  else Ok (inr acc).
(** pe_debug.cpp:638-746: COFF data. The products are size_t values; those stored in or passed as uint32_t
    are reduced. *)
Definition coff_info (d : list Z) : res advanced :=
  throw_if (zlen d <? 32) incorrect_debug_directory ;;;
  h <- rd d 0 32 ;;
  let n := unle (slice h 0 4) in
  let lva := unle (slice h 4 4) in
  throw_if ((max_dword / sizeof_symbol <=? n) || negb (is_sum_safe (u32 (n * sizeof_symbol)) lva)) incorrect_debug_directory ;;;
  throw_if (zlen d <? n * sizeof_symbol + lva) incorrect_debug_directory ;;;
  l <- mloop big_fuel (symbol_step d n lva) (0, []) ;;
  Ok (AdvCoff (dec_fields [4; 4; 4; 4; 4; 4; 4; 4]%nat h) l).

(** ** CodeView *)
Definition sig_rsds : list Z := [0x52; 0x53; 0x44; 0x53].
(** pe_debug.cpp: the signature "NB10". *)
Definition sig_nb10 : list Z := [0x4e; 0x42; 0x31; 0x30].
(** pe_debug.cpp: the signature "NB09". *)
Definition sig_nb09 : list Z := [0x4e; 0x42; 0x30; 0x39].
(** pe_debug.cpp: the signature "NB11". *)
Definition sig_nb11 : list Z := [0x4e; 0x42; 0x31; 0x31].
(** pe_debug.cpp: the signature "NB05". *)
Definition sig_nb05 : list Z := [0x4e; 0x42; 0x30; 0x35].
(** memcmp with a literal *)
Definition sig_eq (a b : list Z) : bool := if list_eq_dec Z.eq_dec a b then true else false.
(** pe_debug.cpp:748-801, 306-335: CodeView data. sizeof(OMFSignature* ) is the size of a pointer, 8 here;
    sizeof(CV_INFO_PDB70) is 25, sizeof(CV_INFO_PDB20) is 17. *)
Definition codeview_info (d : list Z) : res advanced :=
  throw_if (zlen d <? 8) incorrect_debug_directory ;;;
  sig <- rd d 0 4 ;;
  if sig_eq sig sig_rsds then
    throw_if (zlen d <? 25) incorrect_debug_directory ;;;
    r <- c_string d 24 (zlen d - 24) ;;
    match r with
    | None => Throw incorrect_debug_directory
    | Some name => h <- rd d 0 25 ;; Ok (AdvPdb7 (slice h 4 16) (unle (slice h 20 4)) name)
    end
  else if sig_eq sig sig_nb10 then
    throw_if (zlen d <? 17) incorrect_debug_directory ;;;
    r <- c_string d 16 (zlen d - 16) ;;
    match r with
    | None => Throw incorrect_debug_directory
    | Some name => h <- rd d 0 17 ;; Ok (AdvPdb2 (unle (slice h 8 4)) (unle (slice h 12 4)) name)
    end
  else if sig_eq sig sig_nb09 then Ok (set_advanced_type AdvNone 5)
  else if sig_eq sig sig_nb11 then Ok (set_advanced_type AdvNone 6)
  else if sig_eq sig sig_nb05 then Ok (set_advanced_type AdvNone 7)
  else Ok AdvNone.

(** ** Misc data *)
(** pe_debug.cpp:803-819, 371-390: sizeof(image_debug_misc) is 13. A length below 12 makes the size_t difference
    wrap around; std::string and std::wstring refuse such a length with std::length_error. *)
Definition misc_info (d : list Z) : res advanced :=
  throw_if (zlen d <? 13) incorrect_debug_directory ;;;
  h <- rd d 0 13 ;;
  let len := unle (slice h 4 4) in
  throw_if (zlen d <? len) incorrect_debug_directory ;;;
  throw_if (len <? 12) std_length_error ;;;
  if negb (unle (slice h 8 1) =? 0) then
    u <- rd_units d 12 ((len - 12) / 2) ;;
    Ok (AdvMisc (unle (slice h 0 4)) true (strip_nullbytes u))
  else
    s <- rd d 12 (len - 12) ;;
    Ok (AdvMisc (unle (slice h 0 4)) false (strip_nullbytes s)).

(** ** The directory *)
(** std::map::find *)
Definition map_find (m : list (Z * list Z)) (k : Z) : option (list Z) :=
  option_map snd (find (fun e => fst e =? k) m).
(** pe_debug.cpp:629-821: the detailed information of an entry. *)
Definition advanced_info (p : pe) (b : list Z) : res advanced :=
  match map_find (p_debug p) (dd_ptr b) with
  | None => Ok AdvNone
  | Some d =>
    if dd_type b =? 1 then coff_info d
    else if dd_type b =? 2 then codeview_info d
    else if dd_type b =? 4 then misc_info d
    else Ok AdvNone
  end.
(** pe_debug.cpp:621-835: one turn of the loop over the entries. *)
Definition debug_step (p : pe) (rva size : Z) (st : Z * list Z * list debug_info) : res (Z * list Z * list debug_info + list debug_info) :=
  let '(pos, b, acc) := st in
  if negb (dd_ptr b =? 0) && (pos <? u32 (rva + size)) then
    a <- advanced_info p b ;;
    throw_if (negb (is_sum_safe pos sizeof_debug_directory)) incorrect_debug_directory ;;;
    let pos' := u32 (pos + sizeof_debug_directory) in
    b' <- read_rva p pos' sizeof_debug_directory VirtData true ;;
    Ok (inl (pos', b', acc ++ [debug_of b a]))
  else Ok (inr acc).
(** pe_debug.cpp:601-838 get_debug_information. *)
Definition get_debug_information (p : pe) : res (list debug_info) :=
  ex <- directory_exists p dir_debug ;;
  if ex then
    rva <- get_directory_rva p dir_debug ;;
    len <- length_rva p rva rva VirtData true ;;
    throw_if (len <? sizeof_debug_directory) incorrect_debug_directory ;;;
    b <- read_rva p rva sizeof_debug_directory VirtData true ;;
    size <- get_directory_size p dir_debug ;;
    throw_if (negb (is_sum_safe rva size)) incorrect_debug_directory ;;;
    mloop big_fuel (debug_step p rva size) (rva, b, [])
  else Ok [].
