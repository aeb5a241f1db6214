(** Model of pe_imports.cpp. *)
From Verif Require Export RelocModel.

(** pe_imports.h: imported_function. A function with an empty name is one that is imported by ordinal
    (pe_imports.cpp:130-133); get_iat_va() has 64 bits. *)
Record imported : Type := mk_imported { m_name : list Z; m_hint : Z; m_ordinal : Z; m_iat : Z }.
(** pe_imports.h: import_library: name, timestamp, addresses of the IAT and the original IAT, functions. *)
Record library : Type := mk_library { l_name : list Z; l_time : Z; l_iat : Z; l_oiat : Z; l_funcs : list imported }.
(** pe_imports.h: import_rebuilder_settings, in the order of pe_imports.cpp:16-25. *)
Record import_settings : Type := mk_settings {
  o_offset : Z; o_build : bool; o_save : bool; o_fill : bool; o_headers : bool; o_zero_iat : bool; o_rewrite : bool; o_strip : bool }.
(** imported_function::has_name. *)
Definition by_name (f : imported) : bool := match m_name f with [] => false | _ => true end.

(** sizeof(BaseSize) of the image class. *)
Definition thunk_size (p : pe) : Z := Z.of_nat (base_size p).
(** ImportSnapFlag: pe_properties_generic.h:242,250, pe_structures.h:100-101. *)
Definition snap_flag (p : pe) : Z := base_mod p / 2.
(** image_import_descriptor (pe_structures.h:617-634): OriginalFirstThunk, TimeDateStamp, ForwarderChain, Name, FirstThunk. *)
Definition descriptor_widths : list nat := [4; 4; 4; 4; 4]%nat.

(** ** Reader *)
(** pe_imports.cpp:292-304, 358-367: a string at an address, at least two bytes from the end of the section. *)
Definition import_string (p : pe) (rva : Z) : res (list Z) :=
  len <- length_rva p rva rva VirtData true ;;
  throw_if (len <? 2) incorrect_import_directory ;;;
  ' (d, off) <- ptr_rva p rva VirtData true ;;
  r <- c_string d off len ;;
  match r with Some s => Ok s | None => Throw incorrect_import_directory end.
(** pe_imports.cpp:345-378: the function that lookup value [lookup] describes. *)
Definition import_lookup (p : pe) (address lookup : Z) : res imported :=
  if negb (Z.land lookup (snap_flag p) =? 0) then Ok (mk_imported [] 0 (Z.land lookup 0xffff) address)
  else
    throw_if (0xFFFFFFFF - 2 <? lookup) incorrect_import_directory ;;;
    name <- import_string p (lookup + 2) ;;
    hint <- read_rva p lookup 2 VirtData true ;;
    Ok (mk_imported name (unle hint) 0 address).
(** pe_imports.cpp:327-382: the functions of a library; [iat] and [oiat] are the addresses of the tables. *)
Definition import_thunks (p : pe) (iat oiat : Z) : res (list imported) :=
  mloop big_fuel (fun st : Z * Z * list imported =>
    let '(t, o, acc) := st in
    a <- read_rva p t (thunk_size p) VirtData true ;;
    if unle a =? 0 then Ok (inr acc)
    else
      w <- read_rva p o (thunk_size p) VirtData true ;;
      if unle w =? 0 then Ok (inr acc)
      else
        f <- import_lookup p (unle a) (unle w) ;;
        Ok (inl (u32 (t + thunk_size p), u32 (o + thunk_size p), acc ++ [f]))) (iat, oiat, []).
(** pe_imports.cpp:286-382: one library from the fields of its descriptor. *)
Definition import_entry (p : pe) (oft time name ft : Z) : res library :=
  nm <- import_string p name ;;
  a <- read_rva p ft (thunk_size p) VirtData true ;;
  w <- (if oft =? 0 then Ok a else read_rva p oft (thunk_size p) VirtData true) ;;
  fs <- (if negb (unle w =? 0) && negb (unle a =? 0) then import_thunks p ft (if oft =? 0 then ft else oft) else Ok []) ;;
  Ok (mk_library nm time ft oft fs).
(** pe_imports.cpp:266-398 get_imported_functions. *)
Definition get_imports (p : pe) : res (list library) :=
  ex <- directory_exists p dir_import ;;
  if ex then
    rva <- get_directory_rva p dir_import ;;
    e0 <- read_rva p rva 20 VirtData true ;;
    mloop big_fuel (fun st : Z * list Z * list library =>
      let '(pos, e, acc) := st in
      match dec_fields descriptor_widths e with
      | [oft; time; _; name; ft] =>
          if name =? 0 then Ok (inr acc)
          else
            lib <- import_entry p oft time name ft ;;
            throw_if (negb (is_sum_safe pos 20)) incorrect_import_directory ;;;
            e' <- read_rva p (u32 (pos + 20)) 20 VirtData true ;;
            Ok (inl (u32 (pos + 20), e', acc ++ [lib]))
      | _ => Throw incorrect_import_directory
      end) (rva, e0, [])
  else Ok [].

(** ** Rebuilder *)
(** memcpy into the raw data of section [i] at [pos]: the reference raw_data of pe_imports.cpp:462. *)
Definition wr_section (p : pe) (i : nat) (pos : Z) (bs : list Z) : res pe :=
  s <- get_section p i ;;
  let s1 := unmap_virtual s in
  d <- wr (s_data s1) pos bs ;;
  Ok (put_section p i (set_s_data d s1)).
(** pe_imports.cpp:429-441: the sizes of the strings and of one table. *)
Definition import_string_size (libs : list library) : Z :=
  fold_left (fun n l => fold_left (fun n f => if by_name f then u32 (n + u32 (zlen (m_name f) + 1 + 2)) else n) (l_funcs l) (u32 (n + u32 (zlen (l_name l) + 1)))) libs 0.
(** pe_imports.cpp:429-441: the size of one table for all libraries. *)
Definition import_iat_size (sz : Z) (libs : list library) : Z :=
  fold_left (fun n l => u32 (n + u32 (sz * (1 + zlen (l_funcs l))))) libs 0.
(** One thunk (pe_imports.cpp:556-565 and the same lines for the other tables): [rw] writes over the table at address
    [fst pos] in place, otherwise at offset [snd pos] of the section; then the position advances. *)
Definition put_thunk (i : nat) (rw : bool) (p : pe) (pos : Z * Z) (v : Z) : res (pe * (Z * Z)) :=
  if rw then
    len <- length_rva p (fst pos) (fst pos) RawData true ;;
    throw_if (len <=? thunk_size p) insufficient_space ;;;
    p' <- poke p (fst pos) (le (base_size p) v) ;;
    Ok (p', (u32 (fst pos + thunk_size p), snd pos))
  else
    p' <- wr_section p i (snd pos) (le (base_size p) v) ;;
    Ok (p', (fst pos, u32 (snd pos + thunk_size p))).
(** State: image, position of strings, of the IAT and of the original IAT (address in place, offset in the section). *)
Notation import_state := (pe * Z * (Z * Z) * (Z * Z))%type.
(** pe_imports.cpp:534-676: one function. [sv]: the tables stay as they are; [wo]: an original IAT is written; [ri], [ro]: the
    tables are rewritten in place. The position in a new IAT does not advance after an ordinal if there is no original IAT
    (line 658). *)
Definition write_import (i : nat) (sv wo ri ro : bool) (st : import_state) (f : imported) : res import_state :=
  let '(p, str, ipos, opos) := st in
  s <- get_section p i ;;
  let v := if by_name f then rva_from_section_offset s str else Z.lor (m_ordinal f) (snap_flag p) in
  ' (p1, ipos1) <-
    (if sv then Ok (p, ipos)
     else if wo then put_thunk i ri p ipos (m_iat f mod base_mod p)
     else if by_name f || ri then put_thunk i ri p ipos v
     else ' (p', _) <- put_thunk i ri p ipos v ;; Ok (p', ipos)) ;;
  ' (p2, opos1) <- (if wo then put_thunk i ro p1 opos v else Ok (p1, opos)) ;;
  if by_name f then
    p3 <- wr_section p2 i str (le 2 (m_hint f)) ;;
    p4 <- wr_section p3 i (str + 2) (m_name f ++ [0]) ;;
    Ok (p4, u32 (str + u32 (zlen (m_name f) + 1 + 2)), ipos1, opos1)
  else Ok (p2, str, ipos1, opos1).
(** pe_imports.cpp:477-732: one library; state as above with the position of descriptors. *)
Definition write_library (i : nat) (o : import_settings) (st : import_state * Z) (l : library) : res (import_state * Z) :=
  let '((p, str, (_, ipos), (_, opos)), dpos) := st in
  s <- get_section p i ;;
  let save := o_save o && negb (l_iat l =? 0) in
  let ri := save && o_rewrite o in
  let ro0 := save && o_rewrite o && o_build o in
  let ro := ro0 && negb (l_oiat l =? 0) in
  let wo := (negb save && o_build o) || o_fill o || ro in
  let new_oft := rva_from_section_offset s opos in
  let oft := if o_build o then
               if save then if (l_oiat l =? 0) && o_fill o then new_oft else l_oiat l else new_oft
             else 0 in
  let ft := if save then l_iat l else rva_from_section_offset s ipos in
  let sv := save && negb ri in
  p1 <- wr_section p i dpos (enc_fields descriptor_widths [oft; l_time l; 0; rva_from_section_offset s str; ft]) ;;
  p2 <- wr_section p1 i str (l_name l ++ [0]) ;;
  ' (p3, str1, ipos1, opos1) <- mfold (write_import i sv wo ri ro) (l_funcs l) (p2, u32 (str + u32 (zlen (l_name l) + 1)), (ft, ipos), (oft, opos)) ;;
  ' (p4, ipos2) <- (if sv then Ok (p3, ipos1) else put_thunk i ri p3 ipos1 0) ;;
  ' (p5, opos2) <- (if wo then put_thunk i ro p4 opos1 0 else Ok (p4, opos1)) ;;
  Ok ((p5, str1, ipos2, opos2), u32 (dpos + 20)).
(** pe_imports.cpp:411-767 rebuild_imports. *)
Definition rebuild_imports (p : pe) (libs : list library) (i : nat) (o : import_settings) : res (pe * (Z * Z)) :=
  let sz := thunk_size p in
  let off := o_offset o in
  let strings := import_string_size libs in
  let iat := import_iat_size sz libs in
  let needed := u32 (u32 ((1 + zlen libs) * 20) + (if o_build o || o_fill o then u32 (iat * 2) else iat) + sz + strings) in
  s1 <- open_room p i (u32 (needed + off)) (u32 (needed + off)) ;;
  let ipos := align_up (u32 (strings + off + (1 + zlen libs) * 20)) sz in
  let opos := u32 (ipos + iat) in
  let dpos := u32 (strings + off) in
  ' (p1, _, _, (_, endpos), dpos1) <- mfold (write_library i o) libs ((put_section p i s1, off, (0, ipos), (0, opos)), dpos) ;;
  p2 <- wr_section p1 i dpos1 (zeros 20) ;;
  s2 <- get_section p2 i ;;
  p3 <- recalculate_section_sizes (put_section p2 i (set_s_data (resize (s_data s2) endpos) s2)) i (o_strip o) ;;
  let dir := (rva_from_section_offset s1 (u32 (off + strings)), u32 (needed - strings)) in
  p4 <- (if o_headers o then
           p' <- set_directory p3 dir_import (fst dir) (snd dir) ;;
           if o_zero_iat o then set_directory p' dir_iat 0 0 else Ok p'
         else Ok p3) ;;
  Ok (p4, dir).
