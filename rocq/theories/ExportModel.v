(** Model of pe_exports.cpp. *)
From Verif Require Export DirModel.

(** pe_exports.h: exported_function. A name or forwarder that is empty is the same as none
    (pe_exports.cpp:72-76, 85-89), so has_name() is "the name is not empty". *)
Record exported : Type := mk_exported { e_ordinal : Z; e_rva : Z; e_name : list Z; e_nord : Z; e_fwd : list Z }.
(** std::string::empty(). *)
Definition is_empty {A} (l : list A) : bool := match l with [] => true | _ => false end.
(** pe_exports.cpp:36-40. *)
Definition has_name (f : exported) : bool := negb (is_empty (e_name f)).
(** pe_exports.cpp:48-52. *)
Definition is_forwarded (f : exported) : bool := negb (is_empty (e_fwd f)).
(** pe_exports.h: export_info. *)
Record export_info : Type := mk_info {
  xi_chars : Z; xi_time : Z; xi_major : Z; xi_minor : Z; xi_name : list Z; xi_base : Z;
  xi_nfunctions : Z; xi_nnames : Z; xi_functions : Z; xi_names : Z; xi_ordinals : Z }.

(** image_export_directory (pe_structures.h:659-673): Characteristics, TimeDateStamp, MajorVersion, MinorVersion, Name,
    Base, NumberOfFunctions, NumberOfNames, AddressOfFunctions, AddressOfNames, AddressOfNameOrdinals. *)
Definition export_widths : list nat := [4; 4; 2; 2; 4; 4; 4; 4; 4; 4; 4]%nat.

(** ** Reader *)
(** pe_exports.cpp:282-294, 374-386, 393-402: a string at an address, at least two bytes from the end of the section. *)
Definition export_string (p : pe) (rva : Z) : res (list Z) :=
  len <- length_rva p rva rva VirtData true ;;
  throw_if (len <? 2) incorrect_export_directory ;;;
  ' (d, off) <- ptr_rva p rva VirtData true ;;
  r <- c_string d off len ;;
  match r with Some s => Ok s | None => Throw incorrect_export_directory end.
(** pe_exports.cpp:363-406: the scan of the name ordinals for [ordinal]. [dir] and [size] are the directory entry;
    sizeof(image_directory_entry_export) is 4, the sums are 64-bit on the left and 32-bit (checked) on the right. *)
Definition export_name_scan (p : pe) (dir size nnames names ordinals ordinal : Z) (f : exported) : res exported :=
  mloop big_fuel (fun i : Z =>
    if i <? nnames then
      o2 <- read_rva p (u32 (ordinals + i * 2)) 2 VirtData true ;;
      if ordinal =? unle o2 then
        nrva <- read_rva p (u32 (names + i * 4)) 4 VirtData true ;;
        name <- export_string p (unle nrva) ;;
        if (dir + 4 <=? e_rva f) && (e_rva f <? u32 (dir + size)) then
          fwd <- export_string p (e_rva f) ;;
          Ok (inr (mk_exported (e_ordinal f) (e_rva f) name (unle o2) fwd))
        else Ok (inr (mk_exported (e_ordinal f) (e_rva f) name (unle o2) []))
      else Ok (inl (i + 1))
    else Ok (inr f)) 0.
(** pe_exports.cpp:341-410: the loop over the address table. *)
Definition export_functions (p : pe) (dir size base nfuncs nnames funcs names ordinals : Z) : res (list exported) :=
  mloop big_fuel (fun st : Z * list exported =>
    let '(ordinal, acc) := st in
    if ordinal <? nfuncs then
      r <- read_rva p (u32 (funcs + ordinal * 4)) 4 VirtData true ;;
      let rva := unle r in
      if rva =? 0 then Ok (inl (ordinal + 1, acc))
      else
        throw_if (negb (is_sum_safe base ordinal) || (0xFFFF <? base + ordinal)) incorrect_export_directory ;;;
        f <- export_name_scan p dir size nnames names ordinals ordinal (mk_exported (u16 (ordinal + base)) rva [] 0 []) ;;
        Ok (inl (ordinal + 1, acc ++ [f]))
    else Ok (inr acc)) (0, []).
(** pe_exports.cpp:259-414 get_exported_functions; [want] tells whether the caller passed an export_info. Without
    exports that object is left as it was, which is shown as None. *)
Definition get_exports (p : pe) (want : bool) : res (option export_info * list exported) :=
  ex <- directory_exists p dir_export ;;
  if ex then
    rva <- get_directory_rva p dir_export ;;
    len <- length_rva p rva rva VirtData true ;;
    throw_if (len <? 40) incorrect_export_directory ;;;
    h <- read_rva p rva 40 VirtData true ;;
    size <- get_directory_size p dir_export ;;
    match dec_fields export_widths h with
    | [chars; time; major; minor; name; base; nfuncs; nnames; funcs; names; ordinals] =>
        info <- (if want then n <- export_string p name ;; Ok (Some (mk_info chars time major minor n base nfuncs nnames funcs names ordinals)) else Ok None) ;;
        if nfuncs =? 0 then Ok (info, [])
        else
          throw_if (nfuncs <? nnames) incorrect_export_directory ;;;
          throw_if (((ordinals =? 0) && negb (names =? 0)) || (negb (ordinals =? 0) && (names =? 0)) || (funcs =? 0) ||
                    (0xFFFFFFFF / 4 <=? nfuncs) || (0xFFFFFFFF / 4 <? nnames) ||
                    negb (is_sum_safe funcs (u32 (nfuncs * 4))) || negb (is_sum_safe names (u32 (nnames * 4))) ||
                    negb (is_sum_safe ordinals (u32 (nfuncs * 4))) || negb (is_sum_safe rva size)) incorrect_export_directory ;;;
          l1 <- length_rva p funcs funcs VirtData true ;;
          throw_if (l1 <? nfuncs * 4) incorrect_export_directory ;;;
          (if negb (names =? 0) then
             l2 <- length_rva p ordinals ordinals VirtData true ;;
             throw_if (l2 <? nnames * 2) incorrect_export_directory ;;;
             l3 <- length_rva p names names VirtData true ;;
             throw_if (l3 <? nnames * 4) incorrect_export_directory
           else Ok tt) ;;;
          l <- export_functions p rva size base nfuncs nnames funcs names ordinals ;;
          Ok (info, l)
    | _ => Throw incorrect_export_directory
    end
  else Ok (None, []).

(** ** Helpers *)
(** pe_exports.cpp:418-436 get_export_ordinal_limits. *)
Definition export_ordinal_limits (l : list exported) : Z * Z :=
  if is_empty l then (0, 0)
  else (fold_left (fun b f => Z.min b (e_ordinal f)) l 0xFFFF, fold_left (fun m f => Z.max m (e_ordinal f)) l 0).
(** Equality of std::string. *)
Fixpoint str_eqb (a b : list Z) : bool :=
  match a, b with
  | [], [] => true
  | x :: a', y :: b' => (x =? y) && str_eqb a' b'
  | _, _ => false
  end.
(** pe_exports.cpp:439-448 exported_name_exists. *)
Definition exported_name_exists (name : list Z) (l : list exported) : bool :=
  existsb (fun f => has_name f && str_eqb (e_name f) name) l.
(** pe_exports.cpp:451-460 exported_ordinal_exists. *)
Definition exported_ordinal_exists (ordinal : Z) (l : list exported) : bool := existsb (fun f => e_ordinal f =? ordinal) l.

(** ** Rebuilder *)
(** operator< of std::string: lexicographic on unsigned chars. *)
Fixpoint str_ltb (a b : list Z) : bool :=
  match a, b with
  | _, [] => false
  | [], _ :: _ => true
  | x :: a', y :: b' => (x <? y) || ((x =? y) && str_ltb a' b')
  end.
(** pe_exports.cpp:500-536: the scan of the functions. The sets of used ordinals and names are the lists of those
    seen; result: names, minimum and maximum ordinal, sizes of names and forwards. *)
Definition export_scan (base0 : Z) (l : list exported) : res (Z * Z * Z * Z * Z) :=
  ' (_, _, r) <- mfold (fun (st : list Z * list (list Z) * (Z * Z * Z * Z * Z)) f =>
    let '(ords, names, (nn, base, top, names_size, fwd_size)) := st in
    throw_if (existsb (Z.eqb (e_ordinal f)) ords) duplicate_exported_function_ordinal ;;;
    throw_if (has_name f && existsb (str_eqb (e_name f)) names) duplicate_exported_function_name ;;;
    Ok (e_ordinal f :: ords, if has_name f then e_name f :: names else names,
        (if has_name f then u32 (nn + 1) else nn, Z.min base (e_ordinal f), Z.max top (e_ordinal f),
         if has_name f then u32 (names_size + u32 (zlen (e_name f) + 1)) else names_size,
         if is_forwarded f then u32 (fwd_size + u32 (zlen (e_fwd f) + 1)) else fwd_size)))
    l ([], [], (0, base0, 0, 0, 0)) ;;
  Ok r.
(** pe_exports.cpp:539 std::sort by ordinal; the ordinals are known to be different, so every sorting algorithm gives this. *)
Fixpoint insert_by_ordinal (f : exported) (l : list exported) : list exported :=
  match l with [] => [f] | g :: t => if e_ordinal f <? e_ordinal g then f :: l else g :: insert_by_ordinal f t end.
(** pe_exports.cpp:533: the whole list. *)
Definition sort_by_ordinal (l : list exported) : list exported := fold_left (fun acc f => insert_by_ordinal f acc) l [].
(** pe_exports.cpp:602-603, 627: std::map<std::string, uint16_t>::insert. *)
Fixpoint insert_by_name (name : list Z) (ord : Z) (l : list (list Z * Z)) : list (list Z * Z) :=
  match l with
  | [] => [(name, ord)]
  | (n, o) :: t => if str_ltb name n then (name, ord) :: l else if str_eqb name n then l else (n, o) :: insert_by_name name ord t
  end.
(** pe_exports.cpp:605-645: one function; state: data, last ordinal, position of addresses, of forwards, the map. *)
Definition write_export (s1 : section) (base : Z) (st : list Z * Z * Z * Z * list (list Z * Z)) (f : exported) : res (list Z * Z * Z * Z * list (list Z * Z)) :=
  let '(d, last, apos, fpos, m) := st in
  let len := u32 (4 * u32 (e_ordinal f - last - 1)) in
  ' (d1, apos1, last1) <-
    (if last <? e_ordinal f then
       (if len =? 0 then Ok (d, apos, e_ordinal f) else d' <- wr d apos (zeros len) ;; Ok (d', u32 (apos + len), e_ordinal f))
     else Ok (d, apos, last)) ;;
  let m1 := if has_name f then insert_by_name (e_name f) (u16 (e_ordinal f - base)) m else m in
  if is_forwarded f then
    d2 <- wr d1 apos1 (le 4 (rva_from_section_offset s1 fpos)) ;;
    d3 <- wr d2 fpos (e_fwd f ++ [0]) ;;
    Ok (d3, last1, u32 (apos1 + 4), u32 (fpos + u32 (zlen (e_fwd f) + 1)), m1)
  else
    d2 <- wr d1 apos1 (le 4 (e_rva f)) ;;
    Ok (d2, last1, u32 (apos1 + 4), fpos, m1).
(** pe_exports.cpp:648-663: one name; state: data, positions of names, name addresses, name ordinals. *)
Definition write_export_name (s1 : section) (st : list Z * Z * Z * Z) (x : list Z * Z) : res (list Z * Z * Z * Z) :=
  let '(d, npos, rpos, opos) := st in
  d1 <- wr d rpos (le 4 (rva_from_section_offset s1 npos)) ;;
  d2 <- wr d1 npos (fst x ++ [0]) ;;
  d3 <- wr d2 opos (le 2 (snd x)) ;;
  Ok (d3, u32 (npos + u32 (zlen (fst x) + 1)), u32 (rpos + 4), u32 (opos + 2)).
(** pe_exports.cpp:481-679 rebuild_exports. *)
Definition rebuild_exports (p : pe) (info : export_info) (l : list exported) (i : nat) (off : Z) (save strip : bool) : res (pe * (Z * Z)) :=
  throw_if (negb (section_attached p i)) section_is_not_attached ;;;
  ' (nn, base, top, names_size, fwd_size) <- export_scan (if is_empty l then xi_base info else 0xFFFFFFFF) l ;;
  let sorted := sort_by_ordinal l in
  let dll_size := u32 (zlen (xi_name info) + 1) in
  let nfuncs := u32 (top - base + 1) in
  let pos := align_up off 4 in
  let needed := u32 (40 + u32 (nn * 2) + u32 (nfuncs * 4) + u32 (dll_size + names_size + fwd_size) + u32 (nn * 4)) in
  s1 <- open_room p i (u32 (needed + pos)) (u32 (needed + pos)) ;;
  let npos := u32 (zlen (xi_name info) + 1 + pos + 40) in
  let opos := u32 (npos + names_size) in
  let fpos := u32 (opos + u32 (nn * 2)) in
  let apos := u32 (fpos + fwd_size) in
  let rpos := u32 (apos + u32 (nfuncs * 4)) in
  d1 <- wr (s_data s1) pos (enc_fields export_widths
    [xi_chars info; xi_time info; xi_major info; xi_minor info; rva_from_section_offset s1 (u32 (pos + 40)); base; nfuncs; nn;
     rva_from_section_offset s1 apos; rva_from_section_offset s1 rpos; rva_from_section_offset s1 opos]) ;;
  d2 <- wr d1 (pos + 40) (xi_name info ++ [0]) ;;
  ' (d3, _, _, _, m) <- mfold (write_export s1 base) sorted (d2, base, apos, fpos, []) ;;
  ' (d4, _, _, _) <- mfold (write_export_name s1) m (d3, npos, rpos, opos) ;;
  finish_directory p i s1 d4 pos needed dir_export save strip.
