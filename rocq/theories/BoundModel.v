(** Model of pe_bound_import.cpp. *)
From Verif Require Export DirModel.

(** pe_bound_import.h: bound_import_ref (module_name_, timestamp_). *)
Notation bound_ref := (list Z * Z)%type.
(** bound_import (module_name_, timestamp_, refs_). *)
Notation bound_import := (list Z * Z * list (list Z * Z))%type.

(** pe_bound_import.cpp:137-142, 168-173: the checks of a module name and the name; [off] and [len] are the
    start and the length of the directory data in the buffer [d]. *)
Definition bound_name (d : list Z) (off len name_off : Z) : res (list Z) :=
  throw_if (len <=? name_off) incorrect_bound_import_directory ;;;
  r <- c_string d (off + name_off) (len - name_off) ;;
  match r with Some name => Ok name | None => Throw incorrect_bound_import_directory end.
(** pe_bound_import.cpp:156-180: [n] forwarder references from [pos]; image_bound_forwarder_ref
    (pe_structures.h:694-700) is TimeDateStamp, OffsetModuleName, Reserved. sizeof() makes the sum in the
    check a 64-bit one. *)
Fixpoint bound_refs (d : list Z) (off len : Z) (n : nat) (pos : Z) : res (Z * list bound_ref) :=
  match n with
  | O => Ok (pos, [])
  | S n' =>
      throw_if (len <? pos + 8) incorrect_bound_import_directory ;;;
      t <- rd d (off + pos) 8 ;;
      name <- bound_name d off len (unle (slice t 4 2)) ;;
      ' (pos', refs) <- bound_refs d off len n' (u32 (pos + 8)) ;;
      Ok (pos', (name, unle (slice t 0 4)) :: refs)
  end.
(** pe_bound_import.cpp:130-192: the loop over the descriptors; image_bound_import_descriptor
    (pe_structures.h:685-692) is TimeDateStamp, OffsetModuleName, NumberOfModuleForwarderRefs. *)
Definition bound_loop (d : list Z) (off len : Z) : res (list bound_import) :=
  mloop big_fuel (fun st : Z * list bound_import =>
    let '(pos, acc) := st in
    t <- rd d (off + pos) 8 ;;
    let name_off := unle (slice t 4 2) in
    if name_off =? 0 then Ok (inr acc)
    else
      name <- bound_name d off len name_off ;;
      let n := unle (slice t 6 2) in
      throw_if ((0xFFFFFFFF / 8 <=? n) || negb (is_sum_safe pos (u32 (16 + n * 8)))) incorrect_bound_import_directory ;;;
      ' (pos', refs) <- bound_refs d off len (Z.to_nat n) (u32 (pos + 8)) ;;
      throw_if (len <? pos' + 8) incorrect_bound_import_directory ;;;
      Ok (inl (pos', acc ++ [(name, unle (slice t 0 4), refs)]))) (0, []).
(** pe_bound_import.cpp:108-196 get_bound_import_module_list. *)
Definition get_bound_imports (p : pe) : res (list bound_import) :=
  ex <- directory_exists p dir_bound_import ;;
  if ex then
    rva <- get_directory_rva p dir_bound_import ;;
    len <- length_rva p rva rva RawData true ;;
    size <- get_directory_size p dir_bound_import ;;
    throw_if (len <? size) incorrect_bound_import_directory ;;;
    ' (d, off) <- ptr_rva p rva RawData true ;;
    throw_if (len <? 8) incorrect_bound_import_directory ;;;
    bound_loop d off len
  else Ok [].

(** pe_bound_import.cpp:208-229: the size of the structures with the null descriptor, and of the strings. *)
Definition bound_struct_size (imports : list bound_import) : Z :=
  fold_left (fun n m => fold_left (fun n r => u32 (n + 8)) (snd m) (u32 (n + 8))) imports 8.
(** pe_bound_import.cpp:208-229, the strings. *)
Definition bound_string_size (imports : list bound_import) : Z :=
  fold_left (fun n m => fold_left (fun n (r : bound_ref) => u32 (n + (u32 (zlen (fst r)) + 1))) (snd m) (u32 (n + (u32 (zlen (fst (fst m))) + 1)))) imports 0.
(** pe_bound_import.cpp:247-256, 262-270: one structure at [spos] and its name at [npos]; [third] is
    NumberOfModuleForwarderRefs, or Reserved of a forwarder reference. *)
Definition write_bound (dir : Z) (st : list Z * Z * Z) (name : list Z) (ts third : Z) : res (list Z * Z * Z) :=
  let '(d, spos, npos) := st in
  d1 <- wr d spos (le 4 ts ++ le 2 (u16 (npos - dir)) ++ le 2 third) ;;
  d2 <- wr d1 npos (name ++ [0]) ;;
  Ok (d2, u32 (spos + 8), u32 (npos + u32 (zlen name + 1))).
(** pe_bound_import.cpp:244-272: one module with its references. *)
Definition write_bound_import (dir : Z) (st : list Z * Z * Z) (m : bound_import) : res (list Z * Z * Z) :=
  let '(name, ts, refs) := m in
  st1 <- write_bound dir st name ts (u16 (zlen refs)) ;;
  mfold (fun st (r : bound_ref) => write_bound dir st (fst r) (snd r) 0) refs st1.
(** pe_bound_import.cpp:203-289 rebuild_bound_imports. *)
Definition rebuild_bound_imports (p : pe) (imports : list bound_import) (i : nat) (off : Z) (save strip : bool) : res (pe * (Z * Z)) :=
  let pos := align_up off 4 in
  let strings := bound_string_size imports in
  let needed := u32 (bound_struct_size imports + strings) in
  s1 <- open_room p i (u32 (needed + pos)) (u32 (needed + pos)) ;;
  ' (d, _, _) <- mfold (write_bound_import pos) imports (s_data s1, pos, u32 (pos + needed - strings)) ;;
  finish_directory p i s1 d pos needed dir_bound_import save strip.
