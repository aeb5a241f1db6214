(** Model of what rebuild_imports leaves behind when it throws. *)
From Verif Require Export FailModel ImportModel.

(** A loop whose steps hand a state on. *)
Fixpoint loop {A S} (f : S -> A -> op S) (l : list A) (s : S) : op S :=
  match l with [] => pass (Ok s) | a :: t => s' <~ f s a ;; loop f t s' end.
(** A function of the other models that changes the image when it returns. *)
Definition edit (f : pe -> res pe) : op unit := p <~ look ;; q <~ pass (f p) ;; change (fun _ => q).
(** pe_imports.cpp:556-565 and the same lines for the other tables ([put_thunk] in ImportModel.v): one thunk, in place or in the section. *)
Definition run_put_thunk (i : nat) (rw : bool) (pos : Z * Z) (v : Z) : op (Z * Z) :=
  p <~ look ;;
  if rw then
    len <~ pass (length_rva p (fst pos) (fst pos) RawData true) ;;
    pass (throw_if (len <=? thunk_size p) insufficient_space) ;~
    edit (fun p => poke p (fst pos) (le (base_size p) v)) ;~
    pass (Ok (u32 (fst pos + thunk_size p), snd pos))
  else
    edit (fun p => wr_section p i (snd pos) (le (base_size p) v)) ;~
    pass (Ok (fst pos, u32 (snd pos + thunk_size p))).
(** pe_imports.cpp:534-676 ([write_import] in ImportModel.v): one function. *)
Definition run_write_import (i : nat) (sv wo ri ro : bool) (st : Z * (Z * Z) * (Z * Z)) (f : imported) : op (Z * (Z * Z) * (Z * Z)) :=
  let '(str, ipos, opos) := st in
  p <~ look ;;
  s <~ pass (get_section p i) ;;
  let v := if by_name f then rva_from_section_offset s str else Z.lor (m_ordinal f) (snap_flag p) in
  ipos1 <~ (if sv then pass (Ok ipos)
            else if wo then run_put_thunk i ri ipos (m_iat f mod base_mod p)
            else if by_name f || ri then run_put_thunk i ri ipos v
            else _ <~ run_put_thunk i ri ipos v ;; pass (Ok ipos)) ;;
  opos1 <~ (if wo then run_put_thunk i ro opos v else pass (Ok opos)) ;;
  if by_name f then
    edit (fun p => wr_section p i str (le 2 (m_hint f))) ;~
    edit (fun p => wr_section p i (str + 2) (m_name f ++ [0])) ;~
    pass (Ok (u32 (str + u32 (zlen (m_name f) + 1 + 2)), ipos1, opos1))
  else pass (Ok (str, ipos1, opos1)).
(** pe_imports.cpp:477-732 ([write_library] in ImportModel.v): one library. *)
Definition run_write_library (i : nat) (o : import_settings) (st : Z * (Z * Z) * (Z * Z) * Z) (l : library) : op (Z * (Z * Z) * (Z * Z) * Z) :=
  let '(str, (_, ipos), (_, opos), dpos) := st in
  p <~ look ;;
  s <~ pass (get_section p i) ;;
  let save := o_save o && negb (l_iat l =? 0) in
  let ri := save && o_rewrite o in
  let ro0 := save && o_rewrite o && o_build o in
  let ro := ro0 && negb (l_oiat l =? 0) in
  let wo := (negb save && o_build o) || o_fill o || ro in
  let new_oft := rva_from_section_offset s opos in
  let oft := if o_build o then
               if save then if (l_oiat l =? 0) && o_fill o then new_oft else l_oiat l else new_oft
             else 0 in
  let ft := if save then l_iat l else rva_from_section_offset s ipos in
  let sv := save && negb ri in
  edit (fun p => wr_section p i dpos (enc_fields descriptor_widths [oft; l_time l; 0; rva_from_section_offset s str; ft])) ;~
  edit (fun p => wr_section p i str (l_name l ++ [0])) ;~
  w <~ loop (run_write_import i sv wo ri ro) (l_funcs l) (u32 (str + u32 (zlen (l_name l) + 1)), (ft, ipos), (oft, opos)) ;;
  let '(str1, ipos1, opos1) := w in
  ipos2 <~ (if sv then pass (Ok ipos1) else run_put_thunk i ri ipos1 0) ;;
  opos2 <~ (if wo then run_put_thunk i ro opos1 0 else pass (Ok opos1)) ;;
  pass (Ok (str1, ipos2, opos2, u32 (dpos + 20))).
(** pe_imports.cpp:411-767 rebuild_imports: the section is lengthened, then written to library by library; tables that are rewritten where they
    are are checked thunk by thunk. *)
Definition run_rebuild_imports (libs : list library) (i : nat) (o : import_settings) : op (Z * Z) :=
  p <~ look ;;
  let sz := thunk_size p in
  let off := o_offset o in
  let strings := import_string_size libs in
  let iat := import_iat_size sz libs in
  let needed := u32 (u32 ((1 + zlen libs) * 20) + (if o_build o || o_fill o then u32 (iat * 2) else iat) + sz + strings) in
  s1 <~ run_open_room i (u32 (needed + off)) (u32 (needed + off)) ;;
  let ipos := align_up (u32 (strings + off + (1 + zlen libs) * 20)) sz in
  let opos := u32 (ipos + iat) in
  let dpos := u32 (strings + off) in
  w <~ loop (run_write_library i o) libs (off, (0, ipos), (0, opos), dpos) ;;
  let '(_, _, (_, endpos), dpos1) := w in
  edit (fun p => wr_section p i dpos1 (zeros 20)) ;~
  edit (fun p => s2 <- get_section p i ;; Ok (put_section p i (set_s_data (resize (s_data s2) endpos) s2))) ;~
  run_recalculate i (o_strip o) ;~
  let dir := (rva_from_section_offset s1 (u32 (off + strings)), u32 (needed - strings)) in
  (if o_headers o then
     run_set_directory_rva dir_import (fst dir) ;~ run_set_directory_size dir_import (snd dir) ;~
     (if o_zero_iat o then run_set_directory_rva dir_iat 0 ;~ run_set_directory_size dir_iat 0 else pass (Ok tt))
   else pass (Ok tt)) ;~
  pass (Ok dir).
