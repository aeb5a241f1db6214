(** Model of /repo/src/pe_lib/pe_rebuilder.cpp: writing an image. *)
From Verif Require Export PeModel.

(** sizeof(image_nt_headers32/64): pe_structures.h:370-378, pe_properties_generic.cpp:574-577 *)
Definition sizeof_nt (plus : bool) : Z := if plus then 264 else 248.
(** sizeof(image_optional_header32/64): pe_properties_generic.cpp:581-584 *)
Definition sizeof_opt (plus : bool) : Z := if plus then 240 else 224.
(** 8 * sizeof(uint16_t) and sizeof(image_dos_header): pe_rebuilder.cpp:37 *)
Definition dos_written (strip : bool) : Z := if strip then 16 else 64.
(** sizeof(image_data_directory) * (16 - NumberOfRvaAndSizes): the difference is a
    uint32_t, pe_rebuilder.cpp:39,69,136 *)
Definition missing_dirs (p : pe) : Z := 8 * u32 (image_numberof_directory_entries - nrva p).

(** pe_rebuilder.cpp:73-81 file positions of the section data. *)
Fixpoint place_sections (fa ptr : Z) (l : list section) : list section :=
  match l with
  | [] => []
  | s :: t =>
    if s_rawsize s =? 0 then s :: place_sections fa ptr t
    else set_s_rawptr (u32 ptr) s :: place_sections fa (u64 (ptr + aligned_rawsize fa s)) t
  end.
(** pe_rebuilder.cpp:14-82 rebuild_pe(pe, dos_header, ...): the image and e_lfanew of the
    DOS header to be written (the image's own copy keeps the old value). *)
Definition rebuild_headers (p : pe) (strip change_hdr save_bound : bool) : res (pe * Z) :=
  let p1 := if strip then with_nt (set_h_basecode 16) (set_p_stub [] p) else p in
  let lfanew := if strip then p_lfanew p else u32 (64 + align_up (u32 (zlen (p_stub p1))) 4) in
  let ptr0 := u64 (dos_written strip + sizeof_nt (p_plus p1) + align_up64 (zlen (p_stub p1)) 4
                   - missing_dirs p1 + 40 * zlen (p_sections p1)) in
  hb <- (if save_bound then directory_exists p1 dir_bound_import else Ok false) ;;
  ' (p2, ptr1) <- (if hb then
      p' <- set_directory_rva p1 dir_bound_import (u32 ptr0) ;;
      size <- get_directory_size p' dir_bound_import ;;
      Ok (p', u64 (ptr0 + size))
    else Ok (p1, ptr0)) ;;
  let ptr2 := align_up64 ptr1 (falign p2) in
  p3 <- (if change_hdr then
      throw_if (match p_sections p2 with s :: _ => s_va s <? u32 ptr2 | [] => false end) cannot_rebuild_image ;;;
      Ok (set_size_of_headers (u32 ptr2) p2)
    else Ok p2) ;;
  let p4 := update_image_size (update_number_of_sections p3) in
  let p5 := with_nt (set_h_optsize (u16 (sizeof_opt (p_plus p4) - missing_dirs p4))) p4 in
  Ok (set_p_sections (place_sections (falign p5) ptr2 (p_sections p5)) p5, lfanew).

(** The bytes of an image_data_directory array: pe_structures.h:276-280 *)
Definition dirs_bytes (l : list (Z * Z)) : list Z := concat (map (fun d => le 4 (fst d) ++ le 4 (snd d)) l).
(** get_nt_headers_ptr(): the memory of the NT headers, pe_properties_generic.cpp:560-563 *)
Definition nt_bytes (p : pe) : list Z :=
  enc_fields (nt_widths (p_plus p)) (nt_fields (p_plus p) (p_nt p)) ++ dirs_bytes (h_dirs (p_nt p)).
(** The memory of an image_dos_header with the given e_lfanew: pe_structures.h:252-273 *)
Definition dos_bytes (p : pe) (lfanew : Z) : list Z := le 2 (p_magic p) ++ p_dosmid p ++ le 4 lfanew.
(** The memory of an image_section_header: pe_structures.h:380-398 *)
Definition section_bytes (s : section) : list Z :=
  s_name s ++ enc_fields [4; 4; 4; 4; 4; 4; 2; 2; 4]%nat
    [s_vsize s; s_va s; s_rawsize s; s_rawptr s; s_relptr s; s_lineptr s; s_nrel s; s_nline s; s_chars s].

(** pe_rebuilder.cpp:155-168 the section data, after [out] has been written. *)
Fixpoint write_sections (l : list section) (out : list Z) : res (list Z) :=
  match l with
  | [] => Ok out
  | s :: t =>
    d <- rd (raw_view s) 0 (s_rawsize s) ;;
    write_sections t (out ++ zeros (s_rawptr s - zlen out) ++ d)
  end.
(** pe_rebuilder.cpp:88-170 rebuild_pe(pe, out, ...): the image afterwards and the bytes
    written. The output stream is taken to be good, empty and never to fail. *)
Definition rebuild_pe (p : pe) (strip change_hdr save_bound0 : bool) : res (pe * list Z) :=
  hb0 <- (if save_bound0 then directory_exists p dir_bound_import else Ok false) ;;
  (if hb0 then
     rva <- get_directory_rva p dir_bound_import ;;
     len <- length_rva p rva rva RawData true ;;
     size <- get_directory_size p dir_bound_import ;;
     throw_if (len <? size) incorrect_bound_import_directory
   else Ok tt) ;;;
  hb1 <- directory_exists p dir_bound_import ;;
  rva0 <- (if hb1 then get_directory_rva p dir_bound_import else Ok 0) ;;
  let in_section := negb (rva0 =? 0) && (hdrsize p <? rva0) in
  let original := if in_section then 0 else rva0 in
  let save_bound := if in_section then false else save_bound0 in
  ' (q, lfanew) <- rebuild_headers p strip change_hdr save_bound ;;
  dos <- rd (dos_bytes q lfanew) 0 (dos_written strip) ;;
  let stub := p_stub q ++ zeros (align_up64 (zlen (p_stub q)) 4 - zlen (p_stub q)) in
  nt <- rd (nt_bytes q) 0 (u64 (sizeof_nt (p_plus q) - missing_dirs q)) ;;
  let out1 := dos ++ stub ++ nt ++ concat (map section_bytes (p_sections q)) in
  hb2 <- (if save_bound then directory_exists q dir_bound_import else Ok false) ;;
  out2 <- (if hb2 then
      ' (buf, off) <- ptr_rva q original RawData true ;;
      size <- get_directory_size q dir_bound_import ;;
      d <- rd buf off size ;;
      Ok (out1 ++ d)
    else Ok out1) ;;
  out3 <- write_sections (p_sections q) out2 ;;
  Ok (q, out3).
