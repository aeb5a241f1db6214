(** Properties C06-C13: directories, addresses, lookups and reads of an image. *)
From Verif Require Import PeModel SpecPe PeFacts Samples.

(** ** C06 *)
Theorem C06_get_directory : forall p id d,
  dirs_ok p -> nrva p <= 16 -> dir_is p id d -> id < nrva p ->
  get_directory_rva p id = Ok (fst d) /\ get_directory_size p id = Ok (snd d).
Proof. exact get_dir_spec. Qed.
Print Assumptions C06_get_directory.
Theorem C06_out_of_range : forall p id,
  nrva p <= id -> get_directory_rva p id = Throw directory_does_not_exist /\
  get_directory_size p id = Throw directory_does_not_exist /\
  (forall v, set_directory_rva p id v = Throw directory_does_not_exist) /\
  (forall v, set_directory_size p id v = Throw directory_does_not_exist).
Proof. exact get_dir_throws. Qed.
Print Assumptions C06_out_of_range.
Theorem C06_set_directory_rva : forall p id v rva size,
  dirs_ok p -> nrva p <= 16 -> dir_is p id (rva, size) -> id < nrva p ->
  exists p', set_directory_rva p id v = Ok p' /\ dir_is p' id (v, size) /\
  (forall j e, j <> id -> (dir_is p' j e <-> dir_is p j e)) /\ same_but_dirs p' p.
Proof. exact set_rva_spec. Qed.
Print Assumptions C06_set_directory_rva.
Theorem C06_set_directory_size : forall p id v rva size,
  dirs_ok p -> nrva p <= 16 -> dir_is p id (rva, size) -> id < nrva p ->
  exists p', set_directory_size p id v = Ok p' /\ dir_is p' id (rva, v) /\
  (forall j e, j <> id -> (dir_is p' j e <-> dir_is p j e)) /\ same_but_dirs p' p.
Proof. exact set_size_spec. Qed.
Print Assumptions C06_set_directory_size.
Theorem C06_remove_directory : forall p id,
  dirs_ok p -> 1 <= nrva p <= 16 -> 0 <= id ->
  exists p', remove_directory p id = Ok p' /\
  (directory_exists p id = Ok false -> p' = p) /\
  (directory_exists p id = Ok true ->
     dir_is p' id (0, 0) /\ (forall j e, j <> id -> (dir_is p' j e <-> dir_is p j e)) /\
     same_but_dirs (with_nt (fun h => set_h_dllchars (h_dllchars (p_nt p)) (set_h_chars (h_chars (p_nt p)) h)) p') p /\
     h_chars (p_nt p') =
       (if id =? 5 then Z.lor (h_chars (p_nt p)) 0x0001
        else if id =? 0 then Z.land (h_chars (p_nt p)) (u16 (Z.lnot 0x2000))
        else h_chars (p_nt p)) /\
     h_dllchars (p_nt p') =
       (if id =? 5 then Z.land (h_dllchars (p_nt p)) (u16 (Z.lnot 0x0040))
        else h_dllchars (p_nt p))).
Proof. exact remove_directory_spec. Qed.
Print Assumptions C06_remove_directory.
Example C06_case :
  dirs_ok sample_pe /\ nrva sample_pe = 16 /\ dir_is sample_pe 5 (0x2000, 12) /\
  directory_exists sample_pe 5 = Ok true /\ directory_exists sample_pe 4 = Ok false.
Proof. split; [exact sample_dirs|]. unfold dir_is, is_u32; ands; calc. Qed.
(** The count can be set above the 16 entries of the array; the accessors then index outside it. *)
Theorem C06_count_above_16_refuted :
  exists p id, dirs_ok p /\ nrva p = 100 /\ get_directory_rva p id = Ub BadIndex /\
               set_directory_rva p id 1 = Ub BadIndex.
Proof.
  exists (set_number_of_rvas_and_sizes 100 sample_pe), 20. split; [exact (dirs_ok_nrva _ _ sample_dirs)|]. ands; calc.
Qed.
Print Assumptions C06_count_above_16_refuted.

(** ** C07 *)
(** Missing for the full property: an image with no directories at all, see below. *)
Theorem C07_directory_exists_partial : forall p id,
  dirs_ok p -> 1 <= nrva p <= 16 -> 0 <= id ->
  exists b, directory_exists p id = Ok b /\
  (b = true <-> id < nrva p /\ exists d, dir_is p id d /\ fst d <> 0).
Proof. exact directory_exists_spec. Qed.
Print Assumptions C07_directory_exists_partial.
(** With NumberOfRvaAndSizes = 0 (a value loading accepts) the unsigned count - 1 wraps:
    a directory outside the table is reported, and a large index reads outside the array. *)
Theorem C07_no_directories_refuted :
  exists p, dirs_ok p /\ nrva p = 0 /\ directory_exists p 5 = Ok true /\ directory_exists p 16 = Ub BadIndex.
Proof.
  exists (set_number_of_rvas_and_sizes 0 sample_pe). split; [exact (dirs_ok_nrva _ _ sample_dirs)|]. ands; calc.
Qed.
Print Assumptions C07_no_directories_refuted.
Example C07_case : dirs_ok sample_pe /\ 1 <= nrva sample_pe <= 16 /\ directory_exists sample_pe 5 = Ok true.
Proof. split; [exact sample_dirs|]. split; [small|reflexivity]. Qed.

(** ** C08 *)
(** The count kept is at least min_count - 1, not min_count as documented. *)
Theorem C08_strip_data_directories_partial : forall p mc iat,
  dirs_ok p -> 0 <= nrva p <= 16 -> 0 <= mc < 2^31 ->
  exists p' k, strip_data_directories p mc iat = Ok (p', k) /\ nrva p' = k /\ k <= nrva p /\
  (forall id d, dir_is p id d -> id < nrva p -> fst d <> 0 -> (id = dir_iat -> iat = false) -> id < k) /\
  Z.min (nrva p) (mc - 1) <= k /\
  p' = with_nt (set_h_nrva k) p.
Proof. exact strip_data_directories_spec. Qed.
Print Assumptions C08_strip_data_directories_partial.
Theorem C08_min_count_refuted :
  exists p p' k, dirs_ok p /\ nrva p = 16 /\ strip_data_directories p 10 false = Ok (p', k) /\ k < 10.
Proof.
  exists sample_pe. eexists. eexists. split; [exact sample_dirs|]. split; [reflexivity|].
  split; [vm_compute; reflexivity|]. vm_compute; reflexivity.
Qed.
Print Assumptions C08_min_count_refuted.
Example C08_case :
  dirs_ok sample_pe /\ 0 <= nrva sample_pe <= 16 /\
  exists p', strip_data_directories sample_pe 0 true = Ok (p', 6).
Proof. split; [exact sample_dirs|]. split; [small|eexists; vm_compute; reflexivity]. Qed.

(** ** C09 *)
Theorem C09_rva_to_va_32 : forall p r,
  is_u32 (imagebase p) -> is_u32 r ->
  (imagebase p + r < 2^32 -> rva_to_va_32 p r = Ok (imagebase p + r)) /\
  (2^32 <= imagebase p + r -> rva_to_va_32 p r = Throw incorrect_address_conversion).
Proof. exact rva_to_va_32_spec. Qed.
Print Assumptions C09_rva_to_va_32.
Theorem C09_round_trip_32 : forall p r va b,
  is_u32 (imagebase p) -> is_u32 r -> rva_to_va_32 p r = Ok va -> va_to_rva p va b = Ok r.
Proof. exact va_round_trip_32. Qed.
Print Assumptions C09_round_trip_32.
Theorem C09_round_trip_64 : forall p r va b,
  is_u64 (imagebase p) -> is_u32 r -> rva_to_va_64 p r = Ok va -> va_to_rva p va b = Ok r.
Proof. exact va_round_trip. Qed.
Print Assumptions C09_round_trip_64.
(** Addresses are 64-bit values; the interval is taken modulo 2^64. *)
Theorem C09_va_to_rva_accepts : forall p va r,
  is_u64 va -> is_u64 (imagebase p) ->
  (va_to_rva p va true = Ok r <-> is_u32 r /\ va = u64 (imagebase p + r)).
Proof. exact va_to_rva_spec. Qed.
Print Assumptions C09_va_to_rva_accepts.
Theorem C09_va_to_rva_rejects : forall p va,
  is_u64 va -> is_u64 (imagebase p) ->
  (forall r, is_u32 r -> va <> u64 (imagebase p + r)) ->
  va_to_rva p va true = Throw incorrect_address_conversion.
Proof. exact va_to_rva_throws. Qed.
Print Assumptions C09_va_to_rva_rejects.
Theorem C09_round_trip_back : forall p va r,
  is_u64 va -> is_u64 (imagebase p) -> va_to_rva p va true = Ok r -> rva_to_va_64 p r = Ok va.
Proof. exact va_round_trip_back. Qed.
Print Assumptions C09_round_trip_back.
Example C09_case :
  is_u32 (imagebase sample_pe) /\ rva_to_va_32 sample_pe 0x1234 = Ok 0x401234 /\
  va_to_rva sample_pe 0x401234 true = Ok 0x1234 /\
  va_to_rva sample_pe 0x3FFFFF true = Throw incorrect_address_conversion /\
  rva_to_va_32 sample_pe 0xFFFFFFFF = Throw incorrect_address_conversion.
Proof. unfold dir_is, is_u32; ands; calc. Qed.

(** ** C10 *)
Theorem C10_section_from_rva : forall p r i,
  spec_layout p ->
  (section_from_rva p r = Ok i <-> exists s, nth_error (p_sections p) i = Some s /\ occupies (salign p) s r).
Proof. exact section_from_rva_spec. Qed.
Print Assumptions C10_section_from_rva.
Theorem C10_section_from_rva_throws : forall p r,
  spec_layout p ->
  (section_from_rva p r = Throw no_section_found <->
   forall i s, nth_error (p_sections p) i = Some s -> ~ occupies (salign p) s r).
Proof. exact section_from_rva_throws. Qed.
Print Assumptions C10_section_from_rva_throws.
(** Contiguous section tables, the only ones loading accepts, have the layout required above. *)
Theorem C10_contiguous_layout : forall p start,
  good_align p -> Forall wf_section (p_sections p) -> chain (salign p) start (p_sections p) ->
  chain_end (salign p) start (p_sections p) < 2^32 -> spec_layout p.
Proof. exact chain_layout. Qed.
Print Assumptions C10_contiguous_layout.
Example C10_case :
  spec_layout sample_pe /\ section_from_rva sample_pe 0x3fff = Ok 1%nat /\
  section_from_rva sample_pe 0x4000 = Throw no_section_found.
Proof. split; [exact sample_layout|split; vm_compute; reflexivity]. Qed.

(** ** C11 *)
Theorem C11_headers : forall p r,
  r < hdrsize p -> rva_to_file_offset p r = Ok r /\ file_offset_to_rva p r = Ok r.
Proof. exact headers_offset. Qed.
Print Assumptions C11_headers.
Theorem C11_rva_round_trip : forall p r i s,
  spec_layout p -> file_layout p -> is_u32 r -> hdrsize p <= r ->
  nth_error (p_sections p) i = Some s -> occupies (salign p) s r -> r - s_va s < s_rawsize s ->
  exists o, rva_to_file_offset p r = Ok o /\ o = s_rawptr s + (r - s_va s) /\ file_offset_to_rva p o = Ok r.
Proof. exact rva_file_round_trip. Qed.
Print Assumptions C11_rva_round_trip.
Theorem C11_offset_round_trip : forall p o i s,
  spec_layout p -> file_layout p -> is_u32 o -> hdrsize p <= o ->
  nth_error (p_sections p) i = Some s -> in_file s o -> o - s_rawptr s < span (salign p) s -> hdrsize p <= s_va s ->
  exists r, file_offset_to_rva p o = Ok r /\ r = s_va s + (o - s_rawptr s) /\ rva_to_file_offset p r = Ok o.
Proof. exact file_rva_round_trip. Qed.
Print Assumptions C11_offset_round_trip.
Theorem C11_rva_unmapped_throws : forall p r,
  spec_layout p -> hdrsize p <= r ->
  (forall i s, nth_error (p_sections p) i = Some s -> ~ occupies (salign p) s r) ->
  rva_to_file_offset p r = Throw no_section_found.
Proof. exact rva_to_file_offset_throws. Qed.
Print Assumptions C11_rva_unmapped_throws.
Theorem C11_offset_unmapped_throws : forall p o,
  Forall wf_section (p_sections p) -> file_layout p -> hdrsize p <= o ->
  (forall i s, nth_error (p_sections p) i = Some s -> ~ in_file s o) ->
  file_offset_to_rva p o = Throw no_section_found.
Proof. exact file_offset_to_rva_throws. Qed.
Print Assumptions C11_offset_unmapped_throws.
Example C11_case :
  spec_layout sample_pe /\ file_layout sample_pe /\ rva_to_file_offset sample_pe 0x2002 = Ok 0x602 /\
  file_offset_to_rva sample_pe 0x602 = Ok 0x2002.
Proof. split; [exact sample_layout|]. split; [exact sample_file_layout|]. split; vm_compute; reflexivity. Qed.
(** An RVA in the zero-filled tail has no file offset, yet one is returned, and it does
    not convert back. *)
Theorem C11_virtual_tail_refuted :
  exists p r o, spec_layout p /\ file_layout p /\ is_u32 r /\
  rva_to_file_offset p r = Ok o /\ file_offset_to_rva p o = Throw no_section_found.
Proof.
  exists sample_pe, 0x2003, 0x603. split; [exact sample_layout|]. split; [exact sample_file_layout|].
  unfold dir_is, is_u32; ands; calc.
Qed.
Print Assumptions C11_virtual_tail_refuted.

(** ** C12 *)
Theorem C12_read_safe : forall p rva n ty hdrs,
  Forall wf_section (p_sections p) -> is_u32 rva -> 0 <= n -> safe (read_rva p rva n ty hdrs).
Proof. exact read_rva_safe. Qed.
Print Assumptions C12_read_safe.
Theorem C12_read_in_section_safe : forall p s rva n ty,
  wf_section s -> is_u32 rva -> 0 <= n -> safe (read_in_section p s rva n ty).
Proof. exact read_in_section_safe. Qed.
Print Assumptions C12_read_in_section_safe.
Theorem C12_read_exact : forall p rva n ty hdrs bs,
  spec_layout p -> unmapped p -> is_u32 rva -> 0 <= n ->
  read_rva p rva n ty hdrs = Ok bs -> zlen bs = n /\ mapped_at p ty hdrs rva bs.
Proof. exact read_rva_exact. Qed.
Print Assumptions C12_read_exact.
Theorem C12_read_total : forall p rva n ty i s,
  spec_layout p -> unmapped p -> is_u32 rva -> 0 <= n ->
  nth_error (p_sections p) i = Some s -> occupies (salign p) s rva ->
  rva - s_va s + n <= zlen (contents p s ty) ->
  read_rva p rva n ty false = Ok (slice (contents p s ty) (rva - s_va s) n).
Proof. exact read_rva_total. Qed.
Print Assumptions C12_read_total.
Example C12_case :
  spec_layout sample_pe /\ unmapped sample_pe /\
  read_rva sample_pe 0x2001 4 VirtData false = Ok [8;9;0;0] /\
  read_rva sample_pe 0x2001 4 RawData false = Throw rva_not_exists /\
  read_rva sample_pe 0 2 RawData true = Ok [77;90].
Proof. split; [exact sample_layout|]. split; [exact sample_unmapped|]. ands; calc. Qed.

(** ** C13 *)
(** Pointers into the virtual view are inside it. *)
Theorem C13_virtual_pointer_partial : forall p rva hdrs buf off,
  spec_layout p -> unmapped p -> is_u32 rva ->
  ptr_rva p rva VirtData hdrs = Ok (buf, off) -> 0 <= off < zlen buf.
Proof. exact ptr_rva_virt_inside. Qed.
Print Assumptions C13_virtual_pointer_partial.
(** Pointers into raw data are inside it when the raw data fill the address range. *)
Theorem C13_raw_pointer_partial : forall p rva hdrs buf off,
  Forall wf_section (p_sections p) -> is_u32 rva ->
  (forall i s, nth_error (p_sections p) i = Some s -> aligned_vsize (salign p) s <= zlen (raw_view s)) ->
  ptr_rva p rva RawData hdrs = Ok (buf, off) \/ ptr_rva_mut p rva hdrs = Ok (buf, off) -> 0 <= off < zlen buf.
Proof. exact ptr_rva_raw_inside. Qed.
Print Assumptions C13_raw_pointer_partial.
(** For an RVA in the zero-filled tail the raw-data pointers (const and writable) are far
    outside the buffer. *)
Theorem C13_raw_pointer_refuted :
  exists p rva buf off, spec_layout p /\ unmapped p /\
  ptr_rva p rva RawData false = Ok (buf, off) /\ ptr_rva_mut p rva false = Ok (buf, off) /\ zlen buf + 1000 < off.
Proof.
  exists sample_pe, 0x3000, [7;8;9], 0x1000. split; [exact sample_layout|]. split; [exact sample_unmapped|].
  ands; calc.
Qed.
Print Assumptions C13_raw_pointer_refuted.
Definition C13_full_pe : pe :=
  set_p_sections [set_s_data (repeat 1 0x1000) sample_code] sample_pe.
Example C13_case :
  (forall i s, nth_error (p_sections C13_full_pe) i = Some s -> aligned_vsize (salign C13_full_pe) s <= zlen (raw_view s)) /\
  exists b, ptr_rva C13_full_pe 0x1800 RawData false = Ok (b, 0x800).
Proof.
  split; [|eexists; vm_compute; reflexivity].
  intros [|i] s H; cbn in H; [|destruct i; discriminate]. inversion H; subst. vm_compute; discriminate.
Qed.
