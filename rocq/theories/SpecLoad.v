(** Specification vocabulary for loading (C14-C17). *)
From Verif Require Export LoadModel SpecPe.

(** Little-endian integer of [n] bytes at an offset of the file. *)
Definition le_at (file : list Z) (off n : Z) : Z := unle (slice file off n).
(** Greatest multiple of [a] not above [x]. *)
Definition floor_mult (x a : Z) : Z := a * (x / a).
(** A byte stream with its get position where the buffer kind admits one. *)
Definition wf_stream (f : istream) : Prop :=
  bytes (i_data f) /\ zlen (i_data f) < 2^63 /\ 0 <= i_pos f /\ (i_strict f = true -> i_pos f <= zlen (i_data f)).
(** ... and no error flag set. *)
Definition ready (f : istream) : Prop := wf_stream f /\ i_fail f = false /\ i_eof f = false.

(** What the loader accepts as section alignment and file alignment. *)
Definition ok_alignments (h : nt_headers) : Prop :=
  power_of_two (h_salign h) /\ power_of_two (h_falign h) /\ h_salign h < 2^32 /\ h_falign h <= h_salign h /\
  (h_falign h = h_salign h \/ 512 <= h_falign h).
(** Address and size checks on one section. *)
Definition section_limits (h : nt_headers) (s : section) : Prop :=
  s_va s + s_vsize s < 2^32 /\ s_vsize s <= 2^31 /\ s_rawsize s <= 2^31 /\
  ceil_mult (s_rawsize s) (h_falign h) <= ceil_mult (s_vsize s) (h_salign h) /\
  u32 (send (h_salign h) s) <= ceil_mult (h_imagesize h) (h_salign h).

(** Section [s] is the one described by the section header at [off] of the file: every
    header field is the little-endian field of the file, except SizeOfRawData, which is
    replaced by VirtualSize when its rounding exceeds the rounded VirtualSize; the data are
    the file's bytes. *)
Definition section_from_file (file : list Z) (h : nt_headers) (from_mem : bool) (off : Z) (s : section) : Prop :=
  off + 40 <= zlen file /\
  s_name s = slice file off 8 /\
  s_vsize s = le_at file (off + 8) 4 /\ s_va s = le_at file (off + 12) 4 /\
  s_rawptr s = le_at file (off + 20) 4 /\ s_relptr s = le_at file (off + 24) 4 /\
  s_lineptr s = le_at file (off + 28) 4 /\ s_nrel s = le_at file (off + 32) 2 /\
  s_nline s = le_at file (off + 34) 2 /\ s_chars s = le_at file (off + 36) 4 /\
  s_old s = None /\
  let raw := le_at file (off + 16) 4 in
  s_rawsize s = (if ceil_mult (s_vsize s) (h_salign h) <? ceil_mult raw (h_falign h) then s_vsize s else raw) /\
  zlen (s_data s) = s_rawsize s /\
  s_data s = slice file (if from_mem then floor_mult (s_va s) (h_salign h) else floor_mult (s_rawptr s) (h_falign h))
                   (s_rawsize s).
(** Offset of section header [i]. *)
Definition section_header_at (p : pe) (i : nat) : Z := p_lfanew p + 24 + h_optsize (p_nt p) + 40 * Z.of_nat i.
(** The NT headers of the image are those at [off]: all fields have the size of their C++
    type; written back to back they give the file's bytes, except that a directory count
    above 16 was replaced by 16; directories beyond the count are empty. *)
Definition headers_from_file (file : list Z) (plus : bool) (off : Z) (h : nt_headers) : Prop :=
  let fixed := if plus then 136 else 120 in
  let count := le_at file (off + fixed - 4) 4 in
  off + fixed + 8 * h_nrva h <= zlen file /\
  h_nrva h = Z.min count 16 /\
  enc_fields (nt_widths plus) (nt_fields plus (set_h_nrva count h)) = slice file off fixed /\
  length (h_dirs h) = 16%nat /\
  forall i d, nth_error (h_dirs h) i = Some d ->
    d = (if Z.of_nat i <? h_nrva h
         then (le_at file (off + fixed + 8 * Z.of_nat i) 4, le_at file (off + fixed + 8 * Z.of_nat i + 4) 4)
         else (0, 0)).
(** An image all of whose fields fit their C++ types. *)
Definition image_wf (p : pe) : Prop :=
  0 <= p_magic p < 2^16 /\ bytes (p_dosmid p) /\ zlen (p_dosmid p) = 58 /\ is_u32 (p_lfanew p) /\ bytes (p_stub p) /\
  fits (nt_widths (p_plus p)) (nt_fields (p_plus p) (p_nt p)) /\ dirs_ok p /\ 0 <= nrva p <= 16 /\
  Forall wf_section (p_sections p) /\ bytes (p_full p) /\ zlen (p_full p) < 2^32.
(** The image is the one the file describes; [at_] is where the stream stood. *)
Definition image_from_file (file : list Z) (at_ : Z) (from_mem : bool) (p : pe) : Prop :=
  p_magic p = 0x5a4d /\ le_at file at_ 2 = 0x5a4d /\ p_dosmid p = slice file (at_ + 2) 58 /\ p_lfanew p = le_at file (at_ + 60) 4 /\
  p_stub p = slice file 64 (p_lfanew p - 64) /\
  headers_from_file file (p_plus p) (p_lfanew p) (p_nt p) /\
  zlen (p_sections p) = h_nsections (p_nt p) /\
  (forall i s, nth_error (p_sections p) i = Some s -> section_from_file file (p_nt p) from_mem (section_header_at p i) s) /\
  p_full p = slice file 0 (zlen (p_full p)).
(** Checks that a loaded image has passed. *)
Definition image_checked (p : pe) : Prop :=
  h_signature (p_nt p) = 0x4550 /\ h_magic (p_nt p) = (if p_plus p then 0x20b else 0x10b) /\
  p_lfanew p mod 4 = 0 /\ p_lfanew p < 2^31 /\
  h_nsections (p_nt p) <= 0x60 /\ nrva p <= 16 /\ ok_alignments (p_nt p) /\
  0 < ceil_mult (imagesize p) (salign p) < 2^32 /\
  Forall (section_limits (p_nt p)) (p_sections p) /\
  (forall s t, p_sections p = s :: t -> hdrsize p <= s_va s) /\
  (forall i s t, nth_error (p_sections p) i = Some s -> nth_error (p_sections p) (S i) = Some t ->
     s_va t = u32 (send (salign p) s)).

(** Exceptions that report a stream that ended too early. *)
Definition io_errors : list exc :=
  [bad_dos_header; image_nt_headers_not_found; error_reading_image_nt_headers; error_reading_data_directories;
   error_reading_overlay; image_section_headers_not_found; error_reading_section_header;
   image_section_data_not_found; error_reading_file].
