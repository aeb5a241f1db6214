(** Specification vocabulary for writing an image (C24-C26, C62). *)
From Verif Require Export RebuildModel SpecLoad.

(** Where the NT headers are written: after the 64 bytes of the DOS header and the stub,
    padded to a multiple of four; or at 16 when the DOS header is stripped. *)
Definition nt_offset (strip : bool) (p : pe) : Z := if strip then 16 else 64 + ceil_mult (zlen (p_stub p)) 4.
(** Size of the NT headers and of their first [nrva] directories. *)
Definition nt_length (p : pe) : Z := (if p_plus p then 136 else 120) + 8 * nrva p.
(** The bound import directory is written behind the headers when the caller asks for it,
    it exists and it lies in the headers now. *)
Definition bound_saved (save : bool) (p : pe) : bool :=
  match nth_error (h_dirs (p_nt p)) 11 with
  | Some (rva, size) => save && (11 <? nrva p) && negb (rva =? 0) && (rva <=? hdrsize p)
  | None => false
  end.
(** Its size then, otherwise 0. *)
Definition bound_length (save : bool) (p : pe) : Z :=
  match nth_error (h_dirs (p_nt p)) 11 with
  | Some (rva, size) => if bound_saved save p then size else 0
  | None => 0
  end.
(** End of the headers, and start of the section data. *)
Definition headers_end (strip save : bool) (p : pe) : Z :=
  nt_offset strip p + nt_length p + 40 * zlen (p_sections p) + bound_length save p.
Definition data_start (strip save : bool) (p : pe) : Z := ceil_mult (headers_end strip save p) (falign p).
(** File space taken by the data of the sections. *)
Fixpoint data_total (fa : Z) (l : list section) : Z :=
  match l with [] => 0 | s :: t => ceil_mult (s_rawsize s) fa + data_total fa t end.
(** The header of each section claims no more data than the section has. *)
Definition raw_sizes_ok (p : pe) : Prop := Forall (fun s => s_rawsize s <= zlen (raw_view s)) (p_sections p).
(** Sections without data do not point behind the headers. *)
Definition no_stale_pointers (start : Z) (p : pe) : Prop :=
  Forall (fun s => s_rawsize s = 0 -> s_rawptr s <= start) (p_sections p).
(** Same section but for its place in the file. *)
Definition same_but_place (s t : section) : Prop := set_s_rawptr 0 t = set_s_rawptr 0 s.
(** An image object with fields in the range of their C++ types, at most 16 directories,
    fewer than 2^31 bytes of stub and section headers, no section inside the headers, and
    no section whose header claims more data than it has. *)
Definition rebuild_range (p : pe) : Prop :=
  dirs_ok p /\ 0 <= nrva p <= 16 /\ zlen (p_dosmid p) = 58 /\ Forall wf_section (p_sections p) /\ is_u32 (hdrsize p) /\
  raw_sizes_ok p /\ zlen (p_full p) < 2^32 /\ Forall (fun s => hdrsize p <= s_va s) (p_sections p) /\
  zlen (p_stub p) + 40 * zlen (p_sections p) < 2^31.

(** ** Reading back what was written (C25, C62) *)
(** A section that the loader takes as it is: its header describes its data, it has a
    virtual size, and its rounded data fit in its address range. *)
Definition section_loadable (p : pe) (s : section) : Prop :=
  0 < s_vsize s <= 2^31 /\ s_rawsize s = zlen (raw_view s) /\
  ceil_mult (s_rawsize s) (falign p) <= ceil_mult (s_vsize s) (salign p).
(** An image with a consistent layout: fields in the range of their C++ types, the right
    signatures, alignments as the loader accepts them, one to 96 sections, laid out
    contiguously from an aligned address behind the headers and below 2^32. *)
Definition consistent (p : pe) : Prop :=
  image_wf p /\ zlen (p_stub p) < 2^30 /\ p_magic p = 0x5a4d /\
  h_signature (p_nt p) = 0x4550 /\ h_magic (p_nt p) = (if p_plus p then 0x20b else 0x10b) /\
  (p_plus p = true -> h_basedata (p_nt p) = 0) /\ ok_alignments (p_nt p) /\ 0 < zlen (p_sections p) <= 0x60 /\
  (exists start, hdrsize p <= start /\ (salign p | start) /\ chain (salign p) start (p_sections p) /\
     chain_end (salign p) start (p_sections p) < 2^32) /\
  Forall (section_loadable p) (p_sections p).
(** [t] has the name, addresses, sizes, attributes and data of [s]. *)
Definition same_section (s t : section) : Prop :=
  s_name t = s_name s /\ s_vsize t = s_vsize s /\ s_va t = s_va s /\ s_rawsize t = s_rawsize s /\
  s_relptr t = s_relptr s /\ s_lineptr t = s_lineptr s /\ s_nrel t = s_nrel s /\ s_nline t = s_nline s /\
  s_chars t = s_chars s /\ raw_view t = raw_view s.
(** [r] is what reading back [p] gives: the same sections; the same stub, padded to a
    multiple of four (no stub, and new contents of the DOS header, when it was stripped);
    the same NT headers except for the fields that follow from the layout; the same
    directories, the bound import directory moved if it was saved. *)
Definition reloaded (strip change_headers save : bool) (p r : pe) : Prop :=
  p_plus r = p_plus p /\ p_magic r = p_magic p /\ p_lfanew r = nt_offset strip p /\
  (strip = false -> p_dosmid r = p_dosmid p) /\
  p_stub r = (if strip then [] else p_stub p ++ zeros (ceil_mult (zlen (p_stub p)) 4 - zlen (p_stub p))) /\
  Forall2 same_section (p_sections p) (p_sections r) /\
  p_nt r = set_h_nsections (zlen (p_sections p)) (set_h_optsize (nt_length p - 24)
    (set_h_imagesize (imagesize r) (set_h_hdrsize (if change_headers then data_start strip save p else hdrsize p)
    (set_h_basecode (if strip then 16 else h_basecode (p_nt p)) (set_h_dirs (h_dirs (p_nt r)) (p_nt p)))))) /\
  (forall l s, p_sections p = l ++ [s] -> imagesize r = send (salign p) s) /\
  dirs_ok r /\
  forall id d, dir_is p id d ->
    dir_is r id (if id <? nrva p
                 then if (id =? 11) && bound_saved save p then (headers_end strip save p - bound_length save p, snd d) else d
                 else (0, 0)).

(** ** Images built from nothing (C62) *)
(** A section as the user makes it before adding it: fields in range, something in it, no
    place in the file yet, no address yet or one behind the headers. *)
Definition to_add (s : section) : Prop :=
  wf_section s /\ zlen (raw_view s) <= 2^31 /\ s_vsize s <= 2^31 /\ (raw_view s <> [] \/ s_vsize s <> 0) /\
  s_rawptr s = 0 /\ (s_va s = 0 \/ 1024 <= s_va s).
(** Address space a section needs, and all sections need. *)
Definition space (sa : Z) (s : section) : Z := ceil_mult (Z.max (zlen (raw_view s)) (s_vsize s)) sa.
Fixpoint total_space (sa : Z) (l : list section) : Z :=
  match l with [] => 0 | s :: t => space sa s + total_space sa t end.
(** Where the first section goes: where the user wants it, or behind the headers of a new
    image, which take 1024 bytes. *)
Definition first_address (sa : Z) (l : list section) : Z :=
  match l with
  | s :: _ => ceil_mult (if s_va s =? 0 then 1024 else s_va s) sa
  | [] => 0
  end.
(** Size of the headers of a new image with [n] sections. *)
Definition created_headers (strip plus : bool) (n a : Z) : Z :=
  ceil_mult ((if strip then 16 else 64) + (if plus then 264 else 248) + 40 * n) a.
(** Same name, attributes and data, up to zeros at the end of the data. *)
Definition same_contents (s t : section) : Prop :=
  s_name t = s_name s /\ s_chars t = s_chars s /\ s_vsize s <= s_vsize t /\
  (padded (raw_view s) (raw_view t) \/ padded (raw_view t) (raw_view s)).
