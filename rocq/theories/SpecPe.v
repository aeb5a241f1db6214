(** Specification vocabulary for properties of a whole image (C06-C23). *)
From Verif Require Export PeModel SpecUtils SpecSection.

(** ** Address space *)
(** Bytes of address space taken by a section: its VirtualSize (SizeOfRawData when that
    is zero) rounded up to the section alignment. *)
Definition span (sa : Z) (s : section) : Z :=
  ceil_mult (if s_vsize s =? 0 then s_rawsize s else s_vsize s) sa.
(** First address after the section. *)
Definition send (sa : Z) (s : section) : Z := s_va s + span sa s.
Definition occupies (sa : Z) (s : section) (r : Z) : Prop := s_va s <= r < send sa s.
(** Alignments as every loaded image has them. *)
Definition good_align (p : pe) : Prop :=
  power_of_two (salign p) /\ power_of_two (falign p) /\ falign p <= salign p < 2^32.
(** No address belongs to two sections. *)
Definition disjoint_sections (sa : Z) (l : list section) : Prop :=
  forall i j s t r, nth_error l i = Some s -> nth_error l j = Some t ->
  occupies sa s r -> occupies sa t r -> i = j.
(** Sections do not wrap around the 32-bit address space and do not overlap. *)
Definition spec_layout (p : pe) : Prop :=
  good_align p /\ Forall wf_section (p_sections p) /\
  Forall (fun s => send (salign p) s < 2^32) (p_sections p) /\
  disjoint_sections (salign p) (p_sections p).
(** Each section starts where the previous one ends, the first one at [start]. *)
Fixpoint chain (sa start : Z) (l : list section) : Prop :=
  match l with
  | [] => True
  | s :: t => s_va s = start /\ chain sa (send sa s) t
  end.
Fixpoint chain_end (sa start : Z) (l : list section) : Z :=
  match l with
  | [] => start
  | s :: t => chain_end sa (send sa s) t
  end.
(** No section is in the cached "mapped" state. *)
Definition unmapped (p : pe) : Prop := Forall (fun s => s_old s = None) (p_sections p).

(** ** Data directories *)
(** Two images that differ at most in their data directory array. *)
Definition same_but_dirs (p q : pe) : Prop :=
  with_nt (set_h_dirs []) p = with_nt (set_h_dirs []) q.
(** The directory array is what the C++ type says: 16 pairs of 32-bit values. *)
Definition dirs_ok (p : pe) : Prop :=
  length (h_dirs (p_nt p)) = 16%nat /\ Forall (fun d => is_u32 (fst d) /\ is_u32 (snd d)) (h_dirs (p_nt p)).
(** Directory entry [id] of the image is ([rva], [size]). *)
Definition dir_is (p : pe) (id : Z) (d : Z * Z) : Prop :=
  0 <= id /\ nth_error (h_dirs (p_nt p)) (Z.to_nat id) = Some d.

(** ** Bytes seen at an address *)
(** The bytes of a section as the caller asked to see them: the stored bytes, or those
    followed by zeros up to the end of the address range. *)
Definition contents (p : pe) (s : section) (ty : datatype) : list Z :=
  match ty with
  | RawData => s_data s
  | VirtData => s_data s ++ zeros (span (salign p) s - zlen (s_data s))
  end.
(** [bs] is what the image maps at [rva]. *)
Definition mapped_at (p : pe) (ty : datatype) (hdrs : bool) (rva : Z) (bs : list Z) : Prop :=
  (hdrs = true /\ rva + zlen bs <= zlen (p_full p) /\ bs = slice (p_full p) rva (zlen bs)) \/
  (exists i s, nth_error (p_sections p) i = Some s /\ occupies (salign p) s rva /\
     rva - s_va s + zlen bs <= zlen (contents p s ty) /\
     bs = slice (contents p s ty) (rva - s_va s) (zlen bs)).

(** ** File offsets (C11) *)
(** File range of a section's stored data. *)
Definition in_file (s : section) (o : Z) : Prop := s_rawptr s <= o < s_rawptr s + s_rawsize s.
(** Stored data do not wrap, do not overlap and come after the headers. *)
Definition file_layout (p : pe) : Prop :=
  Forall (fun s => s_rawptr s + s_rawsize s < 2^32 /\ (s_rawsize s <> 0 -> hdrsize p <= s_rawptr s)) (p_sections p) /\
  forall i j s t o, nth_error (p_sections p) i = Some s -> nth_error (p_sections p) j = Some t ->
  in_file s o -> in_file t o -> i = j.

(** ** Editing (C18-C23) *)
(** A section object keeps its name, addresses, attributes and stored bytes; only the
    SizeOfRawData header field may differ. *)
Definition keeps (s t : section) : Prop :=
  s_name t = s_name s /\ s_vsize t = s_vsize s /\ s_va t = s_va s /\ s_rawptr t = s_rawptr s /\
  s_relptr t = s_relptr s /\ s_lineptr t = s_lineptr s /\ s_nrel t = s_nrel s /\
  s_nline t = s_nline s /\ s_chars t = s_chars s /\ raw_view t = raw_view s.
(** Everything of an image except the section list, the section count and SizeOfImage. *)
Definition rest_of (p : pe) : pe :=
  with_nt (fun h => set_h_nsections 0 (set_h_imagesize 0 h)) (set_p_sections [] p).
(** A contiguous, aligned section table starting at [start] that fits the 32-bit space. *)
Definition image_ok (p : pe) (start : Z) : Prop :=
  good_align p /\ Forall wf_section (p_sections p) /\ (salign p | start) /\ 0 <= start < 2^32 /\
  chain (salign p) start (p_sections p) /\ chain_end (salign p) start (p_sections p) < 2^32.
(** [d'] is [d] followed by zeros. *)
Definition padded (d d' : list Z) : Prop := exists n, d' = d ++ zeros n.
(** [d'] is [d] without its trailing zeros. *)
Definition trimmed (d d' : list Z) : Prop :=
  padded d' d /\ (d' = [] \/ exists b t, d' = t ++ [b] /\ b <> 0).

(** One editing call. *)
Inductive edit_op :=
| EdAdd (s : section) (autoupdate : bool)
| EdVirtualSize (i : nat) (v : Z)
| EdExpandVirtual (i : nat) (rva n : Z)
| EdUpdate.
Definition run_edit (op : edit_op) (p : pe) : res pe :=
  match op with
  | EdAdd s a => add_section p s a
  | EdVirtualSize i v => set_section_virtual_size p i v
  | EdExpandVirtual i rva n => r <- expand_section p i rva n ExpandVirtual ;; Ok (fst r)
  | EdUpdate => Ok (update_image_size p)
  end.
(** Arguments as the C++ types and half of the address space admit them. *)
Definition edit_args (op : edit_op) : Prop :=
  match op with
  | EdAdd s _ => wf_section s /\ zlen (raw_view s) <= 2^31 /\ s_vsize s <= 2^31
  | EdVirtualSize i v => 0 < v < 2^32
  | EdExpandVirtual i rva n => 0 <= rva /\ 0 < n /\ rva + n <= 2^31
  | EdUpdate => True
  end.
(** [q] is reached from [p] by successful editing calls, none of which runs out of address space. *)
Inductive edits (start : Z) : pe -> pe -> Prop :=
| edits_nil p : edits start p p
| edits_step p q r op : edit_args op -> run_edit op p = Ok q ->
    chain_end (salign q) start (p_sections q) < 2^32 -> edits start q r -> edits start p r.
(** Realigning: what one section looks like afterwards. *)
Definition realigned (fa : Z) (last : bool) (s t : section) : Prop :=
  s_name t = s_name s /\ s_vsize t = s_vsize s /\ s_va t = s_va s /\ s_rawptr t = s_rawptr s /\
  s_relptr t = s_relptr s /\ s_lineptr t = s_lineptr s /\ s_nrel t = s_nrel s /\ s_nline t = s_nline s /\
  s_chars t = s_chars s /\ s_rawsize t = zlen (raw_view t) /\
  if last then trimmed (raw_view s) (raw_view t)
  else padded (raw_view s) (raw_view t) /\ zlen (raw_view t) = ceil_mult (s_rawsize s) fa.
