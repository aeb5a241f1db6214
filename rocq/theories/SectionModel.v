(** Model of /repo/src/pe_lib/pe_section.{h,cpp}: one image section. *)
From Verif Require Export Base UtilsModel.

(** class section with its image_section_header: pe_section.h:94-112, pe_structures.h:381-398. [s_old = None] stands for old_size_ == -1 *)
Record section : Type := mk_section {
  s_name : list Z;
  s_vsize : Z;
  s_va : Z;
  s_rawsize : Z;
  s_rawptr : Z;
  s_relptr : Z;
  s_lineptr : Z;
  s_nrel : Z;
  s_nline : Z;
  s_chars : Z;
  s_data : list Z;
  s_old : option Z
}.
(** Assigns one field: pe_structures.h:383. *)
Definition set_s_name (v : list Z) (h : section) : section :=
  mk_section v (s_vsize h) (s_va h) (s_rawsize h) (s_rawptr h) (s_relptr h) (s_lineptr h) (s_nrel h) (s_nline h) (s_chars h) (s_data h) (s_old h).
(** Assigns one field: pe_structures.h:387. *)
Definition set_s_vsize (v : Z) (h : section) : section :=
  mk_section (s_name h) v (s_va h) (s_rawsize h) (s_rawptr h) (s_relptr h) (s_lineptr h) (s_nrel h) (s_nline h) (s_chars h) (s_data h) (s_old h).
(** Assigns one field: pe_structures.h:390. *)
Definition set_s_va (v : Z) (h : section) : section :=
  mk_section (s_name h) (s_vsize h) v (s_rawsize h) (s_rawptr h) (s_relptr h) (s_lineptr h) (s_nrel h) (s_nline h) (s_chars h) (s_data h) (s_old h).
(** Assigns one field: pe_structures.h:391. *)
Definition set_s_rawsize (v : Z) (h : section) : section :=
  mk_section (s_name h) (s_vsize h) (s_va h) v (s_rawptr h) (s_relptr h) (s_lineptr h) (s_nrel h) (s_nline h) (s_chars h) (s_data h) (s_old h).
(** Assigns one field: pe_structures.h:392. *)
Definition set_s_rawptr (v : Z) (h : section) : section :=
  mk_section (s_name h) (s_vsize h) (s_va h) (s_rawsize h) v (s_relptr h) (s_lineptr h) (s_nrel h) (s_nline h) (s_chars h) (s_data h) (s_old h).
(** Assigns one field: pe_structures.h:393. *)
Definition set_s_relptr (v : Z) (h : section) : section :=
  mk_section (s_name h) (s_vsize h) (s_va h) (s_rawsize h) (s_rawptr h) v (s_lineptr h) (s_nrel h) (s_nline h) (s_chars h) (s_data h) (s_old h).
(** Assigns one field: pe_structures.h:394. *)
Definition set_s_lineptr (v : Z) (h : section) : section :=
  mk_section (s_name h) (s_vsize h) (s_va h) (s_rawsize h) (s_rawptr h) (s_relptr h) v (s_nrel h) (s_nline h) (s_chars h) (s_data h) (s_old h).
(** Assigns one field: pe_structures.h:395. *)
Definition set_s_nrel (v : Z) (h : section) : section :=
  mk_section (s_name h) (s_vsize h) (s_va h) (s_rawsize h) (s_rawptr h) (s_relptr h) (s_lineptr h) v (s_nline h) (s_chars h) (s_data h) (s_old h).
(** Assigns one field: pe_structures.h:396. *)
Definition set_s_nline (v : Z) (h : section) : section :=
  mk_section (s_name h) (s_vsize h) (s_va h) (s_rawsize h) (s_rawptr h) (s_relptr h) (s_lineptr h) (s_nrel h) v (s_chars h) (s_data h) (s_old h).
(** Assigns one field: pe_structures.h:397. *)
Definition set_s_chars (v : Z) (h : section) : section :=
  mk_section (s_name h) (s_vsize h) (s_va h) (s_rawsize h) (s_rawptr h) (s_relptr h) (s_lineptr h) (s_nrel h) (s_nline h) v (s_data h) (s_old h).
(** Assigns one field: pe_section.h:111. *)
Definition set_s_data (v : list Z) (h : section) : section :=
  mk_section (s_name h) (s_vsize h) (s_va h) (s_rawsize h) (s_rawptr h) (s_relptr h) (s_lineptr h) (s_nrel h) (s_nline h) (s_chars h) v (s_old h).
(** Assigns one field: pe_section.h:108. *)
Definition set_s_old (v : option Z) (h : section) : section :=
  mk_section (s_name h) (s_vsize h) (s_va h) (s_rawsize h) (s_rawptr h) (s_relptr h) (s_lineptr h) (s_nrel h) (s_nline h) (s_chars h) (s_data h) v.


(** pe_section.cpp:10-15 default constructor. *)
Definition new_section : section := mk_section (zeros 8) 0 0 0 0 0 0 0 0 0 [] None.

(** pe_section.cpp:17-22 set_name: memset 8 zeros, copy at most 8 bytes. *)
Definition set_name (name : list Z) (s : section) : section :=
  let n := Z.min (zlen name) 8 in
  set_s_name (splice (zeros 8) 0 (ztake n name)) s.
(** pe_section.cpp:24-30 get_name: 8 bytes copied into a zeroed 9-byte buffer, cut at the first NUL. *)
Definition get_name (s : section) : list Z := until0 (ztake 8 (s_name s) ++ [0]).

(** pe_section.cpp:32-41 set_flag. *)
Definition set_flag (flag : Z) (b : bool) (s : section) : section :=
  if b then set_s_chars (Z.lor (s_chars s) flag) s
  else set_s_chars (Z.land (s_chars s) (u32 (Z.lnot flag))) s.
(** pe_structures.h:54-60 *)
Definition image_scn_mem_discardable : Z := 0x02000000.
(** pe_structures.h:57 *)
Definition image_scn_mem_shared : Z := 0x10000000.
(** pe_structures.h:58 *)
Definition image_scn_mem_execute : Z := 0x20000000.
(** pe_structures.h:59 *)
Definition image_scn_mem_read : Z := 0x40000000.
(** pe_structures.h:60 *)
Definition image_scn_mem_write : Z := 0x80000000.
(** The five attributes of a section (pe_section.h:28-40). *)
Inductive attr := Readable | Writeable | Executable | Shared | Discardable.
(** Flag used by each attribute setter and getter (pe_section.cpp:43-99). *)
Definition attr_flag (a : attr) : Z :=
  match a with
  | Readable => image_scn_mem_read | Writeable => image_scn_mem_write
  | Executable => image_scn_mem_execute | Shared => image_scn_mem_shared
  | Discardable => image_scn_mem_discardable
  end.
(** pe_section.cpp:43-71 readable(bool) ... discardable(bool). *)
Definition set_attr (a : attr) (b : bool) (s : section) : section := set_flag (attr_flag a) b s.
(** pe_section.cpp:73-99 readable() ... discardable(). *)
Definition get_attr (a : attr) (s : section) : bool := negb (Z.land (s_chars s) (attr_flag a) =? 0).

(** pe_section.cpp:101-108 empty. *)
Definition sec_empty (s : section) : bool :=
  match s_old s with Some n => n =? 0 | None => zlen (s_data s) =? 0 end.

(** pe_section.cpp:208-222 get_aligned_virtual_size. *)
Definition aligned_vsize (sa : Z) (s : section) : Z :=
  if negb (s_rawsize s =? 0) && (s_vsize s =? 0) then align_up (s_rawsize s) sa
  else align_up (s_vsize s) sa.
(** pe_section.cpp:224-231 get_aligned_raw_size. *)
Definition aligned_rawsize (fa : Z) (s : section) : Z :=
  if s_rawsize s =? 0 then 0 else align_up (s_rawsize s) fa.

(** pe_section.cpp:145-154 map_virtual. *)
Definition map_virtual (sa : Z) (s : section) : section :=
  let v := aligned_vsize sa s in
  match s_old s with
  | Some _ => s
  | None => if negb (v =? 0) && (zlen (s_data s) <? v)
            then set_s_old (Some (zlen (s_data s))) (set_s_data (resize (s_data s) v) s)
            else s
  end.
(** pe_section.cpp:156-164 unmap_virtual. *)
Definition unmap_virtual (s : section) : section :=
  match s_old s with
  | Some n => set_s_old None (set_s_data (resize (s_data s) n) s)
  | None => s
  end.
(** pe_section.cpp:110-115,124-129 get_raw_data: the bytes seen through the returned
    reference. The accessor also stores [unmap_virtual s] back into the section;
    readers in this model leave that out. [raw_view_unmap], [raw_view_map] and
    [virt_view_toggle] in SectionFacts.v show that no later view of a section that was
    not mapped to begin with can tell the difference. *)
Definition raw_view (s : section) : list Z := s_data (unmap_virtual s).
(** pe_section.cpp:131-143 get_virtual_data: the bytes seen. *)
Definition virt_view (sa : Z) (s : section) : list Z := s_data (map_virtual sa s).
(** pe_section.cpp:117-122 set_raw_data. *)
Definition set_raw_data (d : list Z) (s : section) : section := set_s_data d (set_s_old None s).
(** Editing the string returned by get_raw_data() (pe_section.cpp:110-115). *)
Definition with_raw (f : list Z -> list Z) (s : section) : section :=
  let s' := unmap_virtual s in set_s_data (f (s_data s')) s'.
(** Editing the string returned by get_virtual_data() (pe_section.cpp:138-143). *)
Definition with_virt (sa : Z) (f : list Z -> list Z) (s : section) : section :=
  let s' := map_virtual sa s in set_s_data (f (s_data s')) s'.

(** pe_section.cpp:268-272 section_by_raw_offset (32-bit sum). *)
Definition has_raw_offset (offset : Z) (s : section) : bool :=
  (s_rawptr s <=? offset) && (offset <? u32 (s_rawptr s + s_rawsize s)).

(** Ranges of the fields of a section object. *)
Definition wf_section (s : section) : Prop :=
  bytes (s_name s) /\ zlen (s_name s) = 8 /\ is_u32 (s_vsize s) /\ is_u32 (s_va s) /\
  is_u32 (s_rawsize s) /\ is_u32 (s_rawptr s) /\ is_u32 (s_relptr s) /\ is_u32 (s_lineptr s) /\
  is_u16 (s_nrel s) /\ is_u16 (s_nline s) /\ is_u32 (s_chars s) /\
  bytes (s_data s) /\ zlen (s_data s) < 2^63 /\
  match s_old s with None => True | Some n => 0 <= n <= zlen (s_data s) end.
