(** Vocabulary of C86: debug information in files that are written and opened again. *)
From Verif Require Export SpecKeep SpecDebug.

(** The image that opening the file in a stream gives, debug data read. *)
Definition opened_with_debug (out : list Z) (r : pe) : Prop := exists strict f, factory_create false true (open_stream strict out) = (f, Ok r).
(** Entries whose raw data are looked at: COFF, CodeView, misc. *)
Definition described_type (e : debug_info) : Prop := d_type e = 1 \/ d_type e = 2 \/ d_type e = 4.
(** The raw data that the image has for the entry are as many as the entry says, and the file has them at the entry's offset. *)
Definition raw_stored (p : pe) (out : list Z) (e : debug_info) : Prop :=
  described_type e -> d_size e <> 0 /\ exists d, raw_data p (d_ptr e) d /\ zlen d = d_size e /\ stands out (d_ptr e) d.
(** The raw data of the entry are in the file data of a section of the image. *)
Definition in_section_data (p : pe) (e : debug_info) : Prop :=
  described_type e -> d_size e <> 0 -> exists s, In s (p_sections p) /\ s_rawptr s <= d_ptr e /\ d_ptr e + d_size e <= s_rawptr s + zlen (raw_view s).
