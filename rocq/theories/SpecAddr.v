(** Vocabulary for the queries by address (C84). *)
From Verif Require Export SpecPe AddrModel.

(** How many bytes of a kind a section has: those stored, or the addresses it takes. *)
Definition data_size (p : pe) (s : section) (ty : datatype) : Z :=
  match ty with RawData => zlen (s_data s) | VirtData => span (salign p) s end.
(** The address is in the headers, and those are asked for too. *)
Definition in_headers (p : pe) (hdrs : bool) (rva : Z) : Prop := hdrs = true /\ rva < zlen (p_full p).
(** The section at [i] is [s] and has the address. *)
Definition at_section (p : pe) (rva : Z) (i : nat) (s : section) : Prop := nth_error (p_sections p) i = Some s /\ occupies (salign p) s rva.
(** The virtual address of an RVA, modulo 2^64. *)
Definition va_of (p : pe) (rva : Z) : Z := u64 (imagebase p + rva).
(** The headers and the data of every section have less than 4 GiB. *)
Definition under_4g (p : pe) : Prop := zlen (p_full p) < 2^32 /\ Forall (fun s => zlen (s_data s) < 2^32) (p_sections p).
