(** Model of the remaining queries by address: virtual addresses and section offsets. *)
From Verif Require Export TlsModel.

(** pe_base.cpp:1226-1248 section_from_va. *)
Definition section_from_va (p : pe) (va : Z) : res nat := rva <- va_to_rva p va true ;; section_from_rva p rva.
(** pe_base.cpp:1294-1298 section_and_offset_from_rva; the section is given by its index. *)
Definition section_and_offset (p : pe) (rva : Z) : res (Z * nat) :=
  i <- section_from_rva p rva ;; s <- get_section p i ;; Ok (u32 (rva - s_va s), i).
(** pe_base.cpp:656-666 section_data_length_from_va(va, datatype, include_headers). *)
Definition length_va_total (p : pe) (va : Z) (ty : datatype) (hdrs : bool) : res Z := rva <- va_to_rva p va true ;; length_rva_total p rva ty hdrs.
(** pe_base.cpp:720-730 section_data_length_from_va(s, va_inside, datatype). *)
Definition length_va_in_section (p : pe) (s : section) (va : Z) (ty : datatype) : res Z := rva <- va_to_rva p va true ;; length_in_section p s rva ty.
(** pe_base.cpp:1195-1199, 1219-1223 section_data_from_va(va, datatype, include_headers) const. *)
Definition ptr_va (p : pe) (va : Z) (ty : datatype) (hdrs : bool) : res ptr := rva <- va_to_rva p va true ;; ptr_rva p rva ty hdrs.
(** pe_base.cpp:1183-1187, 1207-1211 section_data_from_va(s, va, datatype) const. *)
Definition ptr_va_in_section (p : pe) (s : section) (va : Z) (ty : datatype) : res ptr := rva <- va_to_rva p va true ;; ptr_in_section p s rva ty.
(** pe_base.cpp:1189-1193, 1213-1217 section_data_from_va(va, include_headers), writable pointer. *)
Definition ptr_va_mut (p : pe) (va : Z) (hdrs : bool) : res ptr := rva <- va_to_rva p va true ;; ptr_rva_mut p rva hdrs.
(** pe_base.cpp:1177-1181, 1201-1205 section_data_from_va(s, va), writable pointer. *)
Definition ptr_va_in_section_mut (p : pe) (s : section) (va : Z) : res ptr := rva <- va_to_rva p va true ;; ptr_in_section_mut p s rva.
(** pe_base.h:403-414 section_data_from_va<T>(s, va, datatype), T of [n] bytes. *)
Definition read_va_in_section (p : pe) (s : section) (va n : Z) (ty : datatype) : res (list Z) := rva <- va_to_rva p va true ;; read_in_section p s rva n ty.
