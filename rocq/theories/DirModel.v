(** Model of the steps that the directory rebuilders share. *)
From Verif Require Export PeModel.

(** The check before writing [total] bytes into section [i], and the raw data of the section, lengthened to
    [len] when shorter than [total]: pe_relocations.cpp:173-204, and with [len] = [total]
    pe_exports.cpp:446,555-563, pe_imports.cpp:458-466, pe_resources.cpp:579,600-609,
    pe_bound_import.cpp:207,231-239, pe_tls.cpp:232,239-251, pe_load_config.cpp:391,416-424.
    The checks come first in all of them, so their order is not visible. *)
Definition open_room (p : pe) (i : nat) (total len : Z) : res section :=
  throw_if (negb (section_attached p i)) section_is_not_attached ;;;
  s <- get_section p i ;;
  throw_if (negb (Nat.eqb (S i) (length (p_sections p))) &&
            (sec_empty s || (align_up (s_rawsize s) (falign p) <? total))) insufficient_space ;;;
  let s1 := unmap_virtual s in
  Ok (if zlen (s_data s1) <? total then set_s_data (resize (s_data s1) len) s1 else s1).
(** Stores the directory entry: pe_relocations.cpp:252-253 and the same lines of the other rebuilders. *)
Definition set_directory (p : pe) (id rva size : Z) : res pe :=
  p1 <- set_directory_rva p id rva ;; set_directory_size p1 id size.
(** The end of a rebuilder: the written data [d] of the section that [open_room] gave, the sizes, the
    directory at offset [pos] and, on demand, its entry in the headers: pe_bound_import.cpp:275-288,
    pe_exports.cpp:664-676, pe_resources.cpp:616-628, pe_tls.cpp:361-374, pe_load_config.cpp:521-533.
    The rebuilders work on the section object in place, and what they write does not touch its address. *)
Definition finish_directory (p : pe) (i : nat) (s1 : section) (d : list Z) (pos size id : Z) (save strip : bool) : res (pe * (Z * Z)) :=
  p1 <- recalculate_section_sizes (put_section p i (set_s_data d s1)) i strip ;;
  let rva := rva_from_section_offset s1 pos in
  p2 <- (if save then set_directory p1 id rva size else Ok p1) ;;
  Ok (p2, (rva, size)).

(** utils.h:13-24 is_null_terminated over [n] chars from [off] of a buffer, followed by the construction of
    a std::string from the same pointer: the characters up to the terminating null if there is one. *)
Fixpoint c_scan (l : list Z) (n : Z) : res (option (list Z)) :=
  if n <=? 0 then Ok None
  else match l with
       | [] => Ub OobRead
       | x :: t => if x =? 0 then Ok (Some []) else r <- c_scan t (n - 1) ;; Ok (option_map (cons x) r)
       end.
(** utils.h:13-24: the same, from offset [off] of the buffer. *)
Definition c_string (d : list Z) (off n : Z) : res (option (list Z)) :=
  if off <? 0 then Ub OobRead else c_scan (zdrop off d) n.
