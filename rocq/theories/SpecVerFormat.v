(** The format of a version resource as documented for VS_VERSIONINFO (C54): nested blocks, every one with its length, the length of its
    value, a type (0: binary, 1: text) and a key, all padded to 4 bytes. *)
From Coq Require Import String Ascii.
From Verif Require Export SpecVer.

(** The characters of a literal. *)
Definition text (s : string) : list Z := map (fun c => Z.of_N (N_of_ascii c)) (list_ascii_of_string s).
(** UTF-16 with a null at the end. *)
Definition utf16z (s : list Z) : list Z := flat_map (le 2) (s ++ [0]).
(** Zeros up to a multiple of 4 bytes. *)
Definition padded (bs : list Z) : list Z := bs ++ zeros ((- zlen bs) mod 4).
(** A block: its length is that of the padded head and of all that follows. *)
Definition vblock (value_length type : Z) (key body : list Z) : list Z :=
  let head := fun n => padded (le 2 n ++ le 2 value_length ++ le 2 type ++ utf16z key) in
  head (zlen (head 0) + zlen body) ++ body.
(** A string: its value is counted in characters, with the null. *)
Definition string_part (e : list Z * list Z) : list Z := padded (vblock (zlen (snd e) + 1) 1 (fst e) (utf16z (snd e))).
(** The strings of one translation. *)
Definition table_part (e : list Z * list (list Z * list Z)) : list Z := vblock 0 1 (fst e) (flat_map string_part (snd e)).
(** All strings, if any. *)
Definition strings_part (s : list (list Z * list (list Z * list Z))) : list Z :=
  match s with [] => [] | _ => vblock 0 1 (text "StringFileInfo") (flat_map table_part s) end.
(** The pairs of language and codepage, if any. *)
Definition pairs_part (t : list (Z * Z)) : list Z :=
  match t with [] => [] | _ => vblock 0 1 (text "VarFileInfo") (vblock (4 * zlen t) 0 (text "Translation") (flat_map (fun e => le 2 (fst e) ++ le 2 (snd e)) t)) end.
(** VS_FIXEDFILEINFO. *)
Definition fixed_part (i : file_info) : list Z :=
  flat_map (le 4) [0xFEEF04BD; 0x00010000; fi_version_ms i; fi_version_ls i; fi_product_ms i; fi_product_ls i; 0x3F; fi_flags i; fi_os i; fi_type i; fi_subtype i; fi_date_ms i; fi_date_ls i].
(** The whole. *)
Definition version_format (i : file_info) (s : list (list Z * list (list Z * list Z))) (t : list (Z * Z)) : list Z :=
  vblock 52 0 (text "VS_VERSION_INFO") (fixed_part i ++ strings_part s ++ pairs_part t).
