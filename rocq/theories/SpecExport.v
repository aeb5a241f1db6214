(** Specification vocabulary for exports (C32-C35). *)
From Verif Require Export ExportModel SpecDir.
From Coq Require Export Permutation Sorted.

(** Names and forwarders that are given; an empty one counts as none. *)
Definition given (l : list (list Z)) : list (list Z) := filter (fun s => negb (is_empty s)) l.
Definition export_names (l : list exported) : list (list Z) := given (map e_name l).
Definition export_forwards (l : list exported) : list (list Z) := given (map e_fwd l).
Definition export_ordinals (l : list exported) : list Z := map e_ordinal l.
(** Bytes of strings that are each stored with a terminating null. *)
Definition stored_strings (l : list (list Z)) : Z := fold_right (fun s n => zlen s + 1 + n) 0 l.
Definition lowest (l : list exported) : Z := fold_right Z.min 0xFFFF (export_ordinals l).
Definition highest (l : list exported) : Z := fold_right Z.max 0 (export_ordinals l).
(** Bytes of the directory: the header, the library name, an address for every ordinal from the lowest
    to the highest, and the strings, addresses (4 bytes) and ordinals (2 bytes) of the names. *)
Definition export_size (dll : list Z) (l : list exported) : Z :=
  40 + zlen dll + 1 + 4 * (highest l - lowest l + 1) + stored_strings (export_names l) + stored_strings (export_forwards l) + 6 * zlen (export_names l).
(** Values that the C++ types can hold. *)
Definition valid_export (f : exported) : Prop := bytes (e_name f) /\ bytes (e_fwd f) /\ is_u16 (e_ordinal f) /\ is_u32 (e_rva f).
Definition valid_info (x : export_info) : Prop := is_u32 (xi_chars x) /\ is_u32 (xi_time x) /\ is_u16 (xi_major x) /\ is_u16 (xi_minor x) /\ bytes (xi_name x).
(** What the rebuilder demands. *)
Definition distinct_exports (l : list exported) : Prop := NoDup (export_ordinals l) /\ NoDup (export_names l).
(** Functions that the format can tell apart once they are stored in a directory at [dir, dir + size): strings without
    nulls; a forwarded function has a name; any other one has an address, and not one inside the directory, which would make
    it a forwarder. *)
Definition plain_export (dir size : Z) (f : exported) : Prop :=
  ~ In 0 (e_name f) /\ ~ In 0 (e_fwd f) /\ (e_fwd f <> [] -> e_name f <> []) /\
  (e_fwd f = [] -> e_rva f <> 0 /\ ~ (dir + 4 <= e_rva f < dir + size)).
(** Function [g] that was read back is function [f]. The address of a forwarded function is that of its forwarder string. *)
Definition same_export (base : Z) (f g : exported) : Prop :=
  e_ordinal g = e_ordinal f /\ e_name g = e_name f /\ e_fwd g = e_fwd f /\ (e_fwd f = [] -> e_rva g = e_rva f) /\
  (e_name f <> [] -> e_nord g = e_ordinal f - base).
Definition by_ordinal (f g : exported) : Prop := e_ordinal f < e_ordinal g.
(** The order of std::string, which is that of strcmp: at the first difference, the end or the lesser byte comes first. *)
Definition str_before (a b : list Z) : Prop :=
  exists c s t, a = c ++ s /\ b = c ++ t /\
    match s, t with [], _ :: _ => True | x :: _, y :: _ => x < y | _, _ => False end.
(** The information read back. *)
Definition same_info (l : list exported) (a b : export_info) : Prop :=
  xi_chars b = xi_chars a /\ xi_time b = xi_time a /\ xi_major b = xi_major a /\ xi_minor b = xi_minor a /\ xi_name b = xi_name a /\
  xi_base b = lowest l /\ xi_nfunctions b = highest l - lowest l + 1 /\ xi_nnames b = zlen (export_names l).
(** The name table that directory information [x] points to, as a loader sees it: entry [k] is the address of a string,
    and entry [k] of the name ordinals is the ordinal, less the base, of the function in [l] of that name. *)
Definition name_table (p : pe) (x : export_info) (l : list exported) (names : list (list Z)) : Prop :=
  zlen names = xi_nnames x /\
  forall k name, nth_error names k = Some name -> exists a o f,
    read_rva p (xi_names x + 4 * Z.of_nat k) 4 VirtData true = Ok a /\ export_string p (unle a) = Ok name /\
    read_rva p (xi_ordinals x + 2 * Z.of_nat k) 2 VirtData true = Ok o /\ In f l /\ e_name f = name /\ e_ordinal f = xi_base x + unle o.
