(** Specification vocabulary for properties of one section (C03-C05). *)
From Verif Require Export SectionModel.

(** Two sections with the same header, except possibly the name / the characteristics. *)
Definition same_but_name (s t : section) : Prop :=
  s_vsize s = s_vsize t /\ s_va s = s_va t /\ s_rawsize s = s_rawsize t /\ s_rawptr s = s_rawptr t /\
  s_relptr s = s_relptr t /\ s_lineptr s = s_lineptr t /\ s_nrel s = s_nrel t /\
  s_nline s = s_nline t /\ s_chars s = s_chars t /\ s_data s = s_data t /\ s_old s = s_old t.
Definition same_but_chars (s t : section) : Prop :=
  s_name s = s_name t /\
  s_vsize s = s_vsize t /\ s_va s = s_va t /\ s_rawsize s = s_rawsize t /\ s_rawptr s = s_rawptr t /\
  s_relptr s = s_relptr t /\ s_lineptr s = s_lineptr t /\ s_nrel s = s_nrel t /\
  s_nline s = s_nline t /\ s_data s = s_data t /\ s_old s = s_old t.
Definition same_header (s t : section) : Prop :=
  s_name s = s_name t /\
  s_vsize s = s_vsize t /\ s_va s = s_va t /\ s_rawsize s = s_rawsize t /\ s_rawptr s = s_rawptr t /\
  s_relptr s = s_relptr t /\ s_lineptr s = s_lineptr t /\ s_nrel s = s_nrel t /\
  s_nline s = s_nline t /\ s_chars s = s_chars t.

(** What a client can do with the data of one section. Offsets of writes are into
    the string the accessor returned. *)
Inductive view_op :=
| GetRaw                                    (* get_raw_data() *)
| GetVirt (sa : Z)                          (* get_virtual_data(sa) *)
| SetRaw (d : list Z)                       (* set_raw_data(d) *)
| WriteRaw (off : Z) (bs : list Z)          (* get_raw_data().replace(off, n, bs) *)
| WriteVirt (sa off : Z) (bs : list Z).     (* get_virtual_data(sa).replace(off, n, bs) *)

(** The model of the code run on one operation; out-of-range writes are undefined. *)
Definition view_step (s : section) (o : view_op) : res section :=
  match o with
  | GetRaw => Ok (unmap_virtual s)
  | GetVirt sa => Ok (map_virtual sa s)
  | SetRaw d => Ok (set_raw_data d s)
  | WriteRaw off bs =>
    let s' := unmap_virtual s in
    d <- wr (s_data s') off bs ;; Ok (set_s_data d s')
  | WriteVirt sa off bs =>
    let s' := map_virtual sa s in
    d <- wr (s_data s') off bs ;; Ok (set_s_data d s')
  end.

(** The abstract contents of a section is just its raw bytes [r]; a write at [off]
    replaces those bytes of [bs] that fall inside [r] and nothing else. *)
Definition overwrite (r : list Z) (off : Z) (bs : list Z) : list Z :=
  ztake (zlen r) (ztake off r ++ bs ++ zdrop (off + zlen bs) r).
Definition spec_view_step (r : list Z) (o : view_op) : list Z :=
  match o with
  | GetRaw | GetVirt _ => r
  | SetRaw d => d
  | WriteRaw off bs | WriteVirt _ off bs => overwrite r off bs
  end.

(** [r] is [n] cut at its first NUL byte. *)
Definition cut_at_nul (n r : list Z) : Prop :=
  ~ In 0 r /\ (n = r \/ exists t, n = r ++ 0 :: t).
