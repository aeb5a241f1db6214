(** Specification vocabulary for reading and rebuilding data directories (C28-C48, C61). *)
From Verif Require Export DirModel SpecPe.

(** An image object whose fields are in the range of their C++ types and whose directory
    count is one that loading accepts. Nothing is said about the layout or contents. *)
Definition readable (p : pe) : Prop :=
  dirs_ok p /\ 0 <= nrva p <= 16 /\ Forall wf_section (p_sections p) /\ bytes (p_full p) /\ zlen (p_full p) < 2^32.
(** Section [i] of an image with a contiguous layout lies behind the headers, has its data inside
    its address range and can take data up to offset [endpos]: the last section by growing,
    any other one within its size in the file. *)
Definition room (p : pe) (start : Z) (i : nat) (endpos : Z) : Prop :=
  image_ok p start /\ 0 <= endpos <= 2^31 /\
  exists s, nth_error (p_sections p) i = Some s /\ 0 < s_va s /\ zlen (p_full p) <= s_va s /\
    0 < s_vsize s <= 2^31 /\ zlen (raw_view s) <= Z.min (2^31) (span (salign p) s) /\
    if Nat.eqb (S i) (length (p_sections p)) then s_va s + ceil_mult endpos (salign p) < 2^32
    else raw_view s <> [] /\ endpos <= ceil_mult (s_rawsize s) (falign p) <= Z.min (2^31) (span (salign p) s).
(** Section [i] is not the last one, and it is empty or its size in the file is less than [endpos]. *)
Definition no_room (p : pe) (i : nat) (endpos : Z) : Prop :=
  good_align p /\ (S i < length (p_sections p))%nat /\
  exists s, nth_error (p_sections p) i = Some s /\ wf_section s /\ ceil_mult (s_rawsize s) (falign p) < 2^32 /\
    (raw_view s = [] \/ ceil_mult (s_rawsize s) (falign p) < endpos).
(** Byte [k] of the stored data of a section; what is not stored is zero. *)
Definition byte_of (s : section) (k : Z) : Z := nth (Z.to_nat k) (raw_view s) 0.
(** The data of section [t] are kept as they are stored in the file. They fit in its size in the file, and that size, rounded up to the file
    alignment, in its address range. *)
Definition well_sized (p : pe) (t : section) : Prop :=
  s_old t = None /\ 0 < s_vsize t <= 2^31 /\ zlen (raw_view t) <= s_rawsize t <= 2^31 /\ ceil_mult (s_rawsize t) (falign p) <= span (salign p) t.
(** The only section that differs is [i]. It keeps its header fields except the sizes, is well sized, covers the addresses it
    covered, and keeps its bytes outside the [n] bytes from offset [pos], which are [out]. *)
Definition only_section (p p' : pe) (i : nat) (pos : Z) (out : list Z) : Prop :=
  length (p_sections p') = length (p_sections p) /\
  (forall j, j <> i -> nth_error (p_sections p') j = nth_error (p_sections p) j) /\
  exists s t, nth_error (p_sections p) i = Some s /\ nth_error (p_sections p') i = Some t /\
    s_name t = s_name s /\ s_va t = s_va s /\ s_rawptr t = s_rawptr s /\ s_chars t = s_chars s /\ well_sized p t /\ span (salign p) s <= span (salign p) t /\
    (forall k, 0 <= k -> (k < pos \/ pos + zlen out <= k) -> byte_of t k = byte_of s k) /\
    (forall k, 0 <= k < zlen out -> byte_of t (pos + k) = nth (Z.to_nat k) out 0).
(** Everything but the sections and the directory table is the same. *)
Definition same_headers (p p' : pe) : Prop :=
  set_p_sections [] (with_nt (set_h_dirs []) p') = set_p_sections [] (with_nt (set_h_dirs []) p).
(** The directory table changed at most at [id], where it is [d] now. *)
Definition only_directory (p p' : pe) (id : Z) (d : Z * Z) : Prop :=
  dir_is p' id d /\ forall j e, j <> id -> (dir_is p' j e <-> dir_is p j e).
(** The sections whose data is kept in the form it has in memory cover their address range; so it is
    when no section is, as in an image that has just been loaded. *)
Definition viewable (p : pe) : Prop :=
  Forall (fun s => aligned_vsize (salign p) s <= zlen (virt_view (salign p) s)) (p_sections p).
(** A byte string without null. *)
Definition no_null (l : list Z) : Prop := bytes l /\ ~ In 0 l.
