(** Specification vocabulary for icons and cursors (C57-C59, C66). *)
From Verif Require Export IconModel SpecManager SpecResData.

(** ** Numbers *)
(** The numbers from 1 to 65535 that are not taken, ascending. *)
Definition free_numbers (ids : list Z) : list Z := filter (fun x => negb (existsb (Z.eqb x) ids)) (map (Z.add 1) (zrange 65535)).
(** The largest of the numbers taken; 0 if there is none. *)
Definition largest (ids : list Z) (top : Z) : Prop := (ids = [] /\ top = 0) \/ (In top ids /\ Forall (fun x => x <= top) ids).
(** Numbers that can be given to new images. *)
Definition fresh_numbers (ids : list Z) (count : Z) (l : list Z) : Prop :=
  zlen l = count /\ NoDup l /\ Forall (fun x => 1 <= x <= 65535 /\ ~ In x ids) l.
(** The numbers of the images in a tree. *)
Definition in_use (t : rnode) (k : kind) : list Z := match list_ids t (image_type k) with Ok ids => ids | _ => [] end.
(** There are numbers for [count] more images: behind the largest one, or anywhere. *)
Definition room (t : rnode) (k : kind) (at_end : bool) (count : Z) : Prop :=
  ((exists e, list_ids t (image_type k) = Throw e) /\ count <= 65534) \/
  exists ids, list_ids t (image_type k) = Ok ids /\ Forall is_u16 ids /\
    if at_end then exists top, largest ids top /\ top + count <= 65535 else count <= zlen (free_numbers ids).

(** ** Pictures *)
(** An icon or a cursor in a file: Width, Height, ColorCount, Reserved, then Planes and BitCount of an icon or the coordinates of the
    hotspot of a cursor; and the image. *)
Record picture := mk_picture { attrs : list Z; pixels : list Z }.
Definition attr_widths : list nat := [1; 1; 1; 1; 2; 2]%nat.
Definition good_picture (e : picture) : Prop := fits attr_widths (attrs e) /\ 0 < zlen (pixels e) < 2^32.
(** What the resources can express: for a cursor no height of 128 or more, no count of colours and nothing in the reserved byte. *)
Definition kept (k : kind) (e : picture) : Prop :=
  match k with Icon => True | Cursor => nth 1 (attrs e) 0 < 128 /\ nth 2 (attrs e) 0 = 0 /\ nth 3 (attrs e) 0 = 0 /\ zlen (pixels e) + 4 < 2^32 end.
(** An icon or cursor file: a head of three words (the type is 1 for icons, 2 for cursors), an entry of 16 bytes for each picture
    with size and offset of the image, and the images anywhere behind the entries. *)
Definition image_file (f : list Z) (reserved type : Z) (es : list picture) : Prop :=
  is_u16 reserved /\ is_u16 type /\ 0 < zlen es < 2^16 /\ stands f 0 (le 2 reserved ++ le 2 type ++ le 2 (zlen es)) /\
  forall i e, nth_error es i = Some e -> good_picture e /\
    exists off, 6 + 16 * zlen es <= off /\ off + zlen (pixels e) < 2^32 /\
      stands f (6 + 16 * Z.of_nat i) (enc_fields attr_widths (attrs e) ++ le 4 (zlen (pixels e)) ++ le 4 off) /\ stands f off (pixels e).
(** The file without gaps. *)
Fixpoint packed_entries (off : Z) (es : list picture) : list Z :=
  match es with [] => [] | e :: r => enc_fields attr_widths (attrs e) ++ le 4 (zlen (pixels e)) ++ le 4 off ++ packed_entries (off + zlen (pixels e)) r end.
Definition packed_file (reserved type : Z) (es : list picture) : list Z :=
  le 2 reserved ++ le 2 type ++ le 2 (zlen es) ++ packed_entries (6 + 16 * zlen es) es ++ concat (map pixels es).

(** ** Groups *)
(** The entry of a picture in the group resource. *)
Definition group_record (k : kind) (e : picture) (number : Z) : list Z :=
  match k with
  | Icon => enc_fields attr_widths (attrs e) ++ le 4 (zlen (pixels e)) ++ le 2 number
  | Cursor => le 2 (nth 0 (attrs e) 0) ++ le 2 (2 * nth 1 (attrs e) 0) ++ le 2 0 ++ le 2 0 ++ le 4 (zlen (pixels e) + 4) ++ le 2 number
  end.
(** The image resource: that of a cursor starts with the hotspot. *)
Definition image_data (k : kind) (e : picture) : list Z :=
  match k with Icon => pixels e | Cursor => le 2 (nth 4 (attrs e) 0) ++ le 2 (nth 5 (attrs e) 0) ++ pixels e end.
(** Under a name and a language there is a group of pictures with their numbers; bytes behind the last entry are allowed. *)
Definition holds_group (t : rnode) (k : kind) (name : rname) (language codepage reserved type : Z) (items : list (picture * Z)) : Prop :=
  is_u16 reserved /\ is_u16 type /\ zlen items < 2^16 /\
  (exists rest, content t (group_type k) name language =
     Some (le 2 reserved ++ le 2 type ++ le 2 (zlen items) ++ concat (map (fun p => group_record k (fst p) (snd p)) items) ++ rest, codepage)) /\
  Forall (fun p => good_picture (fst p) /\ kept k (fst p) /\ is_u16 (snd p) /\
     exists c, content t (image_type k) (Ided (snd p)) language = Some (image_data k (fst p), c)) items.
(** Nothing else changes: only the group and images with these numbers, all of one language. *)
Definition only_group (t t' : rnode) (k : kind) (name : rname) (language : Z) (numbers : list Z) : Prop :=
  forall r n l, ~ (l = language /\ ((r = group_type k /\ n = name) \/ (r = image_type k /\ exists x, In x numbers /\ n = Ided x))) -> content t' r n l = content t r n l.

(** ** Any content *)
(** The data in a tree are bytes. *)
Definition tree_bytes (t : rnode) : Prop := forall root name language d c, resource_data t language root name = Ok (d, c) -> bytes d.
(** The number of pictures a file announces. *)
Definition announced (f : list Z) : Z := unle (slice f 4 2).
