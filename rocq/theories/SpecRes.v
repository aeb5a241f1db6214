(** Specification vocabulary for resources (C39-C41, C61). *)
From Verif Require Export ResModel SpecExport SpecReaders SpecImport.

(** ** Directories in an image *)
(** An entry of the directory at offset [off] from the resources at address [rva]: its two words. The directory has 16
    bytes; the last four are the numbers of its named and its other entries, and the entries of 8 bytes follow. *)
Definition rentry_at (p : pe) (rva off w1 w2 : Z) : Prop :=
  exists e x i, read_rva p (rva + off) 16 VirtData true = Ok e /\ 0 <= i < unle (slice e 12 2) + unle (slice e 14 2) /\
    read_rva p (rva + off + 16 + 8 * i) 8 VirtData true = Ok x /\ w1 = unle (slice x 0 4) /\ w2 = unle (slice x 4 4).
(** The offsets of the directories that can be reached from the root. *)
Inductive reached (p : pe) (rva : Z) : Z -> Prop :=
| reached_root : reached p rva 0
| reached_sub off w1 w2 : reached p rva off -> rentry_at p rva off w1 w2 -> 2^31 <= w2 -> reached p rva (w2 - 2^31).
(** The name of every entry is inside the data of the image, unless its length is even larger than the number of bytes that
    follow it there. *)
Definition names_inside (p : pe) (rva : Z) : Prop :=
  forall off w1 w2 bs len, reached p rva off -> rentry_at p rva off w1 w2 -> 2^31 <= w1 ->
    let a := (rva + (w1 - 2^31)) mod 2^32 in let b := (a + 2) mod 2^32 in
    read_rva p a 2 VirtData true = Ok bs -> length_rva p b b VirtData true = Ok len ->
    unle bs <= len -> 2 * unle bs <= len.

(** ** Trees *)
(** Fields in the range of their C++ types; every entry holds data or a directory. *)
Definition valid_rname (n : rname) : Prop := match n with Named s => Forall is_u16 s | Ided id => is_u32 id end.
Fixpoint valid_tree (n : rnode) : Prop :=
  match n with
  | RNone => False
  | RData d c => bytes d /\ is_u32 c
  | RDir h l => is_u32 (r_chars h) /\ is_u32 (r_time h) /\ is_u16 (r_major h) /\ is_u16 (r_minor h) /\
      fold_right (fun e P => (valid_rname (fst e) /\ valid_tree (snd e)) /\ P) True l
  end.
(** The order of entries: names first, then numbers, each group ascending. *)
Definition rname_before (a b : rname) : Prop :=
  match a, b with
  | Named s, Named t => str_before s t
  | Named _, Ided _ => True
  | Ided m, Ided n => m < n
  | Ided _, Named _ => False
  end.
Definition ordered (l : list rentry) : Prop := StronglySorted (fun e f => rname_before (fst e) (fst f)) l.
(** Every directory has its entries in order. *)
Fixpoint ordered_tree (n : rnode) : Prop :=
  match n with RDir _ l => ordered l /\ fold_right (fun e P => ordered_tree (snd e) /\ P) True l | _ => True end.
(** The length of every piece of data is a multiple of four. *)
Fixpoint even_tree (n : rnode) : Prop :=
  match n with
  | RNone => True
  | RData d _ => (4 | zlen d)
  | RDir _ l => fold_right (fun e P => even_tree (snd e) /\ P) True l
  end.
(** What the file format can express: numbers of 16 bits, names of less than 2^16 units, less than 2^16 entries of a kind.
    The entries of a directory have different names and numbers, and no data is empty. *)
Definition storable_rname (n : rname) : Prop := match n with Named s => zlen s < 2^16 | Ided id => id < 2^16 end.
Fixpoint storable_tree (n : rnode) : Prop :=
  match n with
  | RNone => False
  | RData d _ => d <> []
  | RDir _ l => count_named l < 2^16 /\ count_ids l < 2^16 /\ NoDup (map fst l) /\
      fold_right (fun e P => (storable_rname (fst e) /\ storable_tree (snd e)) /\ P) True l
  end.
(** The same tree with the entries of every directory in order; the counters are the numbers of entries. *)
Inductive canonical : rnode -> rnode -> Prop :=
| canonical_data d c : canonical (RData d c) (RData d c)
| canonical_dir h l m l' :
    Permutation l m -> Forall2 (fun e e' => fst e = fst e' /\ canonical (snd e) (snd e')) m l' -> ordered l' ->
    canonical (RDir h l) (RDir (mk_rhead (r_chars h) (r_time h) (r_major h) (r_minor h) (count_named l) (count_ids l)) l').

(** ** Space *)
(** The bytes of directories and entries; of names, each with its length and a terminating null. *)
Fixpoint table_size (n : rnode) : Z :=
  match n with RDir _ l => 16 + total (fun e => 8 + table_size (snd e)) l | _ => 0 end.
Definition rname_size (n : rname) : Z := match n with Named s => 2 * zlen s + 4 | Ided _ => 0 end.
Fixpoint text_size (n : rnode) : Z :=
  match n with RDir _ l => total (fun e => rname_size (fst e) + text_size (snd e)) l | _ => 0 end.
(** The end of the data that begins at [pos]: each piece is aligned and has 16 bytes before it. *)
Fixpoint data_end (n : rnode) (pos : Z) : Z :=
  match n with
  | RNone => pos
  | RData d _ => ceil_mult pos 4 + 16 + zlen d
  | RDir _ l => fold_left (fun q e => data_end (snd e) q) l pos
  end.
(** The end of the resources that are stored at offset [off]; what alignment skips is reserved once more. *)
Definition resource_end (off : Z) (t : rnode) : Z :=
  let base := ceil_mult off 4 in data_end t (base + (base - off) + table_size t + text_size t).
(** A tree that can be stored at all: its root is a directory with entries. *)
Definition full_root (t : rnode) : Prop := match t with RDir _ (_ :: _) => True | _ => False end.
