(** What the resource directory of an image says (C73). *)
From Verif Require Export SpecRes SpecExactTables SpecExact SpecResData.

Section Resources.
(** The image and the address of its resources; all offsets are from there. *)
Variables (p : pe) (rva : Z).
(** A wide string at address [a]. The library compares the number of its units with the number of bytes that follow in the section; what it returns is inside the data
    of the section. *)
Definition wide_at (a : Z) (s : list Z) : Prop :=
  wide_ok s /\ zlen s < 2^16 /\ shows p a (le 2 (zlen s)) /\
  exists n d off, length_rva p (a + 2) (a + 2) VirtData true = Ok n /\ zlen s <= n /\ ptr_rva p (a + 2) VirtData true = Ok (d, off) /\ slice d off (2 * zlen s) = wide s.
(** The first word of an entry: the offset of a name, or a number of which 16 bits are used. *)
Definition rname_at (w : Z) (n : rname) : Prop :=
  (2^31 <= w /\ exists s, n = Named s /\ rva + (w - 2^31) + 2 < 2^32 /\ wide_at (rva + (w - 2^31)) s) \/ (w < 2^31 /\ n = Ided (w mod 2^16)).
(** Data with the description at offset [w]. *)
Definition rdata_at (w : Z) (n : rnode) : Prop :=
  exists a data codepage reserved, n = RData data codepage /\ is_u32 a /\ is_u32 codepage /\ is_u32 reserved /\ zlen data < 2^32 /\
    shows p ((rva + w) mod 2^32) (le 4 a ++ le 4 (zlen data) ++ le 4 codepage ++ le 4 reserved) /\ bytes_shown p a data.
(** The directory at offset [off] is [n], and [vs] are the offsets of all directories in it, in the order of reading. The numbers of entries of both kinds that it
    reports are those of the entries found. *)
Inductive rdir_at : Z -> list Z -> rnode -> Prop :=
| rdir off chars time major minor named ids l vs :
    is_u32 chars -> is_u32 time -> is_u16 major -> is_u16 minor -> is_u16 named -> is_u16 ids ->
    shows p (rva + off) (le 4 chars ++ le 4 time ++ le 2 major ++ le 2 minor ++ le 2 named ++ le 2 ids) ->
    zlen l = named + ids -> rva + off + 16 + 8 * (named + ids) < 2^32 -> rentries_at (rva + off + 16) l vs ->
    rdir_at off (off :: vs) (RDir (mk_rhead chars time major minor (count_named l) (count_ids l)) l)
with rentries_at : Z -> list rentry -> list Z -> Prop :=
| rentries_end pos : rentries_at pos [] []
| rentries_data pos w1 w2 n c l vs : is_u32 w1 -> w2 < 2^31 -> 0 <= w2 -> shows p pos (le 4 w1 ++ le 4 w2) -> rname_at w1 n -> rdata_at w2 c -> rentries_at (pos + 8) l vs ->
    rentries_at pos ((n, c) :: l) vs
| rentries_dir pos w1 w2 n c v l vs : is_u32 w1 -> 2^31 <= w2 < 2^32 -> shows p pos (le 4 w1 ++ le 4 w2) -> rname_at w1 n -> rdir_at (w2 - 2^31) v c -> rentries_at (pos + 8) l vs ->
    rentries_at pos ((n, c) :: l) (v ++ vs).
(** The resources are a tree: no directory is met twice. *)
Definition resources_shown (t : rnode) : Prop := exists vs, rdir_at 0 vs t /\ NoDup vs.
End Resources.
