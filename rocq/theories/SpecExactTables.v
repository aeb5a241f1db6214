(** What the relocation, bound import and export directories of an image say (C73). *)
From Verif Require Export RelocModel BoundModel SpecImport.

(** ** Relocations *)
(** The items from address [pos] up to [stop]: 12 bits of offset and 4 bits of type. *)
Inductive items_at (p : pe) (stop : Z) : Z -> list reloc_entry -> Prop :=
| items_end pos : stop <= pos -> items_at p stop pos []
| items_next pos v l : pos < stop -> is_u16 v -> shows p pos (le 2 v) -> items_at p stop (pos + 2) l -> items_at p stop pos ((v mod 4096, v / 4096) :: l).
(** The blocks of a directory that ends at [stop], from the block at [pos] on, whose header is [va] and [size]: up to a block
    of size 0 or to the end of the directory. *)
Inductive blocks_at (p : pe) (stop : Z) : Z -> Z -> Z -> list reloc_table -> Prop :=
| blocks_end pos va size : size = 0 \/ stop <= pos -> blocks_at p stop pos va size []
| blocks_last pos va size l : size <> 0 -> pos < stop -> pos + size < 2^32 -> items_at p (pos + size) (pos + 8) l -> stop <= pos + size ->
    blocks_at p stop pos va size [(va, l)]
| blocks_next pos va size l va' size' t : size <> 0 -> pos + size < 2^32 -> items_at p (pos + size) (pos + 8) l -> pos + size < stop ->
    is_u32 va' -> is_u32 size' -> shows p (pos + size) (le 4 va' ++ le 4 size') -> blocks_at p stop (pos + size) va' size' t ->
    blocks_at p stop pos va size ((va, l) :: t).
(** With or without the items of type 0, which are padding. *)
Definition listed (abs : bool) (t : reloc_table) : reloc_table := (fst t, if abs then snd t else filter (fun e => negb (snd e =? 0)) (snd t)).
(** The directory of [size] bytes at [rva] has the tables [l]. *)
Definition relocations_shown (p : pe) (rva size : Z) (abs : bool) (l : list reloc_table) : Prop :=
  exists n va size0 t, length_rva p rva rva VirtData true = Ok n /\ 8 <= n /\ is_u32 va /\ is_u32 size0 /\ size0 mod 2 = 0 /\
    shows p rva (le 4 va ++ le 4 size0) /\ blocks_at p (rva + size) rva va size0 t /\ l = map (listed abs) t.

(** ** Bound imports *)
(** The directory data are [len] bytes of [d] from [off] on. A name at offset [o] of the directory. *)
Definition bound_name_at (d : list Z) (off len o : Z) (name : list Z) : Prop :=
  o + zlen name < len /\ slice d (off + o) (zlen name + 1) = name ++ [0] /\ ~ In 0 name.
(** A record of 8 bytes: the time, the offset of the name and a third field. *)
Definition bound_record (d : list Z) (off pos time o third : Z) : Prop :=
  is_u32 time /\ is_u16 o /\ is_u16 third /\ slice d (off + pos) 8 = le 4 time ++ le 2 o ++ le 2 third.
(** Forwarder references one after the other. *)
Fixpoint refs_at (d : list Z) (off len pos : Z) (l : list bound_ref) : Prop :=
  match l with
  | [] => True
  | (name, time) :: t => pos + 8 <= len /\ (exists o r, bound_record d off pos time o r /\ bound_name_at d off len o name) /\ refs_at d off len (pos + 8) t
  end.
(** The modules up to the first one whose name has offset 0; each is followed by as many references as it says. *)
Inductive modules_at (d : list Z) (off len : Z) : Z -> list bound_import -> Prop :=
| modules_end pos time n : pos + 8 <= len -> bound_record d off pos time 0 n -> modules_at d off len pos []
| modules_next pos time o name refs l : pos + 8 <= len -> o <> 0 -> bound_record d off pos time o (zlen refs) -> bound_name_at d off len o name ->
    refs_at d off len (pos + 8) refs -> pos + 8 * (zlen refs + 2) < 2^32 -> modules_at d off len (pos + 8 * (zlen refs + 1)) l ->
    modules_at d off len pos ((name, time, refs) :: l).
Definition bound_shown (p : pe) (rva size : Z) (l : list bound_import) : Prop :=
  exists d off len, length_rva p rva rva RawData true = Ok len /\ size <= len /\ ptr_rva p rva RawData true = Ok (d, off) /\ modules_at d off len 0 l.

(** ** Exports *)
(** The address tables of an export directory of [size] bytes at [dir]: the first ordinal, the addresses of the functions, and
    the addresses and ordinals of the names. *)
Section Exports.
Variables (p : pe) (dir size base nfuncs nnames funcs names ordinals : Z).
(** Entry [j] of the ordinals of the names is for another function than [k]. *)
Definition other_name (k j : Z) : Prop := exists o, o <> k /\ is_u16 o /\ shows p (ordinals + 2 * j) (le 2 o).
(** The name of the function of index [k] is that of the first entry for it. An address inside the directory is the one of
    a forwarder string; this is looked at for functions with a name only. *)
Definition name_shown (k : Z) (f : exported) : Prop :=
  (exists i a, 0 <= i < nnames /\ (forall j, 0 <= j < i -> other_name k j) /\ is_u16 k /\ shows p (ordinals + 2 * i) (le 2 k) /\
     is_u32 a /\ shows p (names + 4 * i) (le 4 a) /\ text p a (e_name f) /\ e_nord f = k /\
     (if (dir + 4 <=? e_rva f) && (e_rva f <? dir + size) then text p (e_rva f) (e_fwd f) else e_fwd f = [])) \/
  ((forall j, 0 <= j < nnames -> other_name k j) /\ e_name f = [] /\ e_nord f = 0 /\ e_fwd f = []).
(** The functions from index [k] on; an address of 0 is an unused ordinal. *)
Inductive functions_at : Z -> list exported -> Prop :=
| functions_end k : nfuncs <= k -> functions_at k []
| functions_unused k l : k < nfuncs -> shows p (funcs + 4 * k) (le 4 0) -> functions_at (k + 1) l -> functions_at k l
| functions_next k f l : k < nfuncs -> e_rva f <> 0 -> is_u32 (e_rva f) -> shows p (funcs + 4 * k) (le 4 (e_rva f)) ->
    base + k <= 0xFFFF -> e_ordinal f = base + k -> name_shown k f -> functions_at (k + 1) l -> functions_at k (f :: l).
End Exports.
(** [n] bytes at an address are in one section or in the headers. *)
Definition room_at (p : pe) (rva n : Z) : Prop := exists len, length_rva p rva rva VirtData true = Ok len /\ n <= len.
(** The directory of [size] bytes at [rva] describes the information, if wanted, and the functions. *)
Definition exports_shown (p : pe) (rva size : Z) (want : bool) (r : option export_info * list exported) : Prop :=
  exists chars time major minor name dll base nfuncs nnames funcs names ordinals,
    Forall is_u32 [chars; time; name; base; nfuncs; nnames; funcs; names; ordinals] /\ is_u16 major /\ is_u16 minor /\
    room_at p rva 40 /\
    shows p rva (le 4 chars ++ le 4 time ++ le 2 major ++ le 2 minor ++ le 4 name ++ le 4 base ++ le 4 nfuncs ++ le 4 nnames ++ le 4 funcs ++ le 4 names ++ le 4 ordinals) /\
    (if want then text p name dll /\ fst r = Some (mk_info chars time major minor dll base nfuncs nnames funcs names ordinals) else fst r = None) /\
    (if nfuncs =? 0 then snd r = []
     else nnames <= nfuncs < 2^30 - 1 /\ (ordinals = 0 <-> names = 0) /\ funcs <> 0 /\
       funcs + 4 * nfuncs < 2^32 /\ names + 4 * nnames < 2^32 /\ ordinals + 4 * nfuncs < 2^32 /\ rva + size < 2^32 /\
       room_at p funcs (4 * nfuncs) /\ (names <> 0 -> room_at p ordinals (2 * nnames) /\ room_at p names (4 * nnames)) /\
       functions_at p rva size base nfuncs nnames funcs names ordinals 0 (snd r)).
