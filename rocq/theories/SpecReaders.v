(** Specification vocabulary for the exception directory and rich data readers (C48, C49). *)
From Verif Require Export ReadersModel SpecDir.

(** No section reaches the end of the 32-bit address space. *)
Definition addressable (p : pe) : Prop :=
  Forall (fun s => s_va s + zlen (virt_view (salign p) s) < 2^32) (p_sections p).
(** What the image shows at an address, as read by section_data_from_rva. *)
Definition shows (p : pe) (rva : Z) (bs : list Z) : Prop := read_rva p rva (zlen bs) VirtData true = Ok bs.
(** The table of runtime functions at [pos]: entries up to the first one whose begin address is 0. *)
Inductive function_table (p : pe) : Z -> list exception_entry -> Prop :=
| table_end pos e u : is_u32 e -> is_u32 u -> shows p pos (le 4 0 ++ le 4 e ++ le 4 u) -> function_table p pos []
| table_entry pos b e u version flags prolog codes freg foff rest l :
    is_u32 b -> b <> 0 -> b <= e -> is_u32 e -> is_u32 u -> 0 <= version < 8 -> 0 <= flags < 32 -> is_u8 prolog -> is_u8 codes ->
    0 <= freg < 16 -> 0 <= foff < 16 -> zlen rest = 2 ->
    shows p pos (le 4 b ++ le 4 e ++ le 4 u) ->
    shows p u ([version + 8 * flags; prolog; codes; freg + 16 * foff] ++ rest) ->
    function_table p (pos + 12) l ->
    function_table p pos (mk_exc b e u version flags prolog codes freg foff :: l).

(** ** Rich data *)
(** The first dword of value [v] in [d], at any byte offset, is at [pos]. *)
Definition first_dword (d : list Z) (v pos : Z) : Prop :=
  slice d pos 4 = le 4 v /\ forall j, 0 <= j < pos -> slice d j 4 <> le 4 v.
Definition valid_record (r : rich_record) : Prop := is_u16 (fst (fst r)) /\ is_u16 (snd (fst r)) /\ is_u32 (snd r).
Definition record_bytes (key : Z) (r : rich_record) : list Z :=
  le 4 (Z.lxor (fst (fst r) * 65536 + snd (fst r)) key) ++ le 4 (Z.lxor (snd r) key).
(** "DanS" and three zeros, the records, all XORed with the key, then "Rich" and the key. *)
Definition rich_header (key : Z) (l : list rich_record) : list Z :=
  le 4 (Z.lxor 0x536E6144 key) ++ le 4 key ++ le 4 key ++ le 4 key ++ concat (map (record_bytes key) l) ++ le 4 0x68636952 ++ le 4 key.
