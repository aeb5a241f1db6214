(** Specification vocabulary for the debug directory reader (C60, C68). *)
From Verif Require Export DebugModel SpecReaders SpecResData.

(** ** COFF symbols *)
(** A symbol record: 8 bytes of name, value, section number (16 bits), type, storage class, number of
    auxiliary records. *)
Definition symbol_bytes (name : list Z) (value sec ty class aux : Z) : list Z :=
  name ++ le 4 value ++ le 2 sec ++ le 2 ty ++ [class; aux].
Definition symbol_at (d : list Z) (off : Z) (name : list Z) (value sec ty class aux : Z) : Prop :=
  zlen name = 8 /\ is_u32 value /\ is_u16 sec /\ is_u16 ty /\ is_u8 class /\ is_u8 aux /\ stands d off (symbol_bytes name value sec ty class aux).
(** A static symbol of section 1 without auxiliary records, or an external function in a section. *)
Definition listed (sec ty class aux : Z) : Prop :=
  class = 3 /\ aux = 0 /\ sec = 1 \/ class = 2 /\ (ty / 16) mod 4 = 2 /\ 0 < sec < 2^15.
(** The text of a name: in the 8 bytes, or at an offset from the end [tab] of the symbol records. *)
Inductive symbol_text (d : list Z) (tab : Z) : list Z -> list Z -> Prop :=
| named_short text rest : slice (text ++ rest) 0 4 <> [0; 0; 0; 0] -> zlen (text ++ rest) = 8 -> ~ In 0 text ->
    (rest = [] \/ exists r, rest = 0 :: r) -> symbol_text d tab (text ++ rest) text
| named_long off text : is_u32 off -> ~ In 0 text -> tab + off < 2^32 -> stands d (tab + off) (text ++ [0]) ->
    symbol_text d tab ([0; 0; 0; 0] ++ le 4 off) text.
(** The symbols reported from record [i] on, of [n] records of 18 bytes from offset [lva]. File names are
    taken from [18 * (i + 1)] (not from [lva + 18 * (i + 1)]); the auxiliary records of a symbol that is
    not reported are looked at as if they were symbols. *)
Inductive coff_list (d : list Z) (n lva : Z) : Z -> list coff_symbol -> Prop :=
| coff_end i : n <= i -> coff_list d n lva i []
| coff_file i name value sec ty aux text l : i < n -> symbol_at d (lva + 18 * i) name value sec ty 0x67 aux ->
    i + aux <= n -> lva + 18 * (i + 1 + aux) <= zlen d -> trimmed (slice d (18 * (i + 1)) (18 * aux)) text ->
    coff_list d n lva (i + 1 + aux) l ->
    coff_list d n lva i (mk_sym 0x67 i 0 0 text true ty :: l)
| coff_named i name value sec ty class aux text l : i < n -> symbol_at d (lva + 18 * i) name value sec ty class aux ->
    i + aux <= n -> lva + 18 * (i + 1 + aux) <= zlen d -> listed sec ty class aux -> symbol_text d (lva + 18 * n) name text ->
    coff_list d n lva (i + 1 + aux) l ->
    coff_list d n lva i (mk_sym class i sec value text false ty :: l)
| coff_skip i name value sec ty class aux l : i < n -> symbol_at d (lva + 18 * i) name value sec ty class aux ->
    i + aux <= n -> lva + 18 * (i + 1 + aux) <= zlen d -> class <> 0x67 -> ~ listed sec ty class aux ->
    coff_list d n lva (i + 1) l -> coff_list d n lva i l.

(** ** What raw debug data of a type say *)
Inductive describes : Z -> list Z -> advanced -> Prop :=
(** PDB 7.0: "RSDS", GUID, age, name. *)
| d_pdb7 guid age name rest : zlen guid = 16 -> is_u32 age -> ~ In 0 name ->
    describes 2 ([0x52; 0x53; 0x44; 0x53] ++ guid ++ le 4 age ++ name ++ 0 :: rest) (AdvPdb7 guid age name)
(** PDB 2.0: "NB10", offset, signature, age, name. *)
| d_pdb2 off sig age name rest : zlen off = 4 -> is_u32 sig -> is_u32 age -> ~ In 0 name ->
    describes 2 ([0x4E; 0x42; 0x31; 0x30] ++ off ++ le 4 sig ++ le 4 age ++ name ++ 0 :: rest) (AdvPdb2 sig age name)
(** Other CodeView data: nothing but the type of the entry. *)
| d_codeview d : 8 <= zlen d -> slice d 0 4 <> [0x52; 0x53; 0x44; 0x53] -> slice d 0 4 <> [0x4E; 0x42; 0x31; 0x30] -> describes 2 d AdvNone
(** Misc: type, length of the record, a flag, 3 bytes, text with trailing nulls. *)
| d_misc_ansi ty res body text rest : is_u32 ty -> zlen res = 3 -> 12 + zlen body < 2^32 -> 0 < zlen (body ++ rest) -> trimmed body text ->
    describes 4 (le 4 ty ++ le 4 (12 + zlen body) ++ 0 :: res ++ body ++ rest) (AdvMisc ty false text)
| d_misc_unicode ty flag res s text odd rest : is_u32 ty -> is_u8 flag -> flag <> 0 -> zlen res = 3 -> wide_ok s -> (zlen odd = 0 \/ zlen odd = 1) ->
    12 + zlen (wide s ++ odd) < 2^32 -> 0 < zlen (wide s ++ odd ++ rest) -> trimmed s text ->
    describes 4 (le 4 ty ++ le 4 (12 + zlen (wide s ++ odd)) ++ flag :: res ++ wide s ++ odd ++ rest) (AdvMisc ty true text)
(** COFF: a header of eight 32-bit numbers, the first two are the number of symbols and their offset. *)
| d_coff d n lva h l : zlen h = 6 -> Forall is_u32 (n :: lva :: h) -> stands d 0 (concat (map (le 4) (n :: lva :: h))) ->
    n < (2^32 - 1) / 18 -> n * 18 + lva < 2^32 -> n * 18 + lva <= zlen d -> coff_list d n lva 0 l ->
    describes 1 d (AdvCoff (n :: lva :: h) l)
| d_other ty d : ty <> 1 -> ty <> 2 -> ty <> 4 -> describes ty d AdvNone.

(** ** The directory *)
Definition entry_ok (e : debug_info) : Prop :=
  is_u32 (d_chars e) /\ is_u32 (d_time e) /\ is_u16 (d_major e) /\ is_u16 (d_minor e) /\ is_u32 (d_type e) /\ is_u32 (d_size e) /\
  is_u32 (d_addr e) /\ is_u32 (d_ptr e).
Definition entry_bytes (e : debug_info) : list Z :=
  le 4 (d_chars e) ++ le 4 (d_time e) ++ le 2 (d_major e) ++ le 2 (d_minor e) ++ le 4 (d_type e) ++ le 4 (d_size e) ++
  le 4 (d_addr e) ++ le 4 (d_ptr e).
(** The raw data kept for the file offset [ptr] when the image was loaded. *)
Definition raw_data (p : pe) (ptr : Z) (d : list Z) : Prop :=
  exists a b, p_debug p = a ++ (ptr, d) :: b /\ ~ In ptr (map fst a).
(** The entries from address [pos] on: up to the first with file offset 0, or up to address [last]. The
    bytes of one more entry must be there in either case. *)
Inductive debug_table (p : pe) (last : Z) : Z -> list debug_info -> Prop :=
| debug_end pos e : entry_ok e -> shows p pos (entry_bytes e) -> d_ptr e = 0 \/ last <= pos -> debug_table p last pos []
| debug_entry pos e l : entry_ok e -> shows p pos (entry_bytes e) -> d_ptr e <> 0 -> pos < last ->
    (forall d, raw_data p (d_ptr e) d -> describes (d_type e) d (d_adv e)) ->
    ((forall d, ~ raw_data p (d_ptr e) d) -> d_adv e = AdvNone) ->
    pos + 28 < 2^32 -> debug_table p last (pos + 28) l -> debug_table p last pos (e :: l).
(** The raw data are bytes. *)
Definition raw_ok (p : pe) : Prop := Forall (fun e => bytes (snd e)) (p_debug p).
(** Where raw data kept by the loader come from: the bytes of the file at the offset, or zeros. *)
Definition raw_from (file : list Z) (zero : bool) (e : Z * list Z) : Prop :=
  stands file (fst e) (snd e) \/ zero = true /\ snd e = zeros (zlen (snd e)).
