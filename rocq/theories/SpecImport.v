(** Specification vocabulary for imports (C36-C38). *)
From Verif Require Export ImportModel SpecReaders SpecExport.

(** ** The tables as the file format has them *)
(** A null-terminated string at an address: some bytes [d] of the image are there from offset [off] on. *)
Definition text (p : pe) (rva : Z) (s : list Z) : Prop :=
  exists n d off, length_rva p rva rva VirtData true = Ok n /\ 2 <= n /\ zlen s < n /\
    ptr_rva p rva VirtData true = Ok (d, off) /\ slice d off (zlen s + 1) = s ++ [0] /\ ~ In 0 s.
(** The word [w] of the size of an address, 4 or 8 bytes, at an address. *)
Definition word_size (p : pe) : nat := if p_plus p then 8%nat else 4%nat.
Definition word_at (p : pe) (rva w : Z) : Prop := 0 <= w < 256 ^ Z.of_nat (word_size p) /\ shows p rva (le (word_size p) w).
(** What a thunk [w] stands for: its top bit marks an ordinal; otherwise it is the address of a hint and a name. *)
Definition import_of (p : pe) (w : Z) (f : imported) : Prop :=
  if 256 ^ Z.of_nat (word_size p) / 2 <=? w
  then m_name f = [] /\ m_hint f = 0 /\ m_ordinal f = w mod 2^16
  else w + 2 < 2^32 /\ text p (w + 2) (m_name f) /\ is_u16 (m_hint f) /\ shows p w (le 2 (m_hint f)) /\ m_ordinal f = 0.
(** The pair of tables at addresses [t] and [o]: they go in step up to the first zero in either; the first one has
    the addresses, the second one tells the functions. *)
Inductive thunk_table (p : pe) : Z -> Z -> list imported -> Prop :=
| thunks_end t o : word_at p t 0 -> thunk_table p t o []
| thunks_end2 t o a : a <> 0 -> word_at p t a -> word_at p o 0 -> thunk_table p t o []
| thunks_next t o w f l : m_iat f <> 0 -> word_at p t (m_iat f) -> w <> 0 -> word_at p o w -> import_of p w f ->
    thunk_table p (t + Z.of_nat (word_size p)) (o + Z.of_nat (word_size p)) l -> thunk_table p t o (f :: l).
(** The bytes of a descriptor. *)
Definition descriptor (oft time chain name ft : Z) : list Z := le 4 oft ++ le 4 time ++ le 4 chain ++ le 4 name ++ le 4 ft.
(** The descriptors from [pos] on, up to the first one without a name. An original IAT at address 0 is the IAT itself. *)
Inductive library_table (p : pe) : Z -> list library -> Prop :=
| libraries_end pos oft time chain ft : is_u32 oft -> is_u32 time -> is_u32 chain -> is_u32 ft ->
    shows p pos (descriptor oft time chain 0 ft) -> library_table p pos []
| libraries_next pos chain name w1 w2 l ls :
    is_u32 (l_oiat l) -> is_u32 (l_time l) -> is_u32 chain -> is_u32 name -> name <> 0 -> is_u32 (l_iat l) ->
    shows p pos (descriptor (l_oiat l) (l_time l) chain name (l_iat l)) -> text p name (l_name l) ->
    word_at p (l_iat l) w1 -> (l_oiat l = 0 \/ word_at p (l_oiat l) w2) ->
    thunk_table p (l_iat l) (if l_oiat l =? 0 then l_iat l else l_oiat l) (l_funcs l) ->
    library_table p (pos + 20) ls -> library_table p pos (l :: ls).

(** ** Rebuilding *)
Definition total {A} (f : A -> Z) (l : list A) : Z := fold_right (fun x n => f x + n) 0 l.
(** The bytes that the strings of a library take: its name, and a hint and a name for every function with a name, the
    names with their terminating nulls. *)
Definition import_text_size (f : imported) : Z := match m_name f with [] => 0 | _ => zlen (m_name f) + 3 end.
Definition library_text_size (l : library) : Z := zlen (l_name l) + 1 + total import_text_size (l_funcs l).
(** The bytes of one table of addresses with its terminating null. *)
Definition library_table_size (p : pe) (l : library) : Z := Z.of_nat (word_size p) * (zlen (l_funcs l) + 1).
(** The bytes that are reserved: the strings, the descriptors with a null one, one or two tables, and alignment. *)
Definition import_size (p : pe) (libs : list library) (o : import_settings) : Z :=
  total library_text_size libs + 20 * (zlen libs + 1) +
  (if o_build o || o_fill o then 2 else 1) * total (library_table_size p) libs + Z.of_nat (word_size p).
(** Fields in the range of their C++ types. *)
Definition valid_import (f : imported) : Prop := bytes (m_name f) /\ is_u16 (m_hint f) /\ is_u16 (m_ordinal f) /\ is_u64 (m_iat f).
Definition valid_library (l : library) : Prop :=
  bytes (l_name l) /\ is_u32 (l_time l) /\ is_u32 (l_iat l) /\ is_u32 (l_oiat l) /\ Forall valid_import (l_funcs l).
(** An address in a section other than [i]. *)
Definition elsewhere (p : pe) (i : nat) (a : Z) : Prop :=
  exists j s, j <> i /\ nth_error (p_sections p) j = Some s /\ occupies (salign p) s a.
(** Tables that are in the image already, they and the names they refer to outside section [i]. *)
Definition old_word (p : pe) (i : nat) (a w : Z) : Prop := elsewhere p i a /\ word_at p a w.
Inductive old_table (p : pe) (i : nat) : Z -> Z -> list imported -> Prop :=
| old_end t o : old_word p i t 0 -> old_table p i t o []
| old_end2 t o a : a <> 0 -> old_word p i t a -> old_word p i o 0 -> old_table p i t o []
| old_next t o w f l : m_iat f <> 0 -> old_word p i t (m_iat f) -> w <> 0 -> old_word p i o w -> import_of p w f ->
    (w < 256 ^ Z.of_nat (word_size p) / 2 -> elsewhere p i w /\ elsewhere p i (w + 2)) ->
    old_table p i (t + Z.of_nat (word_size p)) (o + Z.of_nat (word_size p)) l -> old_table p i t o (f :: l).
(** The words of an old table that are the addresses of the functions [l]; what follows them is readable. *)
Inductive old_addresses (p : pe) (i : nat) : Z -> list imported -> Prop :=
| olda_end t w : old_word p i t w -> old_addresses p i t []
| olda_next t f l : m_iat f <> 0 -> old_word p i t (m_iat f) -> old_addresses p i (t + Z.of_nat (word_size p)) l -> old_addresses p i t (f :: l).
(** The tables of library [l] stay where they are. *)
Definition stays (o : import_settings) (l : library) : bool := o_save o && negb (l_iat l =? 0).
(** What the settings need of a library to find its functions again. *)
Definition recoverable (p : pe) (i : nat) (o : import_settings) (l : library) : Prop :=
  ~ In 0 (l_name l) /\
  if stays o l then
    o_rewrite o = false /\
    if o_build o && (l_oiat l =? 0) && o_fill o
    then old_addresses p i (l_iat l) (l_funcs l) /\ Forall (fun f => ~ In 0 (m_name f)) (l_funcs l)
    else old_table p i (l_iat l) (if o_build o && negb (l_oiat l =? 0) then l_oiat l else l_iat l) (l_funcs l) /\
         (exists w, old_word p i (l_iat l) w) /\ (o_build o = true -> l_oiat l <> 0 -> exists w, old_word p i (l_oiat l) w)
  else
    Forall (fun f => ~ In 0 (m_name f)) (l_funcs l) /\
    if o_build o then Forall (fun f => m_iat f mod 256 ^ Z.of_nat (word_size p) <> 0) (l_funcs l)
    else o_fill o = false /\ Forall (fun f => m_name f <> []) (l_funcs l).
(** The same function: name and hint, or ordinal. *)
Definition same_import (f g : imported) : Prop :=
  m_name g = m_name f /\ match m_name f with [] => m_ordinal g = m_ordinal f | _ => m_hint g = m_hint f end.
Definition same_library (p : pe) (o : import_settings) (l m : library) : Prop :=
  l_name m = l_name l /\ l_time m = l_time l /\ Forall2 same_import (l_funcs l) (l_funcs m) /\
  (stays o l = true -> l_iat m = l_iat l) /\
  (stays o l = true \/ o_build o = true -> map m_iat (l_funcs m) = map (fun f => m_iat f mod 256 ^ Z.of_nat (word_size p)) (l_funcs l)).
(** The only section that differs is [i]. It keeps its header fields except the sizes, the addresses it covers, and its first [off] bytes. *)
Definition only_behind (p p' : pe) (i : nat) (off : Z) : Prop :=
  length (p_sections p') = length (p_sections p) /\
  (forall j, j <> i -> nth_error (p_sections p') j = nth_error (p_sections p) j) /\
  exists s t, nth_error (p_sections p) i = Some s /\ nth_error (p_sections p') i = Some t /\
    s_name t = s_name s /\ s_va t = s_va s /\ s_rawptr t = s_rawptr s /\ s_chars t = s_chars s /\ well_sized p t /\ span (salign p) s <= span (salign p) t /\
    forall k, 0 <= k < off -> byte_of t k = byte_of s k.
(** The directory table changed as asked: the entry of imports is [d], that of the IAT is zero if that was asked. *)
Definition import_directories (p p' : pe) (o : import_settings) (d : Z * Z) : Prop :=
  if o_headers o then
    dir_is p' dir_import d /\ (o_zero_iat o = true -> dir_is p' dir_iat (0, 0)) /\
    forall j e, j <> dir_import -> ~ (o_zero_iat o = true /\ j = dir_iat) -> (dir_is p' j e <-> dir_is p j e)
  else h_dirs (p_nt p') = h_dirs (p_nt p).
