(** Specification vocabulary for string tables, message tables and bitmaps (C51-C53). *)
From Coq Require Export Sorted.
From Verif Require Export ResDataModel SpecPe.

(** [bs] stands in [d] at offset [off]. *)
Definition stands (d : list Z) (off : Z) (bs : list Z) : Prop := exists a b, d = a ++ bs ++ b /\ zlen a = off.
(** The bytes of a wide string. *)
Definition wide (s : list Z) : list Z := concat (map (le 2) s).
Definition wide_ok (s : list Z) : Prop := Forall is_u16 s.

(** ** String tables *)
(** A counted string as stored in a table. *)
Definition counted (s : list Z) : list Z := le 2 (zlen s) ++ wide s.
Definition string_ok (s : list Z) : Prop := wide_ok s /\ zlen s < 2^16.
(** The non-empty strings of table [id], with their ids, the first one numbered [i]. *)
Fixpoint numbered (id i : Z) (ss : list (list Z)) : list (Z * list Z) :=
  match ss with
  | [] => []
  | [] :: t => numbered id (i + 1) t
  | s :: t => ((16 * (id - 1) + i) mod 2^16, s) :: numbered id (i + 1) t
  end.

(** ** Message tables *)
(** One message entry: its bytes and what it says. *)
Inductive message_entry : list Z -> message -> Prop :=
| entry_ansi flags body text : is_u16 flags -> Z.even flags = true -> bytes body -> 4 + zlen body < 2^16 -> trimmed body text ->
    message_entry (le 2 (4 + zlen body) ++ le 2 flags ++ body) (false, text)
| entry_unicode flags s text : is_u16 flags -> Z.even flags = false -> wide_ok s -> 4 + 2 * zlen s < 2^16 -> trimmed s text ->
    message_entry (le 2 (4 + 2 * zlen s) ++ le 2 flags ++ wide s) (true, text).
(** Entries for consecutive ids from [id], standing at [pos]. *)
Inductive message_entries (d : list Z) : Z -> Z -> list (Z * message) -> Prop :=
| no_entries pos id : message_entries d pos id []
| more_entries pos id bs m l : stands d pos bs -> message_entry bs m -> message_entries d (pos + zlen bs) (id + 1) l ->
    message_entries d pos id ((id, m) :: l).
(** Block number [i]: ids [lo] to [hi], each with an entry. *)
Definition message_block_at (d : list Z) (i lo hi : Z) (l : list (Z * message)) : Prop :=
  exists off, is_u32 lo /\ is_u32 off /\ lo <= hi < 2^32 - 1 /\ stands d (4 + 12 * i) (le 4 lo ++ le 4 hi ++ le 4 off) /\
    message_entries d off lo l /\ zlen l = hi - lo + 1.
(** Blocks from number [i] on: their id ranges and entries. *)
Inductive message_blocks (d : list Z) : Z -> list (Z * Z * list (Z * message)) -> Prop :=
| no_blocks i : message_blocks d i []
| more_blocks i lo hi l t : message_block_at d i lo hi l -> message_blocks d (i + 1) t -> message_blocks d i ((lo, hi, l) :: t).
(** A whole table. The 12 spare bytes are the reader's own requirement. *)
Definition message_table (d : list Z) (t : list (Z * Z * list (Z * message))) : Prop :=
  stands d 0 (le 4 (zlen t)) /\ 16 + 12 * zlen t <= zlen d /\ message_blocks d 0 t.
(** The map [m], with ascending keys, holds for each key the first value that [l] gives it. *)
Definition first_wins {A} (l m : list (Z * A)) : Prop :=
  Sorted.StronglySorted Z.lt (map fst m) /\
  forall k v, In (k, v) m <-> exists l1 l2, l = l1 ++ (k, v) :: l2 /\ ~ In k (map fst l1).

(** ** Bitmaps *)
(** The size of the colour table that the info header announces. *)
Definition colour_bytes (info : list Z) : Z :=
  let clr := unle (slice info 32 4) in let bits := unle (slice info 14 2) in
  if Z.eqb clr 0 then (if Z.leb bits 8 then 4 * 2 ^ bits else 0) else 4 * clr.
(** "BM", file size, reserved, offset of the pixels. *)
Definition bitmap_header (info : list Z) : list Z :=
  [0x42; 0x4d] ++ le 4 ((14 + zlen info) mod 2^32) ++ [0;0;0;0] ++ le 4 ((54 + colour_bytes info) mod 2^32).
