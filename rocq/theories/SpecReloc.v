(** Specification vocabulary for relocations (C28-C31, C61). *)
From Verif Require Export RelocModel SpecDir.

(** ** Tables *)
(** The file format keeps 12 bits of offset and 4 bits of type. *)
Definition valid_entry (e : reloc_entry) : Prop := 0 <= fst e < 4096 /\ 0 <= snd e < 16.
Definition valid_table (t : reloc_table) : Prop := is_u32 (fst t) /\ Forall valid_entry (snd t).
(** Blocks are padded to a multiple of 4 bytes with one ABSOLUTE item. *)
Definition padding (t : reloc_table) : list reloc_entry := if zlen (snd t) mod 2 =? 0 then [] else [(0, 0)].
(** Bytes of one block in the file. *)
Definition block_size (t : reloc_table) : Z := 8 + 2 * zlen (snd t ++ padding t).
Definition blocks_size (l : list reloc_table) : Z := fold_right (fun t n => block_size t + n) 0 l.
Definition block_bytes (t : reloc_table) : list Z :=
  le 4 (fst t) ++ le 4 (block_size t) ++ concat (map (fun e => le 2 (fst e + 4096 * snd e)) (snd t ++ padding t)).
(** The items a reader of the tables is interested in. *)
Definition without_absolute (t : reloc_table) : reloc_table :=
  (fst t, filter (fun e => negb (snd e =? image_rel_based_absolute)) (snd t)).
Definition with_padding (t : reloc_table) : reloc_table := (fst t, snd t ++ padding t).

(** ** Rebasing *)
(** Addresses of the words that the tables name. *)
Definition targets (l : list reloc_table) : list Z :=
  flat_map (fun t => map (fun e => fst t + fst e) (filter (fun e => negb (snd e =? image_rel_based_absolute)) (snd t))) l.
(** Bytes of a machine word and their number of values. *)
Definition word (p : pe) : Z := if p_plus p then 8 else 4.
(** The image stores [bs] at address [rva], in the headers or in the data of a section. *)
Definition stored_at (p : pe) (rva : Z) (bs : list Z) : Prop :=
  (0 <= rva /\ rva + zlen bs < zlen (p_full p) /\ slice (p_full p) rva (zlen bs) = bs) \/
  (zlen (p_full p) <= rva /\ exists i s, nth_error (p_sections p) i = Some s /\ occupies (salign p) s rva /\
     rva - s_va s + zlen bs <= zlen (raw_view s) /\ slice (raw_view s) (rva - s_va s) (zlen bs) = bs).
(** The ranges of [n] bytes at [a] and [m] bytes at [b] have no byte in common. *)
Definition apart (a n b m : Z) : Prop := a + n <= b \/ b + m <= a.
(** All words that are to be changed exist, and no two of them overlap. *)
Definition rebasable (p : pe) (l : list Z) : Prop :=
  (forall r, In r l -> exists v, 0 <= v < 2 ^ (8 * word p) /\ stored_at p r (le (Z.to_nat (word p)) v)) /\
  ForallOrdPairs (fun a b => apart a (word p) b (word p)) l.
(** Everything but the sections, the directory table and the two relocation flags is the same. *)
Definition same_but_relocs (p p' : pe) : Prop :=
  let forget q := set_p_sections [] (with_nt (fun h => set_h_chars 0 (set_h_dllchars 0 (set_h_dirs [] h))) q) in
  forget p' = forget p.
(** Everything but the image base and the stored bytes is the same. *)
Definition same_but_bytes (p p' : pe) : Prop :=
  let forget q := set_p_full [] (set_p_sections [] (with_nt (set_h_imagebase 0) q)) in
  let header s := set_s_data [] (set_s_old None s) in
  forget p' = forget p /\ map header (p_sections p') = map header (p_sections p) /\
  map (fun s => zlen (raw_view s)) (p_sections p') = map (fun s => zlen (raw_view s)) (p_sections p) /\ zlen (p_full p') = zlen (p_full p).
