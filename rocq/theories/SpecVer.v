(** Specification vocabulary for version information (C54, C55). *)
From Verif Require Export VerModel SpecResData SpecExport.

(** ** Safety *)
(** No read outside the buffer. *)
Definition in_bounds {A} (r : res A) : Prop := match r with Ub _ => False | _ => True end.
(** No 16-bit word of the data, at any offset, is one of the three that rounding up to 4 turns into zero. *)
Definition no_huge_word (d : list Z) : Prop := forall off w, stands d off (le 2 w) -> is_u16 w -> w < 0xFFFD.

(** ** What can be stored *)
(** A key: no null character. A value: no null at the end. *)
Definition key_ok (k : list Z) : Prop := wide_ok k /\ ~ In 0 k.
Definition value_ok (v : list Z) : Prop := wide_ok v /\ last v 1 <> 0.
(** A std::map: keys ascending. *)
Definition keys_ascending {A} (m : list (list Z * A)) : Prop := Sorted.StronglySorted str_before (map fst m).
Definition strings_ok (m : list (list Z * list Z)) : Prop := keys_ascending m /\ Forall (fun e => key_ok (fst e) /\ value_ok (snd e)) m.
Definition tables_ok (s : list (list Z * list (list Z * list Z))) : Prop := keys_ascending s /\ Forall (fun e => key_ok (fst e) /\ strings_ok (snd e)) s.
(** A std::multimap: keys ascending, equal keys allowed. *)
Definition translations_ok (t : list (Z * Z)) : Prop := Sorted.StronglySorted Z.le (map fst t) /\ Forall (fun e => is_u16 (fst e) /\ is_u16 (snd e)) t.
Definition info_ok (i : file_info) : Prop :=
  is_u32 (fi_version_ms i) /\ is_u32 (fi_version_ls i) /\ is_u32 (fi_product_ms i) /\ is_u32 (fi_product_ls i) /\ is_u32 (fi_flags i) /\
  is_u32 (fi_os i) /\ is_u32 (fi_type i) /\ is_u32 (fi_subtype i) /\ is_u32 (fi_date_ms i) /\ is_u32 (fi_date_ls i).
(** The size of the whole block: every key and every value is padded to 4 bytes. *)
Definition round4 (n : Z) : Z := 4 * ((n + 3) / 4).
Definition key_bytes (k : list Z) : Z := round4 (6 + 2 * (zlen k + 1)).
Definition string_bytes (e : list Z * list Z) : Z := key_bytes (fst e) + round4 (2 * (zlen (snd e) + 1)).
Fixpoint sum_of {A} (f : A -> Z) (l : list A) : Z := match l with [] => 0 | x :: t => f x + sum_of f t end.
Definition table_bytes (e : list Z * list (list Z * list Z)) : Z := key_bytes (fst e) + sum_of string_bytes (snd e).
Definition block_bytes (s : list (list Z * list (list Z * list Z))) (t : list (Z * Z)) : Z :=
  92 + match s with [] => 0 | _ => 36 + sum_of table_bytes s end + match t with [] => 0 | _ => 64 + 4 * zlen t end.
