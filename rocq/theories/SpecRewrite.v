(** Vocabulary of C36 for tables that are rewritten where they are. *)
From Verif Require Export SpecImport SpecTls.

(** The address tables of library [l] are rewritten where they are. *)
Definition rewritten (o : import_settings) (l : library) : bool := stays o l && o_rewrite o.
(** ... its table of names, too. *)
Definition both_tables (o : import_settings) (l : library) : bool := o_build o && negb (l_oiat l =? 0).
(** The tables that are rewritten: address and size. *)
Definition old_places (p : pe) (o : import_settings) (l : library) : list (Z * Z) :=
  if rewritten o l then (l_iat l, library_table_size p l) :: if both_tables o l then [(l_oiat l, library_table_size p l)] else [] else [].
(** The bytes of the table, and one more, are in the file data of a section other than [i] behind the headers. *)
Definition in_other_section (p : pe) (i : nat) (t : Z * Z) : Prop :=
  exists j s, j <> i /\ nth_error (p_sections p) j = Some s /\ occupies (salign p) s (fst t) /\ zlen (p_full p) <= s_va s /\
    fst t + snd t < s_va s + zlen (raw_view s) /\ zlen (raw_view s) <= span (salign p) s < 2^31.
(** No two of the tables overlap. *)
Definition disjoint (l : list (Z * Z)) : Prop := ForallOrdPairs (fun t u => apart (fst t) (snd t) (fst u) (snd u)) l.
(** What is needed of a library to find its functions again: as in [recoverable], but nothing of tables that are rewritten, except that the functions have
    addresses if there are two tables. *)
Definition recoverable_here (p : pe) (o : import_settings) (l : library) : Prop :=
  ~ In 0 (l_name l) /\ Forall (fun f => ~ In 0 (m_name f)) (l_funcs l) /\
  if stays o l
  then both_tables o l = true -> Forall (fun f => m_iat f mod 256 ^ Z.of_nat (word_size p) <> 0) (l_funcs l)
  else if o_build o then Forall (fun f => m_iat f mod 256 ^ Z.of_nat (word_size p) <> 0) (l_funcs l)
       else Forall (fun f => m_name f <> []) (l_funcs l).
(** What is read back: the tables are where they were; the addresses of functions are as given if there are two tables. *)
Definition same_here (p : pe) (o : import_settings) (l m : library) : Prop :=
  l_name m = l_name l /\ l_time m = l_time l /\ Forall2 same_import (l_funcs l) (l_funcs m) /\
  (stays o l = true -> l_iat m = l_iat l /\ l_oiat m = if o_build o then l_oiat l else 0) /\
  ((if stays o l then both_tables o l else o_build o) = true -> map m_iat (l_funcs m) = map (fun f => m_iat f mod 256 ^ Z.of_nat (word_size p)) (l_funcs l)).
(** All sections other than [i] are as they were, except for the bytes of the tables. Section [i] keeps its header fields except the sizes, the addresses
    it covers, and its first [off] bytes. *)
Definition only_tables (p p' : pe) (i : nat) (off : Z) (tables : list (Z * Z)) : Prop :=
  length (p_sections p') = length (p_sections p) /\
  (forall j s, j <> i -> nth_error (p_sections p) j = Some s -> exists d, nth_error (p_sections p') j = Some (set_s_data d s) /\ zlen d = zlen (s_data s) /\
     forall k, 0 <= k < zlen d -> (forall t, In t tables -> s_va s + k < fst t \/ fst t + snd t <= s_va s + k) -> nth (Z.to_nat k) d 0 = nth (Z.to_nat k) (s_data s) 0) /\
  exists s t, nth_error (p_sections p) i = Some s /\ nth_error (p_sections p') i = Some t /\
    s_name t = s_name s /\ s_va t = s_va s /\ s_rawptr t = s_rawptr s /\ s_chars t = s_chars s /\ well_sized p t /\ span (salign p) s <= span (salign p) t /\
    forall k, 0 <= k < off -> byte_of t k = byte_of s k.
