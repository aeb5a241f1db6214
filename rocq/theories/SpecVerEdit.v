(** Specification vocabulary for the version information viewer and editor (C56) and file_version_info (C65). *)
From Verif Require Export VerEditModel SpecVer.
From Coq Require Export Permutation.

(** There is a table for a translation. *)
Definition has_table (s : list (list Z * list (list Z * list Z))) (k : list Z) : Prop := exists m, In (k, m) s.
(** The maps are maps. *)
Definition maps_ok (s : list (list Z * list (list Z * list Z))) : Prop := keys_ascending s /\ Forall (fun e => keys_ascending (snd e)) s.
(** The table a translation argument means: the one named; if none is named, "041904b0" if it is there or there is nothing, else the first. *)
Definition meant (s : list (list Z * list (list Z * list Z))) (translation k : list Z) : Prop :=
  (translation <> [] /\ k = translation) \/
  (translation = [] /\ k = default_translation /\ (has_table s k \/ s = [])) \/
  (translation = [] /\ ~ has_table s default_translation /\ exists m rest, s = (k, m) :: rest).
(** A character of a hexadecimal number and its value. *)
Definition hex_char (c d : Z) : Prop := (0 <= d <= 9 /\ c = 48 + d) \/ (10 <= d <= 15 /\ (c = 97 + (d - 10) \/ c = 65 + (d - 10))).
(** The number a string of such characters writes. *)
Inductive writes : list Z -> Z -> Prop :=
| writes_nil : writes [] 0
| writes_snoc s n c d : writes s n -> hex_char c d -> writes (s ++ [c]) (16 * n + d).
(** Eight characters of 0-9, a-f. *)
Definition lower_hex8 (s : list Z) : Prop := length s = 8%nat /\ Forall (fun c => 48 <= c <= 57 \/ 97 <= c <= 102) s.

(** ** Histories *)
Inductive edit : Type :=
| SetProperty (name value translation : list Z)
| AddTranslation (language codepage : Z)
| RemoveTranslation (language codepage : Z).
Definition apply_edit (st : list (list Z * list (list Z * list Z)) * list (Z * Z)) (e : edit) : list (list Z * list (list Z * list Z)) * list (Z * Z) :=
  match e with
  | SetProperty p v tr => set_property st p v tr
  | AddTranslation l c => (fst st, add_translation (snd st) l c)
  | RemoveTranslation l c => remove_translation st l c
  end.
(** What the edits do, for two abstract maps: the value of a property of a named translation, and the pairs listed. *)
Definition str_dec (a b : list Z) : {a = b} + {a <> b} := list_eq_dec Z.eq_dec a b.
Definition pair_dec (a b : Z * Z) : {a = b} + {a <> b}. Proof. decide equality; apply Z.eq_dec. Defined.
Definition edit_values (f : list Z -> list Z -> option (list Z)) (e : edit) : list Z -> list Z -> option (list Z) := fun translation name =>
  match e with
  | SetProperty p v tr => if str_dec translation tr then if str_dec name p then Some v else f translation name else f translation name
  | AddTranslation _ _ => f translation name
  | RemoveTranslation l c => if str_dec translation (translation_string l c) then None else f translation name
  end.
Definition edit_named (e : edit) : Prop := match e with SetProperty _ _ tr => tr <> [] | _ => True end.
Definition edit_u16 (e : edit) : Prop := match e with SetProperty _ _ _ => True | AddTranslation l c | RemoveTranslation l c => is_u16 l /\ is_u16 c end.
(** What can be stored in a resource (SpecVer). *)
Definition edit_storable (e : edit) : Prop := match e with SetProperty p v tr => key_ok p /\ value_ok v /\ key_ok tr | AddTranslation l c | RemoveTranslation l c => is_u16 l /\ is_u16 c end.

(** ** Numerals *)
(** A decimal numeral: digits, none leading but in "0". *)
Inductive numeral : list Z -> Z -> Prop :=
| numeral_digit d : 0 <= d <= 9 -> numeral [48 + d] d
| numeral_more s n d : numeral s n -> 0 < n -> 0 <= d <= 9 -> numeral (s ++ [48 + d]) (10 * n + d).

(** ** Equality of names *)
Definition property_dec (a b : property) : {a = b} + {a <> b}. Proof. decide equality. Defined.
Definition flag_dec (a b : file_flag) : {a = b} + {a <> b}. Proof. decide equality. Defined.
(** The value of a property, if it has one. *)
Definition value_of (s : list (list Z * list (list Z * list Z))) (tr p : list Z) : option (list Z) := match get_property s p tr true with Ok v => Some v | _ => None end.
