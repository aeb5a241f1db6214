(** Specification vocabulary for bound imports (C45, C46). *)
From Verif Require Export BoundModel SpecDir.

(** A module reference that the format can hold: a name without null and a 32-bit timestamp. *)
Definition valid_ref (r : bound_ref) : Prop := no_null (fst r) /\ is_u32 (snd r).
Definition valid_bound (m : bound_import) : Prop :=
  no_null (fst (fst m)) /\ is_u32 (snd (fst m)) /\ Forall valid_ref (snd m).
(** The names in the order in which they are stored: every module, then its references. *)
Definition bound_names (imports : list bound_import) : list (list Z) :=
  concat (map (fun m => fst (fst m) :: map fst (snd m)) imports).
(** The size of the structures, without the null one behind them. *)
Definition bound_structs (imports : list bound_import) : Z := 8 * zlen (bound_names imports).
(** The size of the names, each with its terminating null. *)
Definition bound_strings (imports : list bound_import) : Z :=
  fold_right (fun name n => zlen name + 1 + n) 0 (bound_names imports).
(** The whole directory. *)
Definition bound_size (imports : list bound_import) : Z := bound_structs imports + 8 + bound_strings imports.
