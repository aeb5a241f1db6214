(** Specification vocabulary for resource directory entries as values (C71): what programs over plain trees do. *)
From Verif Require Export OwnTreeModel.
(** The value of an entry: its number, its name, whether it says that it includes data, whether it has a name, and its contents. *)
Inductive rvalue : Type := RV (id : Z) (name : list Z) (incl named : bool) (c : rcontent)
with rcontent : Type := NoContent | DataOf (cp : Z) (d : list Z) | DirOf (info : list Z) (named ids : Z) (l : list rvalue).
Definition content_of (v : rvalue) : rcontent := match v with RV _ _ _ _ c => c end.
Definition is_named_value (v : rvalue) : bool := match v with RV _ _ _ n _ => n end.
(** The value at a path: there is one, a value on the way is no directory, or there is no such index. *)
Inductive vfound : Type := VFound (v : rvalue) | VNotDir | VAbsent.
Fixpoint value_at (vs : list rvalue) (i : nat) (p : list nat) : vfound :=
  match nth_error vs i with
  | None => VAbsent
  | Some v => match p with [] => VFound v | j :: p' => match content_of v with DirOf _ _ _ l => value_at l j p' | _ => VNotDir end end
  end.
(** The value at a path is replaced. *)
Fixpoint value_put (vs : list rvalue) (i : nat) (p : list nat) (x : rvalue) : list rvalue :=
  match nth_error vs i with
  | None => vs
  | Some (RV id name incl named c) =>
      replace_nth vs i match p with [] => x | j :: p' => match c with DirOf info nn ni l => RV id name incl named (DirOf info nn ni (value_put l j p' x)) | _ => RV id name incl named c end end
  end.
Definition shown (v : rvalue) : rseen :=
  match v with RV id name incl named c => RShown id name incl named match c with NoContent => InNothing | DataOf cp d => InData cp d | DirOf info nn ni l => InDir info nn ni (zlen l) end end.
(** A step on values, if there is enough memory or not ([full]). A step whose paths lead to no entry is none of a program; if one
    leads through an entry that is no directory, the library throws. *)
Definition on_value (vs : list rvalue) (p : rpath) (f : rvalue -> option (list rvalue * rseen)) : option (list rvalue * rseen) :=
  match value_at vs (fst p) (snd p) with VFound v => f v | VNotDir => Some (vs, RThrow) | VAbsent => None end.
Definition put (vs : list rvalue) (p : rpath) (x : rvalue) : list rvalue := value_put vs (fst p) (snd p) x.
(** What is put into [t]; without memory it has no contents afterwards. *)
Definition fill (vs : list rvalue) (p : rpath) (v : rvalue) (incl : bool) (c : rcontent) (full : bool) : option (list rvalue * rseen) :=
  match v with RV id name i named _ => if full then Some (put vs p (RV id name i named NoContent), RNoMemory) else Some (put vs p (RV id name incl named c), RNothing) end.
Definition rvstep (vs : list rvalue) (op : rop) (full : bool) : option (list rvalue * rseen) :=
  match op with
  | ONew => Some (vs ++ [RV 0 [] false false NoContent], RNothing)
  | OCopy s _ => on_value vs s (fun v => if full then Some (vs, RNoMemory) else Some (vs ++ [v], RNothing))
  | ODestroy i => match nth_error vs i with Some _ => Some (firstn i vs ++ skipn (S i) vs, RNothing) | None => None end
  | OAssign t s _ => on_value vs t (fun _ => on_value vs s (fun v =>
      match v with RV id name incl named _ => if full then Some (put vs t (RV id name incl named NoContent), RNoMemory) else Some (put vs t v, RNothing) end))
  | OSetName t name => on_value vs t (fun v => match v with RV _ _ incl _ c => Some (put vs t (RV 0 name incl true c), RNothing) end)
  | OSetId t id => on_value vs t (fun v => match v with RV _ _ incl _ c => Some (put vs t (RV id [] incl false c), RNothing) end)
  | OAddData t cp d _ => on_value vs t (fun v => fill vs t v true (DataOf cp d) full)
  | OAddDataOf t s _ => on_value vs t (fun v => on_value vs s (fun w => match content_of w with DataOf cp d => fill vs t v true (DataOf cp d) full | _ => Some (vs, RThrow) end))
  | OAddDir t info _ => on_value vs t (fun v => fill vs t v false (DirOf info 0 0 []) full)
  | OAddDirOf t s _ => on_value vs t (fun v => on_value vs s (fun w => match content_of w with DirOf info nn ni l => fill vs t v false (DirOf info nn ni l) full | _ => Some (vs, RThrow) end))
  | OPush t s _ _ => on_value vs t (fun v => on_value vs s (fun w =>
      match v with
      | RV id name incl named (DirOf info nn ni l) =>
          if full then Some (vs, RNoMemory)
          else Some (put vs t (RV id name incl named (if is_named_value w then DirOf info ((nn + 1) mod 2^32) ni (l ++ [w]) else DirOf info nn ((ni + 1) mod 2^32) (l ++ [w]))), RNothing)
      | _ => Some (vs, RThrow)
      end))
  | OPop t => on_value vs t (fun v =>
      match v with
      | RV id name incl named (DirOf info nn ni l) => match l with [] => None | _ => Some (put vs t (RV id name incl named (DirOf info nn ni (removelast l))), RNothing) end
      | _ => Some (vs, RThrow)
      end)
  | OGet s => on_value vs s (fun v => Some (vs, shown v))
  end.
(** Some run over values: every step has enough memory or not. *)
Inductive rvrun : list rvalue -> list rop -> list rvalue -> list rseen -> Prop :=
| rv_nil vs : rvrun vs [] vs []
| rv_step vs op ops full vs1 o vs2 os : rvstep vs op full = Some (vs1, o) -> rvrun vs1 ops vs2 os -> rvrun vs (op :: ops) vs2 (o :: os).
(** [below s t]: the entry [s] is inside the one at [t], at any depth, and is not [t] itself. *)
Definition below (s t : rpath) : Prop := exists i q, fst s = fst t /\ snd s = snd t ++ i :: q.
(** Neither is the other one or inside it. *)
Definition apart (s t : rpath) : Prop := s <> t /\ ~ below s t /\ ~ below t s.
(** Programs that do not take what they copy from inside what they replace. *)
Definition rplain (op : rop) : Prop :=
  match op with
  | OAssign t s _ | OAddDataOf t s _ | OAddDirOf t s _ => apart s t
  | OPush t s grow _ => grow = true -> ~ below s t
  | _ => True
  end.
(** The memory in use for an entry: one block for data; one for a directory, and one for the storage of its entries if it has some. *)
Fixpoint blocks_of (v : rvalue) : Z := match v with RV _ _ _ _ c => match c with NoContent => 0 | DataOf _ _ => 1 | DirOf _ _ _ l => 2 + fold_right (fun x n => blocks_of x + n) 0 l end end.
Definition total_blocks (vs : list rvalue) : Z := fold_right (fun v n => blocks_of v + n) 0 vs.
