(** Specification vocabulary for objects as values (C69, C72): what programs over plain values do. *)
From Verif Require Export OwnModel.
(** The value of a debug_info object: the numbers of the entry, and details with their type. *)
Notation dvalue := (list Z * advanced)%type.
Definition value_of {A} (vs : list (Z * A)) (x : Z) : option A := option_map snd (find (fun b => fst b =? x) vs).
Definition update {A} (vs : list (Z * A)) (x : Z) (v : A) : list (Z * A) := map (fun b => if fst b =? x then (x, v) else b) vs.
Definition removed {A} (vs : list (Z * A)) (x : Z) : list (Z * A) := filter (fun b => negb (fst b =? x)) vs.
(** Details that need memory. *)
Definition detailed (a : advanced) : bool := match a with AdvNone | AdvTyped _ => false | _ => true end.
(** A step on values. An object whose details cannot be stored for want of memory has none afterwards. *)
Definition vstep (vs : list (Z * dvalue)) (op : dop) : list (Z * dvalue) * seen :=
  match op with
  | DNew x f => ((x, (f, AdvNone)) :: vs, SNothing)
  | DCopy x y new =>
      match value_of vs y with
      | Some (f, a) => match detailed a, new with true, None => (vs, SNoMemory) | _, _ => ((x, (f, a)) :: vs, SNothing) end
      | None => (vs, SNothing)
      end
  | DAssign x y new =>
      match value_of vs x, value_of vs y with
      | Some (fx, _), Some (f, a) => match detailed a, new with true, None => (update vs x (fx, AdvNone), SNoMemory) | _, _ => (update vs x (f, a), SNothing) end
      | _, _ => (vs, SNothing)
      end
  | DSet x a new =>
      match value_of vs x, new with
      | Some (f, _), Some _ => (update vs x (f, a), SNothing)
      | Some (f, _), None => (update vs x (f, AdvNone), SNoMemory)
      | None, _ => (vs, SNothing)
      end
  | DSetType x t =>
      match value_of vs x with
      | Some (f, _) => (update vs x (f, if 5 <=? t then AdvTyped t else AdvNone), SNothing)
      | None => (vs, SNothing)
      end
  | DType x => (vs, match value_of vs x with Some (_, a) => SType (advanced_type a) | None => SNothing end)
  | DGet x t => (vs, match value_of vs x with Some (_, a) => if advanced_type a =? t then SDetails a else SThrow | None => SNothing end)
  | DDestroy x => (removed vs x, SNothing)
  end.
Fixpoint vrun (ops : list dop) (vs : list (Z * dvalue)) : list (Z * dvalue) * list seen :=
  match ops with
  | [] => (vs, [])
  | op :: ops' => let '(vs1, o) := vstep vs op in let '(vs2, os) := vrun ops' vs1 in (vs2, o :: os)
  end.
(** No object is assigned to itself, and no type without a structure is set. *)
Definition plain (op : dop) : Prop := match op with DAssign x y _ => x <> y | DSetType _ t => t < 5 | _ => True end.
(** The object holds the value. *)
Definition holds_value (h : heap advanced) (o : dobj) (v : dvalue) : Prop :=
  o_fields o = fst v /\ o_type o = advanced_type (snd v) /\ (detailed (snd v) = true -> block h (o_ptr o) = Some (snd v)).
(** How many objects have details in memory. *)
Definition owners (objs : list (Z * dobj)) : Z := zlen (filter (fun b => structured (o_type (snd b))) objs).

(** Images. *)
Definition ivstep {V P} (vs : list (Z * (V * P))) (op : iop V P) : list (Z * (V * P)) * option (V * P) :=
  match op with
  | INew x v p _ => ((x, (v, p)) :: vs, None)
  | IFail _ _ => (vs, None)
  | ICopy x y _ => (match value_of vs y with Some v => (x, v) :: vs | None => vs end, None)
  | IAssign x y _ => (match value_of vs y with Some v => update vs x v | None => vs end, None)
  | ISet x v p => (update vs x (v, p), None)
  | IGet x => (vs, value_of vs x)
  | IDestroy x => (removed vs x, None)
  end.
Fixpoint ivrun {V P} (ops : list (iop V P)) (vs : list (Z * (V * P))) : list (Z * (V * P)) * list (option (V * P)) :=
  match ops with
  | [] => (vs, [])
  | op :: ops' => let '(vs1, o) := ivstep vs op in let '(vs2, os) := ivrun ops' vs1 in (vs2, o :: os)
  end.
Definition other {V P} (op : iop V P) : Prop := match op with IAssign x y _ => x <> y | _ => True end.
Definition failures {V P} (ops : list (iop V P)) : Z := zlen (filter (fun op => match op with IFail _ _ => true | _ => false end) ops).
