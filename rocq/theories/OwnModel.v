(** Model of the memory owned by debug_info objects (pe_debug.cpp) and images (pe_base.cpp). *)
From Verif Require Export DebugModel.

(** ** Memory *)
(** Live heap blocks: address and contents. Address 0 is the null pointer. *)
Notation heap A := (list (Z * A)).
(** What a pointer points to. *)
Definition block {A} (h : heap A) (a : Z) : option A := option_map snd (find (fun b => fst b =? a) h).
(** delete. *)
Definition unblock {A} (h : heap A) (a : Z) : heap A := filter (fun b => negb (fst b =? a)) h.
(** What a step can do: return, with a new state and something the program sees; make an error in the use of
    memory; or the step is none of a program at all (an object that does not exist, an address that is in use). *)
Inductive outcome (S O : Type) : Type := Done (s : S) (o : O) | Bug | Outside.
Arguments Done {S O} s o. Arguments Bug {S O}. Arguments Outside {S O}.

(** ** debug_info *)
(** pe_debug.h:272-300: an object: the eight numbers of the entry, the pointer, the type of what it points to. *)
Record dobj : Type := mk_dobj { o_fields : list Z; o_ptr : Z; o_type : Z }.
(** The objects of the program by name, and the heap. *)
Notation dstate := (list (Z * dobj) * heap advanced)%type.
(** An assignment through a pointer, or to an object. *)
Definition set_block {A} (l : list (Z * A)) (a : Z) (x : A) : list (Z * A) := map (fun b => if fst b =? a then (a, x) else b) l.
(** Types with a structure (pe_debug.h:202-213). *)
Definition structured (t : Z) : bool := (1 <=? t) && (t <=? 4).
(** pe_debug.h:52-190: the values of the four classes. *)
Definition has_structure (a : advanced) : bool := match a with AdvNone | AdvTyped _ => false | _ => true end.
(** What a program sees: nothing, details, an exception of the library, std::bad_alloc. *)
Inductive seen : Type := SNothing | SDetails (a : advanced) | SType (t : Z) | SThrow | SNoMemory.
(** delete of a pointer to a structure of type [t]: nothing for the null pointer; the block must be live and of that type. *)
Definition delete (h : heap advanced) (ptr t : Z) : option (heap advanced) :=
  if ptr =? 0 then Some h
  else match block h ptr with Some a => if advanced_type a =? t then Some (unblock h ptr) else None | None => None end.
(** *ptr, as a structure of type [t]. *)
Definition deref (h : heap advanced) (ptr t : Z) : option advanced :=
  if ptr =? 0 then None
  else match block h ptr with Some a => if advanced_type a =? t then Some a else None | None => None end.
(** new: the address is chosen by the caller of the step ([None]: no memory left). It must not be in use. *)
Definition fresh {A} (h : heap A) (a : Z) : bool := negb (a =? 0) && match block h a with None => true | Some _ => false end.
(** pe_debug.cpp:194-216 free_present_advanced_info. *)
Definition free_present (h : heap advanced) (o : dobj) : option (heap advanced * dobj) :=
  match (if structured (o_type o) then delete h (o_ptr o) (o_type o) else Some h) with
  | Some h' => Some (h', mk_dobj (o_fields o) 0 0)
  | None => None
  end.
(** pe_debug.cpp:168-191 copy_advanced_info into the object [x] from the object [y] (both may be the same). *)
Definition copy_advanced (s : dstate) (x y : Z) (new : option Z) : outcome dstate seen :=
  match block (fst s) x with
  | None => Outside
  | Some o =>
    match free_present (snd s) o with
    | None => Bug
    | Some (h, o1) =>
      let objs := set_block (fst s) x o1 in
      match block objs y with
      | None => Outside
      | Some src =>
        if structured (o_type src) then
          match new with
          | None => Done (objs, h) SNoMemory
          | Some a =>
            if fresh h a then
              match deref h (o_ptr src) (o_type src) with
              | None => Bug
              | Some v => Done (set_block objs x (mk_dobj (o_fields o1) a (o_type src)), (a, v) :: h) SNothing
              end
            else Outside
          end
        else Done (set_block objs x (mk_dobj (o_fields o1) (o_ptr o1) (o_type src)), h) SNothing
      end
    end
  end.
(** One step of a program. *)
Inductive dop : Type :=
| DNew (x : Z) (fields : list Z)                  (** construct [x] from a directory entry, or by default *)
| DCopy (x y : Z) (new : option Z)                (** construct [x] as a copy of [y] *)
| DAssign (x y : Z) (new : option Z)              (** x = y *)
| DSet (x : Z) (a : advanced) (new : option Z)    (** x.set_advanced_debug_info(a) *)
| DSetType (x t : Z)                              (** x.set_advanced_info_type(t) *)
| DType (x : Z)                                   (** x.get_advanced_info_type() *)
| DGet (x t : Z)                                  (** x.get_advanced_debug_info<...>() for the type [t] *)
| DDestroy (x : Z).
(** One operation. *)
Definition dstep (s : dstate) (op : dop) : outcome dstate seen :=
  let '(objs, h) := s in
  match op with
  (** pe_debug.cpp:10-32 *)
  | DNew x fields => match block objs x with Some _ => Outside | None => Done ((x, mk_dobj fields 0 0) :: objs, h) SNothing end
  (** pe_debug.cpp:125-136 the copy constructor: the pointer is null and the type that of [y] when copy_advanced_info
      is called; if it throws there is no object. *)
  | DCopy x y new =>
      match block objs x, block objs y with
      | None, Some o =>
        match copy_advanced ((x, mk_dobj (o_fields o) 0 (o_type o)) :: objs, h) x y new with
        | Done (objs', h') SNoMemory => Done (filter (fun b => negb (fst b =? x)) objs', h') SNoMemory
        | r => r
        end
      | _, _ => Outside
      end
  (** pe_debug.cpp:139-153 operator= *)
  | DAssign x y new =>
      match copy_advanced (objs, h) x y new with
      | Done (objs', h') SNothing =>
        match block objs' x, block objs' y with
        | Some ox, Some oy => Done (set_block objs' x (mk_dobj (o_fields oy) (o_ptr ox) (o_type oy)), h') SNothing
        | _, _ => Outside
        end
      | r => r
      end
  (** pe_debug.cpp:225-251 set_advanced_debug_info *)
  | DSet x a new =>
      match block objs x with
      | None => Outside
      | Some o =>
        if has_structure a then
          match free_present h o with
          | None => Bug
          | Some (h1, o1) =>
            match new with
            | None => Done (set_block objs x o1, h1) SNoMemory
            | Some p => if fresh h1 p then Done (set_block objs x (mk_dobj (o_fields o1) p (advanced_type a)), (p, a) :: h1) SNothing else Outside
            end
          end
        else Outside
      end
  (** pe_debug.cpp:298-303 set_advanced_info_type *)
  | DSetType x t =>
      match block objs x with
      | None => Outside
      | Some o =>
        match free_present h o with
        | None => Bug
        | Some (h1, o1) => Done (set_block objs x (if 5 <=? o_type o1 then mk_dobj (o_fields o1) (o_ptr o1) t else o1), h1) SNothing
        end
      end
  (** pe_debug.cpp:254-257 get_advanced_info_type *)
  | DType x => match block objs x with None => Outside | Some o => Done s (SType (o_type o)) end
  (** pe_debug.cpp:261-295 get_advanced_debug_info; get and set of the four structures *)
  | DGet x t =>
      match block objs x with
      | None => Outside
      | Some o =>
        if structured t then
          if negb (o_type o =? t) then Done s SThrow
          else match deref h (o_ptr o) t with Some a => Done s (SDetails a) | None => Bug end
        else Outside
      end
  (** pe_debug.cpp:219-222 the destructor *)
  | DDestroy x =>
      match block objs x with
      | None => Outside
      | Some o =>
        match free_present h o with
        | None => Bug
        | Some (h1, _) => Done (filter (fun b => negb (fst b =? x)) objs, h1) SNothing
        end
      end
  end.
(** A program: steps one after another, with all the program saw. *)
Fixpoint drun (ops : list dop) (s : dstate) : outcome dstate (list seen) :=
  match ops with
  | [] => Done s []
  | op :: ops' =>
    match dstep s op with
    | Done s' o => match drun ops' s' with Done s2 os => Done s2 (o :: os) | Bug => Bug | Outside => Outside end
    | Bug => Bug
    | Outside => Outside
    end
  end.

(** ** Images *)
(** pe_base.h: an image: its values, and the pointer to its properties object (pe_properties), which holds headers. *)
Record iobj (V : Type) : Type := mk_iobj { i_value : V; i_props : Z }.
Arguments mk_iobj {V}. Arguments i_value {V}. Arguments i_props {V}.
Section Images.
Context {V P : Type}.
Notation istate := (list (Z * iobj V) * heap P)%type.
(** What a program can do with images. *)
Inductive iop : Type :=
| INew (x : Z) (v : V) (p : P) (new : Z)   (** construct [x] with properties [p] *)
| IFail (p : P) (new : Z)                  (** the constructor from a stream throws *)
| ICopy (x y new : Z)                      (** construct [x] as a copy of [y] *)
| IAssign (x y new : Z)                    (** x = y *)
| ISet (x : Z) (v : V) (p : P)             (** change the image and its headers *)
| IGet (x : Z)                             (** look at both *)
| IDestroy (x : Z).
(** One operation. *)
Definition istep (s : istate) (op : iop) : outcome istate (option (V * P)) :=
  let '(objs, h) := s in
  match op with
  (** pe_base.cpp:17-46, 48-75: the constructors. The reading itself is modelled in LoadModel.v. *)
  | INew x v p new =>
      match block objs x with Some _ => Outside | None =>
        if fresh h new then Done ((x, mk_iobj v new) :: objs, (new, p) :: h) None else Outside end
  (** pe_base.cpp:17-42: an exception leaves the constructor after props_ was allocated; the destructor of an object
      that was not constructed does not run. *)
  | IFail p new => if fresh h new then Done (objs, (new, p) :: h) None else Outside
  (** pe_base.cpp:77-87 the copy constructor *)
  | ICopy x y new =>
      match block objs x, block objs y with
      | None, Some o => match block h (i_props o) with
                        | None => Bug
                        | Some p => if fresh h new then Done ((x, mk_iobj (i_value o) new) :: objs, (new, p) :: h) None else Outside
                        end
      | _, _ => Outside
      end
  (** pe_base.cpp:89-102 operator=: the properties of [x] are deleted and its pointer set to null before those of [y] are used. *)
  | IAssign x y new =>
      match block objs x, block objs y with
      | Some ox, Some oy =>
        let ox1 := mk_iobj (i_value oy) (i_props ox) in
        match (if i_props ox =? 0 then Some h else match block h (i_props ox) with None => None | Some _ => Some (unblock h (i_props ox)) end) with
        | None => Bug
        | Some h1 =>
          let objs1 := set_block objs x (mk_iobj (i_value ox1) 0) in
          match block objs1 y with
          | None => Outside
          | Some oy1 =>
            match block h1 (i_props oy1) with
            | None => Bug
            | Some p => if fresh h1 new then Done (set_block objs1 x (mk_iobj (i_value ox1) new), (new, p) :: h1) None else Outside
            end
          end
        end
      | _, _ => Outside
      end
  (** every function that changes an image: members and the properties object *)
  | ISet x v p =>
      match block objs x with
      | None => Outside
      | Some o => match block h (i_props o) with
                  | None => Bug
                  | Some _ => Done (set_block objs x (mk_iobj v (i_props o)), set_block h (i_props o) p) None
                  end
      end
  | IGet x =>
      match block objs x with
      | None => Outside
      | Some o => match block h (i_props o) with None => Bug | Some p => Done s (Some (i_value o, p)) end
      end
  (** pe_base.cpp:104-107 the destructor *)
  | IDestroy x =>
      match block objs x with
      | None => Outside
      | Some o =>
        if i_props o =? 0 then Done (filter (fun b => negb (fst b =? x)) objs, h) None
        else match block h (i_props o) with
             | None => Bug
             | Some _ => Done (filter (fun b => negb (fst b =? x)) objs, unblock h (i_props o)) None
             end
      end
  end.
(** A program: its operations one after the other. *)
Fixpoint irun (ops : list iop) (s : istate) : outcome istate (list (option (V * P))) :=
  match ops with
  | [] => Done s []
  | op :: ops' =>
    match istep s op with
    | Done s' o => match irun ops' s' with Done s2 os => Done s2 (o :: os) | Bug => Bug | Outside => Outside end
    | Bug => Bug
    | Outside => Outside
    end
  end.
End Images.
Arguments iop : clear implicits.
