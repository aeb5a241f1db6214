(** Model of the memory owned by resource directory entries (pe_resources.cpp). *)
From Verif Require Export OwnModel.

(** pe_resources.h:93-109: an entry: its number, its name, whether the pointer is one to data, whether it has a name, the pointer. *)
Record rent : Type := mk_rent { e_id : Z; e_name : list Z; e_incl : bool; e_named : bool; e_ptr : Z }.
(** Memory of the three kinds that entries lead to: a resource_data_entry (pe_resources.h:33-35); a resource_directory
    (pe_resources.h:167-172): the fields of its header, its two counters and the address of the storage of its vector, 0 when it
    has none; the storage of a vector of entries. *)
Inductive cell : Type := CData (cp : Z) (d : list Z) | CDir (info : list Z) (named ids : Z) (buf : Z) | CBuf (l : list rent).
(** The entry objects of the program itself are kept in the storage at this address, numbered in the order of their construction
    among those that are alive. *)
Definition vars_at : Z := -1.
(** A reference to an entry: the storage it is in and its index there. *)
Notation loc := (Z * nat)%type.
(** Assignment to an element of a list. *)
Fixpoint replace_nth {A} (l : list A) (k : nat) (x : A) : list A :=
  match l, k with [], _ => [] | _ :: t, O => x :: t | y :: t, S k' => y :: replace_nth t k' x end.
(** The entry a reference refers to; none if its memory has been freed. *)
Definition get_loc (h : heap cell) (r : loc) : option rent := match block h (fst r) with Some (CBuf l) => nth_error l (snd r) | _ => None end.
(** Assignment through a reference. *)
Definition put_loc (h : heap cell) (r : loc) (e : rent) : option (heap cell) :=
  match block h (fst r) with
  | Some (CBuf l) => match nth_error l (snd r) with Some _ => Some (set_block h (fst r) (CBuf (replace_nth l (snd r) e))) | None => None end
  | _ => None
  end.
(** The elements of a vector with the storage [b]. *)
Definition elements (h : heap cell) (b : Z) : option (list rent) :=
  if b =? 0 then Some [] else match block h b with Some (CBuf l) => Some l | _ => None end.
(** The fields of an entry apart from its pointer, and the pointer. *)
Definition with_ptr (e : rent) (a : Z) : rent := mk_rent (e_id e) (e_name e) (e_incl e) (e_named e) a.

(** The destructors of the elements of a vector, one after the other. *)
Fixpoint free_each (free : heap cell -> rent -> option (heap cell)) (h : heap cell) (l : list rent) : option (heap cell) :=
  match l with [] => Some h | e :: t => match free h e with Some h' => free_each free h' t | None => None end end.
(** pe_resources.cpp:90-103 release, for [n] levels of directories (more than that is an error): what the pointer points to must be
    live and of the kind that includes_data_ says. delete of a directory destroys its vector: the elements, then the storage. *)
Fixpoint release (n : nat) (h : heap cell) (e : rent) {struct n} : option (heap cell) :=
  if e_ptr e =? 0 then Some h
  else match n with
  | O => None
  | S n' =>
    match block h (e_ptr e), e_incl e with
    | Some (CData _ _), true => Some (unblock h (e_ptr e))
    | Some (CDir _ _ _ b), false =>
        match elements h b with
        | Some l => match free_each (release n') h l with Some h1 => Some (unblock (if b =? 0 then h1 else unblock h1 b) (e_ptr e)) | None => None end
        | None => None
        end
    | _, _ => None
    end
  end.
(** How many levels there can be: not more than there are blocks. *)
Definition levels (h : heap cell) : nat := S (length h).

(** Results of steps that allocate memory: the address is chosen by the caller ([None]: std::bad_alloc). *)
Inductive made (A : Type) : Type := MOk (h : heap cell) (news : list (option Z)) (a : A) | MNoMemory (h : heap cell) | MBug | MOutside.
Arguments MOk {A} h news a. Arguments MNoMemory {A} h. Arguments MBug {A}. Arguments MOutside {A}.
(** operator new. *)
Definition new_cell (h : heap cell) (news : list (option Z)) (c : cell) : made Z :=
  match news with
  | [] => MOutside
  | None :: _ => MNoMemory h
  | Some a :: t => if fresh h a then MOk ((a, c) :: h) t a else MOutside
  end.
(** The copy constructors of the elements of a vector; if one throws, those constructed are destroyed. *)
Fixpoint copy_each (copy : heap cell -> list (option Z) -> rent -> made rent) (h : heap cell) (news : list (option Z)) (l done : list rent) : made (list rent) :=
  match l with
  | [] => MOk h news done
  | e :: t =>
    match copy h news e with
    | MOk h' news' e' => copy_each copy h' news' t (done ++ [e'])
    | MNoMemory h' => match free_each (release (levels h')) h' done with Some h1 => MNoMemory h1 | None => MBug end
    | MBug => MBug
    | MOutside => MOutside
    end
  end.
(** pe_resources.cpp:54-66 the copy constructor of an entry, for [n] levels of directories. A directory is copied by its implicit
    constructor: the numbers, then the vector, with storage only if it has elements. The storage of the copies is filled when all have
    been constructed; nothing else refers to it before. *)
Fixpoint copy_entry (n : nat) (h : heap cell) (news : list (option Z)) (e : rent) {struct n} : made rent :=
  if e_ptr e =? 0 then MOk h news (with_ptr e 0)
  else match n with
  | O => MBug
  | S n' =>
    match block h (e_ptr e), e_incl e with
    | Some (CData cp d), true =>
        match new_cell h news (CData cp d) with MOk h' news' a => MOk h' news' (with_ptr e a) | MNoMemory h' => MNoMemory h' | MBug => MBug | MOutside => MOutside end
    | Some (CDir info nn ni b), false =>
        match elements h b with
        | None => MBug
        | Some l =>
          match new_cell h news (CDir info nn ni 0) with
          | MOk h1 news1 a =>
            match l with
            | [] => MOk h1 news1 (with_ptr e a)
            | _ :: _ =>
              match new_cell h1 news1 (CBuf []) with
              | MOk h2 news2 b' =>
                match copy_each (copy_entry n') h2 news2 l [] with
                | MOk h3 news3 l' => MOk (set_block (set_block h3 b' (CBuf l')) a (CDir info nn ni b')) news3 (with_ptr e a)
                | MNoMemory h3 => MNoMemory (unblock (unblock h3 b') a)
                | MBug => MBug
                | MOutside => MOutside
                end
              | MNoMemory h2 => MNoMemory (unblock h2 a)
              | MBug => MBug
              | MOutside => MOutside
              end
            end
          | MNoMemory h1 => MNoMemory h1
          | MBug => MBug
          | MOutside => MOutside
          end
        end
    | _, _ => MBug
    end
  end.

(** What a program sees: nothing, an exception of the library, std::bad_alloc, the fields of an entry with the data or
    the numbers of the directory and how many entries it has. *)
Inductive inside : Type := InNothing | InData (cp : Z) (d : list Z) | InDir (info : list Z) (named ids : Z) (size : Z).
(** What a program sees of one step. *)
Inductive rseen : Type := RNothing | RThrow | RNoMemory | RShown (id : Z) (name : list Z) (incl named : bool) (i : inside).
(** Finding an entry: the index of a variable, then [.get_resource_directory().get_entry_list()[j]] for every further index [j]. *)
Inductive found : Type := Found (r : loc) (e : rent) | NotDir | Absent | BadMemory.
(** pe_resources.cpp:138-144, 156-162 get_resource_directory and 257-267 get_entry_list, from the storage [b] on. *)
Fixpoint lookup (h : heap cell) (b : Z) (i : nat) (p : list nat) : found :=
  match block h b with
  | Some (CBuf l) =>
    match nth_error l i with
    | None => Absent
    | Some e =>
      match p with
      | [] => Found (b, i) e
      | j :: p' =>
        if (e_ptr e =? 0) || e_incl e then NotDir
        else match block h (e_ptr e) with
        | Some (CDir _ _ _ b') => if b' =? 0 then Absent else lookup h b' j p'
        | _ => BadMemory
        end
      end
    end
  | _ => BadMemory
  end.
(** A path to an entry. *)
Notation rpath := (nat * list nat)%type.
(** The entry that a path leads to. *)
Definition entry_at (h : heap cell) (p : rpath) : found := lookup h vars_at (fst p) (snd p).
(** A step of a program: the entries it works on are given by paths. *)
Inductive rop : Type :=
| ONew                                                     (** a new entry object *)
| OCopy (s : rpath) (news : list (option Z))               (** a new entry object, constructed as a copy of [s] *)
| ODestroy (i : nat)                                       (** the end of the object [i] *)
| OAssign (t s : rpath) (news : list (option Z))           (** t = s *)
| OSetName (t : rpath) (name : list Z)                     (** t.set_name(name) *)
| OSetId (t : rpath) (id : Z)                              (** t.set_id(id) *)
| OAddData (t : rpath) (cp : Z) (d : list Z) (news : list (option Z))       (** t.add_data_entry(resource_data_entry(d, cp)) *)
| OAddDataOf (t s : rpath) (news : list (option Z))        (** t.add_data_entry(s.get_data_entry()) *)
| OAddDir (t : rpath) (info : list Z) (news : list (option Z))              (** t.add_resource_directory() of an empty directory *)
| OAddDirOf (t s : rpath) (news : list (option Z))         (** t.add_resource_directory(s.get_resource_directory()) *)
| OPush (t s : rpath) (grow : bool) (news : list (option Z))  (** t.get_resource_directory().add_resource_directory_entry(s); [grow]: the vector is full *)
| OPop (t : rpath)                                         (** t.get_resource_directory().get_entry_list().pop_back() *)
| OGet (s : rpath).                                        (** everything the interface says about [s] itself *)

(** The end of a step: the heap, or an error. *)
Definition finish (h : option (heap cell)) (o : rseen) : outcome (heap cell) rseen := match h with Some h' => Done h' o | None => Bug end.
(** release() of the entry at [r]: its pointer is null afterwards. *)
Definition release_at (h : heap cell) (r : loc) : option (heap cell) :=
  match get_loc h r with
  | Some e => match release (levels h) h e with Some h1 => put_loc h1 r (with_ptr e 0) | None => None end
  | None => None
  end.
(** pe_resources.cpp:68-88 operator=: the entry at [t] from the one at [s], which is read after release(). *)
Definition assign (h : heap cell) (t s : loc) (news : list (option Z)) : outcome (heap cell) rseen :=
  match release_at h t with
  | None => Bug
  | Some h1 =>
    match get_loc h1 s with
    | None => Bug
    | Some o =>
      match put_loc h1 t (with_ptr o 0) with
      | None => Bug
      | Some h2 =>
        match get_loc h2 s with
        | None => Bug
        | Some o2 =>
          match copy_entry (levels h2) h2 news o2 with
          | MOk h3 _ e => finish (put_loc h3 t (with_ptr o (e_ptr e))) RNothing
          | MNoMemory h3 => Done h3 RNoMemory
          | MBug => Bug
          | MOutside => Outside
          end
        end
      end
    end
  end.
(** pe_resources.cpp:189-203 add_data_entry and add_resource_directory of the object that the pointer [p] points to, as it is after
    release(). *)
Definition add_object (h : heap cell) (t : loc) (p : Z) (incl : bool) (news : list (option Z)) : outcome (heap cell) rseen :=
  match release_at h t with
  | None => Bug
  | Some h1 =>
    match copy_entry (levels h1) h1 news (mk_rent 0 [] incl false p) with
    | MOk h2 _ e =>
        match get_loc h2 t with Some x => finish (put_loc h2 t (mk_rent (e_id x) (e_name x) incl (e_named x) (e_ptr e))) RNothing | None => Bug end
    | MNoMemory h2 => Done h2 RNoMemory
    | MBug => Bug
    | MOutside => Outside
    end
  end.
(** The same of a temporary object. *)
Definition add_new (h : heap cell) (t : loc) (c : cell) (incl : bool) (news : list (option Z)) : outcome (heap cell) rseen :=
  match release_at h t with
  | None => Bug
  | Some h1 =>
    match new_cell h1 news c with
    | MOk h2 _ a =>
        match get_loc h2 t with Some x => finish (put_loc h2 t (mk_rent (e_id x) (e_name x) incl (e_named x) a)) RNothing | None => Bug end
    | MNoMemory h2 => Done h2 RNoMemory
    | MBug => Bug
    | MOutside => Outside
    end
  end.
(** pe_resources.cpp:273-276: the counters, after push_back; the entry is looked at again. *)
Definition count_pushed (h : heap cell) (d : Z) (s : loc) : outcome (heap cell) rseen :=
  match get_loc h s, block h d with
  | Some o, Some (CDir info nn ni b) =>
      Done (set_block h d (if e_named o then CDir info (u32 (nn + 1)) ni b else CDir info nn (u32 (ni + 1)) b)) RNothing
  | _, _ => Bug
  end.
(** pe_resources.cpp:269-277 add_resource_directory_entry on the directory at [d]. A full vector gets new storage, the new element is
    constructed there, then copies of the old ones, which are then destroyed: the class has no move constructor. *)
Definition push (h : heap cell) (d : Z) (s : loc) (grow : bool) (news : list (option Z)) : outcome (heap cell) rseen :=
  match block h d, get_loc h s with
  | Some (CDir info nn ni b), Some o =>
    match elements h b with
    | None => Bug
    | Some l =>
      if grow then
        match new_cell h news (CBuf []) with
        | MOk h1 news1 b' =>
          match copy_entry (levels h1) h1 news1 o with
          | MOk h2 news2 e =>
            match copy_each (copy_entry (levels h2)) h2 news2 l [] with
            | MOk h3 _ l' =>
              match free_each (release (levels h3)) h3 l with
              | None => Bug
              | Some h4 =>
                let h5 := if b =? 0 then h4 else unblock h4 b in
                count_pushed (set_block (set_block h5 b' (CBuf (l' ++ [e]))) d (CDir info nn ni b')) d s
              end
            | MNoMemory h3 => match release (levels h3) h3 e with Some h4 => Done (unblock h4 b') RNoMemory | None => Bug end
            | MBug => Bug
            | MOutside => Outside
            end
          | MNoMemory h2 => Done (unblock h2 b') RNoMemory
          | MBug => Bug
          | MOutside => Outside
          end
        | MNoMemory h1 => Done h1 RNoMemory
        | MBug => Bug
        | MOutside => Outside
        end
      else if b =? 0 then Outside
      else match copy_entry (levels h) h news o with
      | MOk h1 _ e => count_pushed (set_block h1 b (CBuf (l ++ [e]))) d s
      | MNoMemory h1 => Done h1 RNoMemory
      | MBug => Bug
      | MOutside => Outside
      end
    end
  | _, _ => Bug
  end.
(** What is inside the entry [e]. *)
Definition look_inside (h : heap cell) (e : rent) : option inside :=
  if e_ptr e =? 0 then Some InNothing
  else match block h (e_ptr e), e_incl e with
  | Some (CData cp d), true => Some (InData cp d)
  | Some (CDir info nn ni b), false => match elements h b with Some l => Some (InDir info nn ni (zlen l)) | None => None end
  | _, _ => None
  end.
(** Work on the entry that a path leads to. *)
Definition with_entry (h : heap cell) (p : rpath) (f : loc -> rent -> outcome (heap cell) rseen) : outcome (heap cell) rseen :=
  match entry_at h p with Found r e => f r e | NotDir => Done h RThrow | Absent => Outside | BadMemory => Bug end.
(** One step. *)
Definition rstep (h : heap cell) (op : rop) : outcome (heap cell) rseen :=
  match block h vars_at with
  | Some (CBuf vars) =>
    match op with
    (** pe_resources.cpp:44-52 *)
    | ONew => Done (set_block h vars_at (CBuf (vars ++ [mk_rent 0 [] false false 0]))) RNothing
    (** pe_resources.cpp:54-66 *)
    | OCopy s news => with_entry h s (fun _ o =>
        match copy_entry (levels h) h news o with
        | MOk h1 _ e => Done (set_block h1 vars_at (CBuf (vars ++ [e]))) RNothing
        | MNoMemory h1 => Done h1 RNoMemory
        | MBug => Bug
        | MOutside => Outside
        end)
    (** pe_resources.cpp:105-109 *)
    | ODestroy i =>
        match nth_error vars i with
        | None => Outside
        | Some e => match release (levels h) h e with Some h1 => Done (set_block h1 vars_at (CBuf (firstn i vars ++ skipn (S i) vars))) RNothing | None => Bug end
        end
    | OAssign t s news => with_entry h t (fun rt _ => with_entry h s (fun rs _ => assign h rt rs news))
    (** pe_resources.cpp:173-187 *)
    | OSetName t name => with_entry h t (fun rt e => finish (put_loc h rt (mk_rent 0 name (e_incl e) true (e_ptr e))) RNothing)
    | OSetId t id => with_entry h t (fun rt e => finish (put_loc h rt (mk_rent id [] (e_incl e) false (e_ptr e))) RNothing)
    | OAddData t cp d news => with_entry h t (fun rt _ => add_new h rt (CData cp d) true news)
    (** pe_resources.cpp:147-153, 165-171 get_data_entry *)
    | OAddDataOf t s news => with_entry h t (fun rt _ => with_entry h s (fun _ o =>
        if (e_ptr o =? 0) || negb (e_incl o) then Done h RThrow else add_object h rt (e_ptr o) true news))
    | OAddDir t info news => with_entry h t (fun rt _ => add_new h rt (CDir info 0 0 0) false news)
    | OAddDirOf t s news => with_entry h t (fun rt _ => with_entry h s (fun _ o =>
        if (e_ptr o =? 0) || e_incl o then Done h RThrow else add_object h rt (e_ptr o) false news))
    | OPush t s grow news => with_entry h t (fun _ e => with_entry h s (fun rs _ =>
        if (e_ptr e =? 0) || e_incl e then Done h RThrow else push h (e_ptr e) rs grow news))
    | OPop t => with_entry h t (fun _ e =>
        if (e_ptr e =? 0) || e_incl e then Done h RThrow
        else match block h (e_ptr e) with
        | Some (CDir _ _ _ b) =>
          match elements h b with
          | None => Bug
          | Some l =>
            match rev l with
            | [] => Outside
            | last :: front => match release (levels h) h last with Some h1 => Done (set_block h1 b (CBuf (rev front))) RNothing | None => Bug end
            end
          end
        | _ => Bug
        end)
    | OGet s => with_entry h s (fun _ o =>
        match look_inside h o with Some i => Done h (RShown (e_id o) (e_name o) (e_incl o) (e_named o) i) | None => Bug end)
    end
  | _ => Bug
  end.
(** A program: its steps one after the other. *)
Fixpoint rrun (h : heap cell) (ops : list rop) : outcome (heap cell) (list rseen) :=
  match ops with
  | [] => Done h []
  | op :: ops' =>
    match rstep h op with
    | Done h1 o => match rrun h1 ops' with Done h2 os => Done h2 (o :: os) | r => r end
    | Bug => Bug
    | Outside => Outside
    end
  end.
(** The start of a program: no entry objects, no memory. *)
Definition rstart : heap cell := [(vars_at, CBuf [])].
