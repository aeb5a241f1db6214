(** Specification vocabulary for the resource manager (C42). *)
From Verif Require Export ManagerModel.

(** The entries of a directory have different names and numbers. *)
Definition unique (l : list rentry) : Prop := NoDup (map fst l).
(** The usual tree: types, names and languages, each entry unique in its directory. *)
Definition language_level (n : rnode) : Prop := exists h l, n = RDir h l /\ unique l /\ Forall (fun e => exists d c, snd e = RData d c) l.
Definition name_level (n : rnode) : Prop := exists h l, n = RDir h l /\ unique l /\ Forall (fun e => language_level (snd e)) l.
Definition three_levels (t : rnode) : Prop := exists h l, t = RDir h l /\ unique l /\ Forall (fun e => name_level (snd e)) l.

Definition rname_dec (a b : rname) : {a = b} + {a <> b}.
Proof. decide equality; [apply list_eq_dec, Z.eq_dec|apply Z.eq_dec]. Defined.
(** What is found under a type, a name and a language. *)
Definition rmap : Type := rname -> rname -> Z -> option (list Z * Z).
Definition found {A} (x : res A) : option A := match x with Ok v => Some v | _ => None end.
Definition content (t : rnode) : rmap := fun root name language => found (resource_data t language root name).
(** The operations that change a tree, and what each does to the map. *)
Inductive change : Type :=
| Add (data : list Z) (root name : rname) (language codepage timestamp : Z)
| RemoveLanguage (root name : rname) (language : Z)
| RemoveName (root name : rname)
| RemoveRoot (root : rname).
Definition apply_change (t : rnode) (o : change) : res rnode :=
  match o with
  | Add data root name language codepage timestamp => add_resource t data root name language codepage timestamp
  | RemoveLanguage root name language => ' (t', _) <- remove_language t root name language ;; Ok t'
  | RemoveName root name => ' (t', _) <- remove_name t root name ;; Ok t'
  | RemoveRoot root => ' (t', _) <- remove_root t root ;; Ok t'
  end.
Definition effect (m : rmap) (o : change) : rmap := fun r n l =>
  match o with
  | Add data root name language codepage _ => if rname_dec r root then if rname_dec n name then if Z.eq_dec l language then Some (data, codepage) else m r n l else m r n l else m r n l
  | RemoveLanguage root name language => if rname_dec r root then if rname_dec n name then if Z.eq_dec l language then None else m r n l else m r n l else m r n l
  | RemoveName root name => if rname_dec r root then if rname_dec n name then None else m r n l else m r n l
  | RemoveRoot root => if rname_dec r root then None else m r n l
  end.
(** The header of the directory reached by a path of keys. *)
Fixpoint head_at (path : list rname) (t : rnode) : option rhead :=
  match t with
  | RDir h l => match path with [] => Some h | k :: rest => match find (fun e => if rname_dec k (fst e) then true else false) l with Some e => head_at rest (snd e) | None => None end end
  | _ => None
  end.
(** Paths can be compared. *)
Definition rpath_dec : forall a b : list rname, {a = b} + {a <> b} := list_eq_dec rname_dec.
(** Every directory of [t'] is one of [t], with the same header. *)
Definition heads_within (t t' : rnode) : Prop := forall path h, head_at path t' = Some h -> head_at path t = Some h.
