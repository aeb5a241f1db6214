(** Model of pe_resource_viewer.cpp and pe_resource_manager.cpp: reading and changing a tree of resources by key. The overloads
    that take a type (a number) or a name are one function of [rname]. *)
From Verif Require Export ResModel.

(** ** Finding entries *)
(** pe_resources.cpp:651-692: id_entry_finder, name_entry_finder and entry_finder. *)
Definition rname_eqb (a b : rname) : bool :=
  match a, b with Named s, Named t => str_eqb s t | Ided m, Ided n => m =? n | _, _ => false end.
(** pe_resources.cpp:651-692: operator() of the finders. *)
Definition finds (k : rname) (e : rentry) : bool := rname_eqb k (fst e).
(** pe_resources.cpp:138-153 get_resource_directory and get_data_entry. *)
Definition dir_of (n : rnode) : res (rhead * list rentry) :=
  match n with RDir h l => Ok (h, l) | _ => Throw resource_directory_entry_error end.
(** pe_resources.cpp:147-153 get_data_entry. *)
Definition leaf_of (n : rnode) : res (list Z * Z) :=
  match n with RData d c => Ok (d, c) | _ => Throw resource_directory_entry_error end.
(** pe_resources.cpp:694-712 entry_by_id and entry_by_name. *)
Definition entry_by (k : rname) (l : list rentry) : res rnode :=
  match find (finds k) l with Some e => Ok (snd e) | None => Throw resource_directory_entry_not_found end.
(** root_dir_.entry_by_...(k).get_resource_directory(). *)
Definition dir_by (k : rname) (l : list rentry) : res (rhead * list rentry) := c <- entry_by k l ;; dir_of c.

(** ** pe_resource_viewer.cpp *)
(** pe_resource_viewer.cpp:33-46 list_resource_types, 77-89 get_id_list. *)
Definition id_list (l : list rentry) : list Z := flat_map (fun e => match fst e with Ided id => [id] | Named _ => [] end) l.
(** pe_resource_viewer.cpp:62-74 get_name_list. *)
Definition name_list (l : list rentry) : list (list Z) := flat_map (fun e => match fst e with Named s => [s] | Ided _ => [] end) l.
(** pe_resource_viewer.cpp:33-46 list_resource_types. *)
Definition list_types (t : rnode) : res (list Z) := ' (_, l) <- dir_of t ;; Ok (id_list l).
(** pe_resource_viewer.cpp:48-60 resource_exists. *)
Definition resource_exists (t : rnode) (root : rname) : res bool := ' (_, l) <- dir_of t ;; Ok (existsb (finds root) l).
(** pe_resource_viewer.cpp:91-113 list_resource_names and list_resource_ids. *)
Definition list_names (t : rnode) (root : rname) : res (list (list Z)) := ' (_, l1) <- dir_of t ;; ' (_, l2) <- dir_by root l1 ;; Ok (name_list l2).
(** pe_resource_viewer.cpp:91-113 list_resource_ids. *)
Definition list_ids (t : rnode) (root : rname) : res (list Z) := ' (_, l1) <- dir_of t ;; ' (_, l2) <- dir_by root l1 ;; Ok (id_list l2).
(** pe_resource_viewer.cpp:115-135 get_resource_count. *)
Definition resource_count (t : rnode) (root : rname) : res Z := ' (_, l1) <- dir_of t ;; ' (_, l2) <- dir_by root l1 ;; Ok (u32 (zlen l2)).
(** The entries of the language directory. *)
Definition languages_of (t : rnode) (root name : rname) : res (list rentry) :=
  ' (_, l1) <- dir_of t ;; ' (_, l2) <- dir_by root l1 ;; ' (_, l3) <- dir_by name l2 ;; Ok l3.
(** pe_resource_viewer.cpp:137-191 get_language_count. *)
Definition language_count (t : rnode) (root name : rname) : res Z := l <- languages_of t root name ;; Ok (u32 (count_ids l)).
(** pe_resource_viewer.cpp:193-247 list_resource_languages. *)
Definition list_languages (t : rnode) (root name : rname) : res (list Z) := l <- languages_of t root name ;; Ok (id_list l).
(** pe_resource_viewer.cpp:249-295 get_resource_data_by_name and get_resource_data_by_id with a language. *)
Definition resource_data (t : rnode) (language : Z) (root name : rname) : res (list Z * Z) :=
  l <- languages_of t root name ;; c <- entry_by (Ided language) l ;; leaf_of c.
(** pe_resource_viewer.cpp:297-359: with an index instead of a language. *)
Definition resource_data_at (t : rnode) (root name : rname) (index : Z) : res (list Z * Z) :=
  l <- languages_of t root name ;;
  match nth_error l (Z.to_nat index) with Some e => leaf_of (snd e) | None => Throw resource_data_entry_not_found end.

(** ** pe_resource_manager.cpp *)
(** std::find_if and erase. *)
Fixpoint erase_first (k : rname) (l : list rentry) : list rentry :=
  match l with [] => [] | e :: t => if finds k e then t else e :: erase_first k t end.
(** std::find_if and a change of what the entry holds. *)
Fixpoint change_first (k : rname) (c : rnode) (l : list rentry) : list rentry :=
  match l with [] => [] | e :: t => if finds k e then (fst e, c) :: t else e :: change_first k c t end.
(** pe_resource_manager.cpp:27-55 remove_resource_type and remove_resource with one name. *)
Definition remove_root (t : rnode) (root : rname) : res (rnode * bool) :=
  ' (h, l) <- dir_of t ;; if existsb (finds root) l then Ok (RDir h (erase_first root l), true) else Ok (t, false).
(** What is left of entry [k] when its directory becomes [l']: it goes when [l'] is empty. *)
Definition put_or_erase (k : rname) (h' : rhead) (l' l : list rentry) : list rentry :=
  match l' with [] => erase_first k l | _ => change_first k (RDir h' l') l end.
(** pe_resource_manager.cpp:57-80 remove_resource with type and name. *)
Definition remove_name (t : rnode) (root name : rname) : res (rnode * bool) :=
  ' (h, l1) <- dir_of t ;;
  match find (finds root) l1 with
  | None => Ok (t, false)
  | Some e1 =>
      ' (h2, l2) <- dir_of (snd e1) ;;
      if existsb (finds name) l2 then Ok (RDir h (put_or_erase root h2 (erase_first name l2) l1), true) else Ok (t, false)
  end.
(** pe_resource_manager.cpp:107-141 remove_resource with type, name and language. *)
Definition remove_language (t : rnode) (root name : rname) (language : Z) : res (rnode * bool) :=
  ' (h, l1) <- dir_of t ;;
  match find (finds root) l1 with
  | None => Ok (t, false)
  | Some e1 =>
      ' (h2, l2) <- dir_of (snd e1) ;;
      match find (finds name) l2 with
      | None => Ok (t, false)
      | Some e2 =>
          ' (h3, l3) <- dir_of (snd e2) ;;
          if existsb (finds (Ided language)) l3 then
            (* when the language directory stays, so do the two above it *)
            Ok (RDir h (put_or_erase root h2 (put_or_erase name h3 (erase_first (Ided language) l3) l2) l1), true)
          else Ok (t, false)
      end
  end.
(** pe_resource_manager.cpp:199-207, 213-221: an entry that is not found is added behind the others, with an empty directory of the given timestamp. *)
Definition new_rhead (timestamp : Z) : rhead := mk_rhead 0 timestamp 0 0 0 0.
(** pe_resource_manager.cpp:199-207, 213-221: the entry, old or new. *)
Definition dir_or_new (k : rname) (timestamp : Z) (l : list rentry) : res (list rentry * (rhead * list rentry)) :=
  match find (finds k) l with
  | Some e => d <- dir_of (snd e) ;; Ok (l, d)
  | None => Ok (l ++ [(k, RDir (new_rhead timestamp) [])], (new_rhead timestamp, []))
  end.
(** pe_resource_manager.cpp:188-235 add_resource. *)
Definition add_resource (t : rnode) (data : list Z) (root name : rname) (language codepage timestamp : Z) : res rnode :=
  ' (h, l1) <- dir_of t ;;
  ' (l1', (h2, l2)) <- dir_or_new root timestamp l1 ;;
  ' (l2', (h3, l3)) <- dir_or_new name timestamp l2 ;;
  let l3' := erase_first (Ided language) l3 ++ [(Ided language, RData data codepage)] in
  Ok (RDir h (change_first root (RDir h2 (change_first name (RDir h3 l3') l2')) l1')).
