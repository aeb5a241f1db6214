(** Version resources of other writers (C54): the same blocks in any order and number. *)
From Coq Require Import String.
From Verif Require Export SpecVerFormat.

(** A child of the root block. *)
Inductive version_child : Type :=
| Strings (s : list (list Z * list (list Z * list Z)))
| Pairs (t : list (Z * Z)).
Definition child_part (c : version_child) : list Z :=
  match c with
  | Strings s => vblock 0 1 (text "StringFileInfo") (flat_map table_part s)
  | Pairs t => vblock 0 1 (text "VarFileInfo") (vblock (4 * zlen t) 0 (text "Translation") (flat_map (fun e => le 2 (fst e) ++ le 2 (snd e)) t))
  end.
Definition version_file (i : file_info) (cs : list version_child) : list Z := vblock 52 0 (text "VS_VERSION_INFO") (fixed_part i ++ flat_map child_part cs).
(** Keys without a null, values without one at the end, numbers of 16 bits; nothing about the order. *)
Definition child_ok (c : version_child) : Prop :=
  match c with
  | Strings s => Forall (fun e => key_ok (fst e) /\ Forall (fun x => key_ok (fst x) /\ value_ok (snd x)) (snd e)) s
  | Pairs t => Forall (fun e => is_u16 (fst e) /\ is_u16 (snd e)) t
  end.
(** All tables and all pairs, in the order of the file. *)
Definition all_tables (cs : list version_child) : list (list Z * list (list Z * list Z)) := flat_map (fun c => match c with Strings s => s | Pairs _ => [] end) cs.
Definition all_pairs (cs : list version_child) : list (Z * Z) := flat_map (fun c => match c with Pairs t => t | Strings _ => [] end) cs.

(** [v] is what the first entry of the key [k] says. *)
Definition listed_first {A} (l : list (list Z * A)) (k : list Z) (v : A) : Prop := exists a b, l = a ++ (k, v) :: b /\ ~ In k (map fst a).
(** The map with the first entry of every key. *)
Definition map_of {A} (l m : list (list Z * A)) : Prop := keys_ascending m /\ forall k v, In (k, v) m <-> listed_first l k v.
(** The same one level up. *)
Definition tables_of (l s : list (list Z * list (list Z * list Z))) : Prop :=
  keys_ascending s /\ forall k m, In (k, m) s <-> exists raw, listed_first l k raw /\ map_of raw m.
(** All pairs, ordered by language; pairs of one language stay in the order of the file. *)
Definition pairs_of (l t : list (Z * Z)) : Prop :=
  Sorted.StronglySorted Z.le (map fst t) /\ forall k, filter (fun e => fst e =? k) t = filter (fun e => fst e =? k) l.
