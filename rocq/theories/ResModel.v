(** Model of pe_resources.cpp: the tree of resources, its reader and its writer. Names are lists of 16-bit units: this is
    the Windows build; elsewhere from_ucs2/to_ucs2 (utils.cpp:26-76) convert each unit with iconv, which is not modelled. *)
From Verif Require Export ExportModel ResDataModel.

(** A recursive function with binary fuel: at most [n] nested calls. *)
Fixpoint pfun {A B} (n : positive) (F : (A -> res B) -> A -> res B) (base : A -> res B) (a : A) : res B :=
  match n with
  | xH => F base a
  | xO m => pfun m F (pfun m F base) a
  | xI m => F (pfun m F (pfun m F base)) a
  end.

(** ** The tree *)
(** resource_directory_entry: name or number (pe_resources.cpp:170-186). *)
Inductive rname : Type := Named (s : list Z) | Ided (id : Z).
(** The fields of resource_directory but the entries (pe_resources.cpp:204-218). *)
Record rhead : Type := mk_rhead { r_chars : Z; r_time : Z; r_major : Z; r_minor : Z; r_named : Z; r_ids : Z }.
(** What an entry holds: nothing yet, resource_data_entry, or resource_directory. The root is an [RDir]. *)
Inductive rnode : Type :=
| RNone
| RData (data : list Z) (codepage : Z)
| RDir (h : rhead) (l : list (rname * rnode)).
Notation rentry := (rname * rnode)%type.
(** pe_resources.cpp:125-128 is_named. *)
Definition is_named (e : rentry) : bool := match fst e with Named _ => true | Ided _ => false end.
(** pe_resources.cpp:204-209: the default constructor. *)
Definition empty_rhead : rhead := mk_rhead 0 0 0 0 0 0.
(** The number of entries with names. *)
Definition count_named (l : list rentry) : Z := zlen (filter is_named l).
(** The number of entries with numbers. *)
Definition count_ids (l : list rentry) : Z := zlen (filter (fun e => negb (is_named e)) l).

(** ** Reader *)
(** image_resource_directory (pe_structures.h:448-458). *)
Definition rdir_widths : list nat := [4; 4; 2; 2; 2; 2]%nat.
(** The bitfields of image_resource_directory_entry (pe_structures.h:460-486): 31 bits and a flag. *)
Definition flag31 (w : Z) : bool := 2^31 <=? w.
(** pe_structures.h:465-486: the 31 bits. *)
Definition low31 (w : Z) : Z := w mod 2^31.
(** pe_resources.cpp:357-391: the name or the number of an entry. *)
Definition read_rname (p : pe) (rva w : Z) : res rname :=
  if flag31 w then
    throw_if (negb (is_sum_safe (u32 (rva + 2)) (low31 w))) incorrect_resource_directory ;;;
    bs <- read_rva p (u32 (rva + low31 w)) 2 VirtData true ;;
    let a := u32 (rva + low31 w + 2) in
    len <- length_rva p a a VirtData true ;;
    throw_if (len <? unle bs) incorrect_resource_directory ;;;
    ' (d, o) <- ptr_rva p a VirtData true ;;
    s <- rd_units d o (unle bs) ;;
    Ok (Named s)
  else Ok (Ided (u16 w)).
(** pe_resources.cpp:401-413: the data of an entry. *)
Definition read_rdata (p : pe) (rva w : Z) : res rnode :=
  e <- read_rva p (u32 (rva + w)) 16 VirtData true ;;
  match dec_fields [4; 4; 4; 4]%nat e with
  | [a; size; codepage; _] =>
      len <- length_rva p a a VirtData true ;;
      throw_if (len <? size) incorrect_resource_directory ;;;
      ' (d, o) <- ptr_rva p a VirtData true ;;
      data <- rd d o size ;;
      Ok (RData data codepage)
  | _ => Throw incorrect_resource_directory
  end.
(** pe_resources.cpp:349-417: entry [i] of the directory at [off]; [seen] is the set of processed directories. *)
Definition read_rentry (p : pe) (rva off : Z) (rec : Z * list Z -> res (rnode * list Z)) (st : list rentry * list Z) (i : Z) : res (list rentry * list Z) :=
  let '(l, seen) := st in
  e <- read_rva p (u32 (rva + 16 + i * 8 + off)) 8 VirtData true ;;
  name <- read_rname p rva (unle (slice e 0 4)) ;;
  let w := unle (slice e 4 4) in
  ' (c, seen') <- (if flag31 w then rec (low31 w, seen) else c <- read_rdata p rva w ;; Ok (c, seen)) ;;
  Ok (l ++ [(name, c)], seen').
(** 0, 1, ..., n - 1. *)
Definition zrange (n : Z) : list Z := map Z.of_nat (seq 0 (Z.to_nat n)).
(** pe_resources.cpp:324-419 process_resource_directory; the constructor sets the counters to 0 and
    add_resource_directory_entry (270-277) counts. *)
Definition read_rdir (p : pe) (rva : Z) (rec : Z * list Z -> res (rnode * list Z)) (a : Z * list Z) : res (rnode * list Z) :=
  let '(off, seen) := a in
  throw_if (existsb (Z.eqb off) seen) incorrect_resource_directory ;;;
  throw_if (negb (is_sum_safe rva off)) incorrect_resource_directory ;;;
  e <- read_rva p (rva + off) 16 VirtData true ;;
  match dec_fields rdir_widths e with
  | [chars; time; major; minor; named; ids] =>
      let n := ids + named in
      throw_if (negb (is_sum_safe ids named) || (max_dword / 8 + 16 <=? n)) incorrect_resource_directory ;;;
      throw_if (negb (is_sum_safe off (16 + n * 8)) || negb (is_sum_safe rva (u32 (off + 16 + n * 8)))) incorrect_resource_directory ;;;
      ' (l, seen') <- mfold (read_rentry p rva off rec) (zrange n) ([], off :: seen) ;;
      Ok (RDir (mk_rhead chars time major minor (u32 (count_named l)) (u32 (count_ids l))) l, seen')
  | _ => Throw incorrect_resource_directory
  end.
(** pe_resources.cpp:324-437 process_resource_directory: the recursion. *)
Definition process_resources (p : pe) (rva : Z) : Z * list Z -> res (rnode * list Z) :=
  pfun big_fuel (read_rdir p rva) (fun _ => Fuel).
(** pe_resources.cpp:632-648 get_resources. *)
Definition get_resources (p : pe) : res rnode :=
  ex <- directory_exists p dir_resource ;;
  if ex then rva <- get_directory_rva p dir_resource ;; ' (t, _) <- process_resources p rva (0, []) ;; Ok t
  else Ok (RDir empty_rhead []).

(** ** Writer *)
(** pe_resources.cpp:557-565 entry_sorter. *)
Definition rname_lt (a b : rname) : bool :=
  match a, b with
  | Named s, Named t => str_ltb s t
  | Ided m, Ided n => m <? n
  | Named _, Ided _ => true
  | Ided _, Named _ => false
  end.
(** pe_resources.cpp:475-478 std::sort; insertion before the first entry that is not smaller. When two entries have the same
    name or number std::sort may give another order. *)
Fixpoint insert_rentry (e : rentry) (l : list rentry) : list rentry :=
  match l with [] => [e] | x :: t => if rname_lt (fst x) (fst e) then x :: insert_rentry e t else e :: l end.
(** pe_resources.cpp:475-478: the whole list. *)
Definition sort_rentries (l : list rentry) : list rentry := fold_right insert_rentry [] l.
(** The writer sorts a directory when it comes to it; the order of the entries does not depend on what they hold, so sorting
    all of them first is the same. *)
Fixpoint sort_tree (n : rnode) : rnode :=
  match n with
  | RDir h l => RDir h (sort_rentries (map (fun e => (fst e, sort_tree (snd e))) l))
  | _ => n
  end.
(** pe_resources.cpp:422-435: the space for structures and strings. *)
Fixpoint tables_space (n : rnode) (st : Z * Z) : res (Z * Z) :=
  match n with
  | RDir _ l =>
      (fix go l st :=
         match l with
         | [] => Ok st
         | (name, c) :: t =>
             let st1 := (u32 (fst st + 8), match name with Named s => u32 (snd st + u32 ((zlen s + 1) * 2 + 2)) | Ided _ => snd st end) in
             st2 <- (match c with RData _ _ => Ok st1 | _ => tables_space c st1 end) ;;
             go t st2
         end) l (u32 (fst st + 16), snd st)
  | _ => Throw resource_directory_entry_error
  end.
(** pe_resources.cpp:438-455: the space for data; the sum and the position. *)
Fixpoint data_space (n : rnode) (st : Z * Z) : res (Z * Z) :=
  match n with
  | RDir _ l =>
      (fix go l st :=
         match l with
         | [] => Ok st
         | (_, c) :: t =>
             st1 <- (match c with
                     | RData data _ => let size := u32 (zlen data + 16 + u32 (align_up (snd st) 4 - snd st)) in
                                       Ok (u32 (fst st + size), u32 (snd st + size))
                     | _ => data_space c st
                     end) ;;
             go t st1
         end) l st
  | _ => Throw resource_directory_entry_error
  end.
(** The units of a name as bytes. *)
Definition name_bytes (s : list Z) : list Z := flat_map (le 2) s.
(** What the writer works on: the data of the section, the position of structures, of data and of strings. *)
Record rout : Type := mk_rout { w_data : list Z; w_struct : Z; w_pos : Z; w_text : Z }.
(** pe_resources.cpp:504-525: the first word of an entry; a name is written with its length and a terminating null. *)
Definition write_rname (base : Z) (name : rname) (w : rout) : res (Z * rout) :=
  match name with
  | Named s =>
      d1 <- wr (w_data w) (w_text w) (le 2 (u16 (zlen s))) ;;
      let pos := u32 (w_text w + 2) in
      d2 <- wr d1 pos (name_bytes (s ++ [0])) ;;
      Ok (Z.lor (2^31) (u32 (w_text w - base)), mk_rout d2 (w_struct w) (w_pos w) (u32 (pos + u32 (zlen s * 2 + 2))))
  | Ided id => Ok (id, w)
  end.
(** pe_resources.cpp:529-543: the data of an entry and the second word of the entry. *)
Definition write_rdata (s1 : section) (base : Z) (data : list Z) (codepage : Z) (w : rout) : res (Z * rout) :=
  let pos := align_up (w_pos w) 4 in
  d1 <- wr (w_data w) pos (enc_fields [4; 4; 4; 4]%nat [rva_from_section_offset s1 (u32 (pos + 16)); u32 (zlen data); codepage; 0]) ;;
  d2 <- wr d1 (u32 (pos + 16)) (ztake (u32 (zlen data)) data) ;;
  Ok (u32 (pos - base), mk_rout d2 (w_struct w) (u32 (u32 (pos + 16) + u32 (zlen data))) (w_text w)).
(** pe_resources.cpp:465-554 rebuild_resource_directory, on a sorted tree. *)
Fixpoint write_rdir (s1 : section) (base : Z) (n : rnode) (w : rout) : res rout :=
  match n with
  | RDir h l =>
      let named := u16 (count_named l) in
      let ids := u16 (count_ids l) in
      d1 <- wr (w_data w) (w_struct w) (enc_fields rdir_widths [r_chars h; r_time h; r_major h; r_minor h; named; ids]) ;;
      let this := u32 (w_struct w + 16) in
      (fix go l this w :=
         match l with
         | [] => Ok w
         | (name, c) :: t =>
             ' (w1, wa) <- write_rname base name w ;;
             match c with
             | RData data codepage =>
                 ' (w2, wb) <- write_rdata s1 base data codepage wa ;;
                 d <- wr (w_data wb) this (le 4 w1 ++ le 4 w2) ;;
                 go t (u32 (this + 8)) (mk_rout d (w_struct wb) (w_pos wb) (w_text wb))
             | _ =>
                 d <- wr (w_data wa) this (le 4 w1 ++ le 4 (Z.lor (2^31) (u32 (w_struct wa - base)))) ;;
                 wb <- write_rdir s1 base c (mk_rout d (w_struct wa) (w_pos wa) (w_text wa)) ;;
                 go t (u32 (this + 8)) wb
             end
         end) l this (mk_rout d1 (u32 (this + 8 * (named + ids))) (w_pos w) (w_text w))
  | _ => Throw resource_directory_entry_error
  end.
(** pe_resources.cpp:575-629 rebuild_resources; the last component is the tree as the caller finds it afterwards, sorted. *)
Definition rebuild_resources (p : pe) (t : rnode) (i : nat) (off : Z) (save strip : bool) : res (pe * (Z * Z) * rnode) :=
  throw_if (negb (section_attached p i)) section_is_not_attached ;;;
  throw_if (match t with RDir _ (_ :: _) => false | _ => true end) incorrect_resource_directory ;;;
  let base := align_up off 4 in
  ' (structs, strings) <- tables_space t (u32 (base - off), 0) ;;
  ' (size, _) <- data_space t (0, u32 (u32 (base + structs) + strings)) ;;
  let needed := u32 (u32 (structs + strings) + size) in
  s1 <- open_room p i (u32 (needed + base)) (u32 (needed + base)) ;;
  let spos := u32 (base + structs) in
  w <- write_rdir s1 base (sort_tree t) (mk_rout (s_data s1) base (u32 (spos + strings)) spos) ;;
  r <- finish_directory p i s1 (w_data w) base needed dir_resource save strip ;;
  Ok (r, sort_tree t).
