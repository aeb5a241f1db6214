(** Model of resource_cursor_icon_writer.cpp and resource_cursor_icon_reader.cpp. The code is written twice, for icons and for
    cursors; here a [kind] tells them apart wherever they differ. An exception loses the changes made to the tree before it. *)
From Verif Require Export ManagerModel.

(** Which of the two copies of the code. *)
Inductive kind := Icon | Cursor.
(** pe_resource_viewer.h:18-30. *)
Definition image_type (k : kind) : rname := match k with Icon => Ided 3 | Cursor => Ided 1 end.
(** pe_resource_viewer.h:18-30. *)
Definition group_type (k : kind) : rname := match k with Icon => Ided 14 | Cursor => Ided 12 end.
(** The exception that the copy of the code throws. *)
Definition incorrect (k : kind) : exc := match k with Icon => resource_incorrect_icon | Cursor => resource_incorrect_cursor end.
(** pe_structures.h:511-516 ico_header and 543-548 cursor_header: Reserved, Type, Count; 6 bytes. *)
Definition head_widths : list nat := [2; 2; 2]%nat.
(** pe_structures.h:531-541 icondirentry: Width, Height, ColorCount, Reserved, Planes, BitCount, SizeInBytes, ImageOffset; 561-571 cursordirentry
    with HotspotX and HotspotY for Planes and BitCount; 16 bytes. *)
Definition dirent_widths : list nat := [1; 1; 1; 1; 2; 2; 4; 4]%nat.
(** pe_structures.h:519-529 icon_group: as above with the number instead of the offset; 550-558 cursor_group: Width, Height, Planes, BitCount,
    SizeInBytes, Number; 14 bytes each, Number at offset 12 in both. *)
Definition icon_widths : list nat := [1; 1; 1; 1; 2; 2; 4; 2]%nat.
(** pe_structures.h:550-558 cursor_group. *)
Definition cursor_widths : list nat := [2; 2; 2; 2; 4; 2]%nat.

(** ** Free numbers *)
Fixpoint insert_sorted (x : Z) (l : list Z) : list Z := match l with [] => [x] | y :: t => if x <=? y then x :: l else y :: insert_sorted x t end.
(** std::sort. *)
Fixpoint sort_ids (l : list Z) : list Z := match l with [] => [] | x :: t => insert_sorted x (sort_ids t) end.
(** resource_cursor_icon_writer.cpp:131-136 and 141-146: numbers from [i] until [stop] or until there are [count]. *)
Fixpoint fill_gap (n : nat) (i stop count : Z) (acc : list Z) : res (list Z) :=
  match n with
  | O => Fuel
  | S n' => if i =? stop then Ok acc
            else let acc' := acc ++ [i] in if zlen acc' =? count then Ok acc' else fill_gap n' (u16 (i + 1)) stop count acc'
  end.
(** resource_cursor_icon_writer.cpp:125-152, the numbers between those taken; [prev] is the element before. *)
Fixpoint fill_gaps (n : nat) (prev : option Z) (l : list Z) (count : Z) (acc : list Z) : res (list Z) :=
  match l with
  | [] => Ok acc
  | x :: t =>
      acc' <- match prev with
              | None => if 1 <? x then fill_gap n 1 x count acc else Ok acc
              | Some p => if 1 <? u32 (p - x) then fill_gap n (u16 (p + 1)) (u16 x) count acc else Ok acc
              end ;;
      if zlen acc' =? count then Ok acc' else fill_gaps n (Some x) t count acc'
  end.
(** resource_cursor_icon_writer.cpp:157-158: from the largest number on, cut to 16 bits. *)
Definition after_max (l : list Z) (count : Z) (acc : list Z) : list Z :=
  let top := match l with [] => 0 | x :: t => fold_left Z.max t x end in
  acc ++ map (fun k => u16 (u32 (top + 1 + k))) (zrange (count - zlen acc)).
(** resource_cursor_icon_writer.cpp:162-163, when there is no directory of that type: a 16-bit counter up to count + 1. *)
Fixpoint count_up (n : nat) (i stop : Z) (acc : list Z) : res (list Z) :=
  match n with
  | O => Fuel
  | S n' => if i =? stop then Ok acc else count_up n' (u16 (i + 1)) stop (acc ++ [i])
  end.
(** resource_cursor_icon_writer.cpp:106-167 get_icon_or_cursor_free_id_list. *)
Definition free_ids_from (n : nat) (t : rnode) (k : kind) (at_end : bool) (count : Z) : res (list Z) :=
  match list_ids t (image_type k) with
  | Ok ids => let l := sort_ids ids in
              acc <- (if at_end then Ok [] else fill_gaps n None l count []) ;; Ok (after_max l count acc)
  | Throw _ => count_up n 1 (u32 (count + 1)) []
  | Ub u => Ub u
  | Fuel => Fuel
  end.
(** resource_cursor_icon_writer.cpp:106-167 with enough steps for 16-bit numbers. *)
Definition free_ids : rnode -> kind -> bool -> Z -> res (list Z) := free_ids_from (Z.to_nat 65537).

(** ** Writing *)
(** resource_cursor_icon_writer.cpp:29-39: what is checked of the entry [i] of the file. *)
Definition check_dirent (k : kind) (f : list Z) (heads i : Z) : res unit :=
  s <- rd f (6 + i * 16) 16 ;;
  let v := dec_fields dirent_widths s in let size := nth 6 v 0 in let off := nth 7 v 0 in
  throw_if ((size =? 0) || (off <? heads) || negb (is_sum_safe off size) || (zlen f <? u32 (off + size))) (incorrect k).
(** resource_cursor_icon_writer.cpp:76-86, the entry of the group; 223-229 for cursors. *)
Definition group_entry (k : kind) (v : list Z) (id : Z) : list Z :=
  match k with
  | Icon => enc_fields icon_widths (firstn 6 v ++ [nth 6 v 0; id])
  | Cursor => enc_fields cursor_widths [nth 0 v 0; u16 (nth 1 v 0 * 2); 0; 0; u32 (nth 6 v 0 + 4); id]
  end.
(** resource_cursor_icon_writer.cpp:92; 237-242: a cursor has its hotspot in front. *)
Definition stored_image (k : kind) (v image : list Z) : list Z :=
  match k with Icon => image | Cursor => le 2 (nth 4 v 0) ++ le 2 (nth 5 v 0) ++ image end.
(** resource_cursor_icon_writer.cpp:70-93 and 217-245, the loop: [base] images are in the group already. *)
Definition put_image (k : kind) (f : list Z) (ids : list Z) (base language codepage timestamp : Z) (st : rnode * list Z) (i : Z) : res (rnode * list Z) :=
  let '(t, g) := st in
  s <- rd f (6 + i * 16) 16 ;;
  let v := dec_fields dirent_widths s in
  id <- match nth_error ids (Z.to_nat i) with Some id => Ok id | None => Throw std_out_of_range end ;;
  g' <- wr g (6 + (base + i) * 14) (group_entry k v id) ;;
  image <- rd f (nth 7 v 0) (nth 6 v 0) ;;
  t' <- add_resource t (stored_image k v image) (image_type k) (Ided id) language codepage timestamp ;;
  Ok (t', g').
(** resource_cursor_icon_writer.cpp:14-103 add_icon and 170-263 add_cursor, [group] being the data and codepage of the group if there is one. *)
Definition add_images_from (n : nat) (t : rnode) (k : kind) (f : list Z) (group : option (list Z * Z)) (name : rname) (language : Z) (at_end : bool) (codepage timestamp : Z) : res rnode :=
  throw_if (zlen f <? 6) (incorrect k) ;;;
  h <- rd f 0 6 ;;
  let count := nth 2 (dec_fields head_widths h) 0 in
  let heads := u32 (6 + count * 16) in
  throw_if ((zlen f <? heads) || (count =? 0)) (incorrect k) ;;;
  mfold (fun (_ : unit) i => check_dirent k f heads i) (zrange count) tt ;;;
  ' (base, (g, cp)) <-
    match group with
    | Some (d, c) =>
        throw_if (zlen d <? 6) (incorrect k) ;;;
        b <- rd_le d 4 2 ;;
        throw_if (zlen d <? 6 + b * 14) (incorrect k) ;;;
        Ok (b, (resize d (6 + (b + count) * 14), c))
    | None => g <- wr (zeros (6 + count * 14)) 0 h ;; Ok (0, (g, codepage))
    end ;;
  ids <- free_ids_from n t k at_end count ;;
  ' (t', g') <- mfold (put_image k f ids base language cp timestamp) (zrange count) (t, g) ;;
  g'' <- match group with Some _ => wr g' 4 (le 2 (u16 (base + count))) | None => Ok g' end ;;
  add_resource t' g'' (group_type k) name language cp timestamp.
(** resource_cursor_icon_writer.cpp:270-341, the overloads with a name or a number: any pe_exception means that there is no group. *)
Definition add_file_from (n : nat) (t : rnode) (k : kind) (f : list Z) (name : rname) (language : Z) (at_end : bool) (codepage timestamp : Z) : res rnode :=
  match resource_data t language (group_type k) name with
  | Ok v => add_images_from n t k f (Some v) name language at_end codepage timestamp
  | Throw _ => add_images_from n t k f None name language at_end codepage timestamp
  | Ub u => Ub u
  | Fuel => Fuel
  end.
(** resource_cursor_icon_writer.cpp:270-341 with enough steps for 16-bit numbers. *)
Definition add_file : rnode -> kind -> list Z -> rname -> Z -> bool -> Z -> Z -> res rnode := add_file_from (Z.to_nat 65537).
(** resource_cursor_icon_writer.cpp:344-388 remove_icons_from_icon_group and remove_cursors_from_cursor_group. *)
Definition remove_images (t : rnode) (k : kind) (d : list Z) (language : Z) : res rnode :=
  throw_if (zlen d <? 6) (incorrect k) ;;;
  count <- rd_le d 4 2 ;;
  throw_if (zlen d <? 6 + count * 14) (incorrect k) ;;;
  mfold (fun t i => id <- rd_le d (6 + i * 14 + 12) 2 ;; ' (t', _) <- remove_language t (image_type k) (Ided id) language ;; Ok t') (zrange count) t.
(** resource_cursor_icon_writer.cpp:391-425 remove_icon_group and remove_cursor_group. *)
Definition remove_group (t : rnode) (k : kind) (name : rname) (language : Z) : res (rnode * bool) :=
  ' (d, _) <- resource_data t language (group_type k) name ;;
  t' <- remove_images t k d language ;;
  remove_language t' (group_type k) name language.

(** ** Reading *)
(** The two ways to choose a resource: by language, or by index in the language directory. *)
Inductive choice := ByLanguage (language : Z) | ByIndex (index : Z).
(** The data of the resource chosen. *)
Definition data_by (t : rnode) (w : choice) (root name : rname) : res (list Z) :=
  ' (d, _) <- match w with ByLanguage l => resource_data t l root name | ByIndex i => resource_data_at t root name i end ;; Ok d.
(** resource_cursor_icon_reader.cpp:38-51 and 296-322: the entry of the file for an entry of the group. [hot] is the data of the cursor. *)
Definition file_entry (k : kind) (g hot : list Z) (off : Z) : res (list Z * Z) :=
  match k with
  | Icon => let v := dec_fields icon_widths g in
            let size := nth 6 v 0 in Ok (enc_fields dirent_widths (firstn 6 v ++ [size; off]), size)
  | Cursor => let v := dec_fields cursor_widths g in
              throw_if (zlen hot <? 4) resource_incorrect_cursor ;;;
              x <- rd_le hot 0 2 ;; y <- rd_le hot 2 2 ;;
              let size := u32 (nth 4 v 0 - 4) in
              Ok (enc_fields dirent_widths [u8 (nth 0 v 0); u8 (nth 1 v 0) / 2; 0; 0; x; y; size; off], size)
  end.
(** pe_structures.h:519-529, 550-558: the field Number of a group entry. *)
Definition group_number (k : kind) (g : list Z) : Z := match k with Icon => nth 7 (dec_fields icon_widths g) 0 | Cursor => nth 5 (dec_fields cursor_widths g) 0 end.
(** resource_cursor_icon_reader.cpp:16-58 format_icon_headers and 274-327 format_cursor_headers. *)
Definition file_headers (t : rnode) (k : kind) (w : choice) (d : list Z) : res (list Z * Z) :=
  throw_if (zlen d <? 6) (incorrect k) ;;;
  count <- rd_le d 4 2 ;;
  throw_if (zlen d <? 6 + count * 14) (incorrect k) ;;;
  h <- rd d 0 6 ;;
  ' (out, _) <- mfold (fun (st : list Z * Z) i =>
    let '(out, off) := st in
    g <- rd d (6 + i * 14) 14 ;;
    hot <- match k with Icon => Ok [] | Cursor => data_by t w (image_type k) (Ided (group_number k g)) end ;;
    ' (e, size) <- file_entry k g hot off ;;
    Ok (out ++ e, u32 (off + size))) (zrange count) (h, u32 (6 + 16 * count)) ;;
  Ok (out, count).
(** std::string::substr(4) of the data of a cursor. *)
Definition image_of (k : kind) (d : list Z) : res (list Z) :=
  match k with Icon => Ok d | Cursor => throw_if (zlen d <? 4) std_out_of_range ;;; Ok (zdrop 4 d) end.
(** resource_cursor_icon_reader.cpp:85-166 get_icon_by_name and get_icon_by_id, 330-411 get_cursor_by_name and get_cursor_by_id. *)
Definition get_file (t : rnode) (k : kind) (w : choice) (name : rname) : res (list Z) :=
  d <- data_by t w (group_type k) name ;;
  ' (out, count) <- file_headers t k w d ;;
  mfold (fun out i =>
    g <- rd d (6 + i * 14) 14 ;;
    c <- data_by t w (image_type k) (Ided (group_number k g)) ;;
    im <- image_of k c ;; Ok (out ++ im)) (zrange count) out.
(** resource_cursor_icon_reader.cpp:169-211 check_icon_presence and 414-466 check_cursor_presence, the loop from [i] over [n] more entries. The second does not
    check that there is room for all entries. *)
Fixpoint find_image (k : kind) (d raw : list Z) (id i : Z) (n : nat) : res (option (list Z)) :=
  match n with
  | O => Ok None
  | S n' =>
      g <- rd d (6 + i * 14) 14 ;;
      if group_number k g =? id then
        h <- rd d 0 4 ;; ' (e, _) <- file_entry k g raw 22 ;; Ok (Some (h ++ le 2 1 ++ e))
      else find_image k d raw id (i + 1) n'
  end.
(** resource_cursor_icon_reader.cpp:169-211 and 414-466: the checks before that loop. *)
Definition check_presence (k : kind) (d raw : list Z) (id : Z) : res (option (list Z)) :=
  throw_if (zlen d <? 6) (incorrect k) ;;;
  count <- rd_le d 4 2 ;;
  throw_if (zlen d <? 6 + match k with Icon => count | Cursor => 1 end * 14) (incorrect k) ;;;
  find_image k d raw id 0 (Z.to_nat count).
(** resource_cursor_icon_reader.cpp:214-245 lookup_icon_group_data_by_icon and 469-500 lookup_cursor_group_data_by_cursor: the groups with numbers, then those with names. *)
Fixpoint lookup (t : rnode) (k : kind) (raw : list Z) (language id : Z) (names : list rname) : res (list Z) :=
  match names with
  | [] => Throw match k with Icon => no_icon_group_found | Cursor => no_cursor_group_found end
  | name :: rest =>
      langs <- list_languages t (group_type k) name ;;
      r <- (if existsb (Z.eqb language) langs then
              ' (d, _) <- resource_data t language (group_type k) name ;; check_presence k d raw id
            else Ok None) ;;
      match r with Some h => Ok h | None => lookup t k raw language id rest end
  end.
(** The names are listed only when no number was found; that they can be listed does not depend on it. *)
Definition lookup_group (t : rnode) (k : kind) (raw : list Z) (language id : Z) : res (list Z) :=
  ids <- list_ids t (group_type k) ;; names <- list_names t (group_type k) ;;
  lookup t k raw language id (map Ided ids ++ map Named names).
(** resource_cursor_icon_reader.cpp:61-82 get_single_icon_by_id_lang and get_single_icon_by_id, 247-271 for cursors. For an icon the group is looked up before the
    data; the order only matters for which exception is thrown. *)
Definition get_single (t : rnode) (k : kind) (w : choice) (id : Z) : res (list Z) :=
  language <- match w with
              | ByLanguage l => Ok l
              | ByIndex i => langs <- list_languages t (image_type k) (Ided id) ;;
                             match nth_error langs (Z.to_nat i) with Some l => Ok l | None => Throw resource_data_entry_not_found end
              end ;;
  raw <- data_by t w (image_type k) (Ided id) ;;
  h <- lookup_group t k raw language id ;;
  im <- image_of k raw ;; Ok (h ++ im).
