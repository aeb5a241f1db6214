(** Model of resource_version_info_reader.cpp and resource_version_info_writer.cpp, with file_version_info.cpp. Wide strings
    are lists of 16-bit units: this is the Windows build; elsewhere from_ucs2/to_ucs2 (utils.cpp:26-76) convert each unit
    with iconv, which is not modelled. *)
From Verif Require Export ResDataModel ExportModel ManagerModel.

(** ** Containers *)
(** std::map<std::wstring, A>: sorted by key. insert keeps the value of an existing key. *)
Fixpoint sinsert {A} (k : list Z) (v : A) (m : list (list Z * A)) : list (list Z * A) :=
  match m with
  | [] => [(k, v)]
  | (k', v') :: t => if str_ltb k k' then (k, v) :: m else if str_eqb k k' then m else (k', v') :: sinsert k v t
  end.
(** std::multimap<uint16_t, uint16_t>::insert: behind the last equal key. *)
Fixpoint multi_insert (k v : Z) (m : list (Z * Z)) : list (Z * Z) :=
  match m with
  | [] => [(k, v)]
  | (k', v') :: t => if k <? k' then (k, v) :: m else (k', v') :: multi_insert k v t
  end.
(** version_info_types.h:9-16. *)
Notation strings_map := (list (list Z * list Z)) (only parsing).
Notation lang_map := (list (list Z * list (list Z * list Z))) (only parsing).
Notation trans_map := (list (Z * Z)) (only parsing).

(** file_version_info.h: the ten fields. *)
Record file_info : Type := mk_file_info {
  fi_version_ms : Z; fi_version_ls : Z; fi_product_ms : Z; fi_product_ls : Z; fi_flags : Z; fi_os : Z; fi_type : Z; fi_subtype : Z; fi_date_ms : Z; fi_date_ls : Z }.
(** file_version_info.cpp:9-17, the default constructor. *)
Definition no_file_info : file_info := mk_file_info 0 0 0 0 0 0 0 0 0 0.

(** ** Reading *)
(** utils.h:13-24 is_null_terminated over [n] units, followed by the construction of a u16string from the same pointer. *)
Fixpoint w_scan (l : list Z) (n : nat) {struct n} : res (option (list Z)) :=
  match n with
  | O => Ok None
  | S k => match l with
           | a :: b :: t => if a + 256 * b =? 0 then Ok (Some []) else r <- w_scan t k ;; Ok (option_map (cons (a + 256 * b)) r)
           | _ => Ub OobRead
           end
  end.
(** utils.h:13-24: the same, from offset [off] of the buffer. *)
Definition w_string (d : list Z) (off n : Z) : res (option (list Z)) := w_scan (zdrop off d) (Z.to_nat n).
(** resource_version_info_reader.cpp:18-32 get_version_block_value_pos. *)
Definition value_pos (base : Z) (key : list Z) : res Z :=
  let w := u32 (u32 (u32 (zlen key) + 1) * 2) in
  let r := align_up (u32 (6 + base + w)) 4 in
  throw_if ((r <? base) || (r <? 6) || (r <? w)) resource_incorrect_version_info ;;; Ok r.
(** resource_version_info_reader.cpp:34-49 get_version_block_first_child_pos. *)
Definition first_child_pos (base vlen : Z) (key : list Z) : res Z :=
  let w := u32 (u32 (u32 (zlen key) + 1) * 2) in
  let r := u32 (align_up (u32 (6 + base + w)) 4 + align_up vlen 4) in
  throw_if ((r <? base) || (r <? vlen) || (r <? 6) || (r <? w)) resource_incorrect_version_info ;;; Ok r.

(** The reader checks positions against the length [len] of the resource data and reads through a pointer: [d] is the data
    followed by whatever may be read behind it. *)
Section Reader.
Context (fuel : positive) (d : list Z) (len : Z).
(** pe_structures.h:576-590 version_info_block: 100-115, 125-138, 146-159, 203-216: Length, ValueLength and Key of a block. *)
Definition block_at (pos : Z) : res (Z * Z * list Z) :=
  throw_if (len <? pos + 8) resource_incorrect_version_info ;;;
  l <- rd_le d pos 2 ;; v <- rd_le d (pos + 2) 2 ;;
  throw_if (l =? 0) resource_incorrect_version_info ;;;
  k <- w_string d (pos + 6) ((len - pos - 6) / 2) ;;
  match k with Some key => Ok (l, v, key) | None => Throw resource_incorrect_version_info end.
(** resource_version_info_reader.cpp:143-186: one string of the table at [base] of [size] bytes. *)
Definition string_entry (base size : Z) (st : Z * strings_map) : res ((Z * strings_map) + strings_map) :=
  let '(pos, m) := st in
  if u32 (pos - base) <? size then
    ' (l, v, key) <- block_at pos ;;
    s <- (if v =? 0 then Ok [] else
            vp <- value_pos pos key ;;
            throw_if (len <? vp + v) resource_incorrect_version_info ;;;
            s <- rd_units d vp v ;; Ok (strip_nullbytes s)) ;;
    Ok (inl (u32 (pos + align_up16 l 4), sinsert key s m))
  else Ok (inr m).
(** resource_version_info_reader.cpp:122-196: one string table of the block at [base]. *)
Definition table_entry (base size : Z) (st : Z * lang_map) : res ((Z * lang_map) + lang_map) :=
  let '(pos, m) := st in
  if u32 (pos - base) <? size then
    ' (l, v, key) <- block_at pos ;;
    c <- first_child_pos pos v key ;;
    values <- mloop fuel (string_entry pos l) (c, []) ;;
    Ok (inl (u32 (pos + align_up16 l 4), sinsert key values m))
  else Ok (inr m).
(** resource_version_info_reader.cpp:228-235: the pairs of a Translation block. *)
Definition pair_entry (vp v : Z) (st : Z * trans_map) : res ((Z * trans_map) + trans_map) :=
  let '(i, m) := st in
  if i <? v then
    a <- rd_le d (vp + i) 2 ;; b <- rd_le d (vp + 2 + i) 2 ;; Ok (inl (u32 (i + 4), multi_insert a b m))
  else Ok (inr m).
(** resource_internal.h:5-9. *)
Definition string_file_info : list Z := [83; 116; 114; 105; 110; 103; 70; 105; 108; 101; 73; 110; 102; 111].
(** resource_internal.h:5-9. *)
Definition var_file_info : list Z := [86; 97; 114; 70; 105; 108; 101; 73; 110; 102; 111].
(** resource_internal.h:5-9. *)
Definition translation_key : list Z := [84; 114; 97; 110; 115; 108; 97; 116; 105; 111; 110].
(** resource_version_info_reader.cpp:200-240: one block of VarFileInfo. *)
Definition var_entry (base size : Z) (st : Z * trans_map) : res ((Z * trans_map) + trans_map) :=
  let '(pos, m) := st in
  if u32 (pos - base) <? size then
    ' (l, v, key) <- block_at pos ;;
    m' <- (if str_eqb key translation_key && negb (v =? 0) then
             vp <- value_pos pos key ;;
             throw_if (len <? vp + v) resource_incorrect_version_info ;;;
             mloop fuel (pair_entry vp v) (0, m)
           else Ok m) ;;
    Ok (inl (u32 (pos + align_up16 l 4), m'))
  else Ok (inr m).
(** resource_version_info_reader.cpp:98-249: one child of the root block of [size] bytes. *)
Definition child_entry (size : Z) (st : Z * (lang_map * trans_map)) : res ((Z * (lang_map * trans_map)) + (lang_map * trans_map)) :=
  let '(pos, (s, t)) := st in
  if pos <? size then
    throw_if (negb (is_sum_safe pos 8)) resource_incorrect_version_info ;;;
    ' (l, v, key) <- block_at pos ;;
    ' (s', t') <- (if str_eqb key string_file_info then
                     c <- first_child_pos pos v key ;; s' <- mloop fuel (table_entry pos l) (c, s) ;; Ok (s', t)
                   else if str_eqb key var_file_info then
                     c <- first_child_pos pos v key ;; t' <- mloop fuel (var_entry pos l) (c, t) ;; Ok (s, t')
                   else Throw resource_incorrect_version_info) ;;
    Ok (inl (u32 (pos + align_up16 l 4), (s', t')))
  else Ok (inr (s, t)).
(** resource_version_info_reader.cpp:11-12: the key of the root block. *)
Definition version_key : list Z := [86; 83; 95; 86; 69; 82; 83; 73; 79; 78; 95; 73; 78; 70; 79].
(** pe_structures.h:196-199. *)
Definition ffi_mask : Z := 0x3F.
(** pe_structures.h:196-199. *)
Definition ffi_signature : Z := 0xFEEF04BD.
(** pe_structures.h:196-199. *)
Definition ffi_version : Z := 0x00010000.
(** pe_structures.h:413-428 vs_fixedfileinfo: thirteen words of 32 bits. *)
Definition ffi_widths : list nat := repeat 4%nat 13.
(** resource_version_info_reader.cpp:76-95, file_version_info.cpp:20-28: the fixed part. *)
Definition fixed_info (v : Z) (key : list Z) : res file_info :=
  if v =? 0 then Ok no_file_info else
  vp <- value_pos 0 key ;;
  throw_if (len <? vp + 52) resource_incorrect_version_info ;;;
  bs <- rd d vp 52 ;;
  match dec_fields ffi_widths bs with
  | [sg; sv; vms; vls; pms; pls; _; fl; os; ty; sub; dms; dls] =>
      throw_if (negb (sg =? ffi_signature) || negb (sv =? ffi_version)) resource_incorrect_version_info ;;;
      Ok (mk_file_info vms vls pms pls fl os ty sub dms dls)
  | _ => Throw resource_incorrect_version_info   (* 13 fields: not reached *)
  end.
(** resource_version_info_reader.cpp:61-252 get_version_info with the maps passed by the caller. *)
Definition version_info_from (s : lang_map) (t : trans_map) : res (file_info * (lang_map * trans_map)) :=
  throw_if (len <? 8) resource_incorrect_version_info ;;;
  l <- rd_le d 0 2 ;; v <- rd_le d 2 2 ;;
  k <- w_string d 6 ((len - 6) / 2) ;;
  match k with
  | None => Throw resource_incorrect_version_info
  | Some key =>
      throw_if (negb (str_eqb key version_key)) resource_incorrect_version_info ;;;
      i <- fixed_info v key ;;
      c <- first_child_pos 0 v key ;;
      r <- mloop fuel (child_entry l) (c, (s, t)) ;;
      Ok (i, r)
  end.
End Reader.
(** resource_version_info_reader.cpp:61-252 get_version_info with empty maps. *)
Definition version_info (d : list Z) : res (file_info * (lang_map * trans_map)) := version_info_from big_fuel d (zlen d) [] [].

(** ** Writing *)
(** memcpy to the buffer and advance. *)
Definition put (st : list Z * Z) (bs : list Z) : res (list Z * Z) := d <- wr (fst st) (snd st) bs ;; Ok (d, u32 (snd st + zlen bs)).
(** The first six bytes of a version_info_block. *)
Definition block_head (l v t : Z) : list Z := le 2 l ++ le 2 v ++ le 2 t.
(** The bytes of a wide string with its null, as c_str() gives them. *)
Definition wide_z (s : list Z) : list Z := concat (map (le 2) s) ++ [0; 0].
(** resource_version_info_writer.cpp:45-54: the sizes. *)
Definition key_size (k : list Z) : Z := align_up (u32 (6 + (zlen k + 1) * 2)) 4.
(** resource_version_info_writer.cpp:51: a value. *)
Definition value_size (v : list Z) : Z := align_up (u32 ((zlen v + 1) * 2)) 4.
(** resource_version_info_writer.cpp:50-51: a string. *)
Definition string_size (e : list Z * list Z) : Z := u32 (key_size (fst e) + value_size (snd e)).
(** resource_version_info_writer.cpp:45-52: a table of strings. *)
Definition table_size (e : list Z * list (list Z * list Z)) : Z := fold_left (fun n x => u32 (n + string_size x)) (snd e) (key_size (fst e)).
(** resource_version_info_writer.cpp:30-64 the whole size; the names StringFileInfo, VarFileInfo and Translation take 30, 26 and 26 bytes with their padding. *)
Definition version_size (s : lang_map) (t : trans_map) : Z :=
  let n1 := match s with [] => 92 | _ => fold_left (fun n e => u32 (n + table_size e)) s 128 end in
  match t with [] => n1 | _ => u32 (n1 + 12 + 26 + 26 + u32 (zlen t * 4)) end.
(** resource_version_info_writer.cpp:148-193: one string. *)
Definition write_string (st : list Z * Z) (e : list Z * list Z) : res (list Z * Z) :=
  let '(k, v) := e in
  let vl := u16 (zlen v + 1) in
  let kl := u32 ((zlen k + 1) * 2) in
  let l := u16 (align_up64 (6 + kl) 4 + vl * 2) in
  st1 <- put st (block_head l vl 1) ;;
  st2 <- put st1 (wide_z k) ;;
  st3 <- (if (6 + kl) mod 4 =? 0 then Ok st2 else put st2 [0; 0]) ;;
  st4 <- put st3 (ztake (vl * 2) (wide_z v)) ;;
  if (vl * 2) mod 4 =? 0 then Ok st4 else put st4 [0; 0].
(** resource_version_info_writer.cpp:115-197: one table; its Length is written last. *)
Definition write_table (st : list Z * Z) (e : list Z * list (list Z * list Z)) : res (list Z * Z) :=
  let '(k, m) := e in
  let kl := u32 ((zlen k + 1) * 2) in
  st1 <- put st (block_head 0 0 1) ;;
  st2 <- put st1 (wide_z k) ;;
  st3 <- (if (6 + kl) mod 4 =? 0 then Ok st2 else put st2 [0; 0]) ;;
  st4 <- mfold write_string m st3 ;;
  d <- wr (fst st4) (snd st) (le 2 (u16 (u32 (snd st4 - snd st1) + 6))) ;;
  Ok (d, snd st4).
(** resource_version_info_writer.cpp:96-201: the strings. *)
Definition write_strings (st : list Z * Z) (s : lang_map) : res (list Z * Z) :=
  st1 <- put st (block_head 0 0 1) ;;
  st2 <- put st1 (wide_z string_file_info) ;;
  st3 <- mfold write_table s st2 ;;
  d <- wr (fst st3) (snd st) (le 2 (u16 (u32 (snd st3 - snd st1) + 6))) ;;
  Ok (d, snd st3).
(** resource_version_info_writer.cpp:203-245: the translations. *)
Definition write_pair (st : list Z * Z) (e : Z * Z) : res (list Z * Z) := st1 <- put st (le 2 (fst e)) ;; put st1 (le 2 (snd e)).
(** resource_version_info_writer.cpp:203-245: the block. *)
Definition write_translations (st : list Z * Z) (t : trans_map) : res (list Z * Z) :=
  st1 <- put st (block_head 0 0 1) ;;
  st2 <- put st1 (wide_z var_file_info ++ [0; 0]) ;;
  st3 <- put st2 (block_head 0 0 0) ;;
  st4 <- put st3 (wide_z translation_key ++ [0; 0]) ;;
  d1 <- wr (fst st4) (snd st2 + 2) (le 2 (u16 (4 * zlen t))) ;;
  st5 <- mfold write_pair t (d1, snd st4) ;;
  d2 <- wr (fst st5) (snd st2) (le 2 (u16 (u32 (snd st5 - snd st3) + 6))) ;;
  d3 <- wr d2 (snd st) (le 2 (u16 (u32 (snd st5 - snd st1) + 6))) ;;
  Ok (d3, snd st5).
(** resource_version_info_writer.cpp:72-94: the fixed part. *)
Definition fixed_bytes (i : file_info) : list Z :=
  enc_fields ffi_widths [ffi_signature; ffi_version; fi_version_ms i; fi_version_ls i; fi_product_ms i; fi_product_ls i; ffi_mask; fi_flags i; fi_os i; fi_type i; fi_subtype i; fi_date_ms i; fi_date_ls i].
(** resource_version_info_writer.cpp:21-247: the data that set_version_info stores. *)
Definition version_data (i : file_info) (s : lang_map) (t : trans_map) : res (list Z) :=
  let total := version_size s t in
  st1 <- put (zeros total, 0) (block_head (u16 total) 52 0) ;;
  st2 <- put st1 (wide_z version_key) ;;
  st3 <- put st2 [0; 0] ;;
  st4 <- put st3 (fixed_bytes i) ;;
  st5 <- (match s with [] => Ok st4 | _ => write_strings st4 s end) ;;
  st6 <- (match t with [] => Ok st5 | _ => write_translations st5 t end) ;;
  Ok (fst st6).

(** ** Both on a tree of resources *)
(** pe_resource_viewer.h: the number of the type RT_VERSION. *)
Definition rt_version : rname := Ided 16.
(** resource_version_info_writer.cpp:21-249 set_version_info. *)
Definition set_version_info (t : rnode) (i : file_info) (s : lang_map) (tr : trans_map) (language codepage timestamp : Z) : res rnode :=
  d <- version_data i s tr ;; add_resource t d rt_version (Ided 1) language codepage timestamp.
(** resource_version_info_writer.cpp:252-255 remove_version_info. *)
Definition remove_version_info (t : rnode) (language : Z) : res (rnode * bool) := remove_language t rt_version (Ided 1) language.
(** resource_version_info_reader.cpp:254-270 get_version_info_by_lang. *)
Definition version_info_by_lang (t : rnode) (language : Z) : res (file_info * (lang_map * trans_map)) :=
  ' (d, _) <- resource_data t language rt_version (Ided 1) ;; version_info d.
(** resource_version_info_reader.cpp:272-289 get_version_info with an index. *)
Definition version_info_at (t : rnode) (index : Z) : res (file_info * (lang_map * trans_map)) :=
  ' (d, _) <- resource_data_at t rt_version (Ided 1) index ;; version_info d.
