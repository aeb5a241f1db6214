(** Resource payloads: string tables, message tables and bitmaps (resource_string_table_reader.cpp,
    resource_message_list_reader.cpp, message_table.cpp, resource_bitmap_reader.cpp,
    resource_bitmap_writer.cpp). Wide strings are lists of 16-bit units: this is the Windows build;
    elsewhere from_ucs2/to_ucs2 (utils.cpp:26-76) convert each unit with iconv, which is not modelled. *)
From Verif Require Export PeModel.

(** Little-endian 16-bit units of a byte string; an odd last byte is dropped. *)
Fixpoint units (l : list Z) : list Z :=
  match l with
  | a :: b :: t => (a + 256 * b) :: units t
  | _ => []
  end.
(** wstring(data + off, n): n units are read, hence 2n bytes. *)
Definition rd_units (d : list Z) (off n : Z) : res (list Z) := bs <- rd d off (2 * n) ;; Ok (units bs).
(** std::map::insert: sorted by key, an existing key is kept. *)
Fixpoint zinsert {A} (k : Z) (v : A) (m : list (Z * A)) : list (Z * A) :=
  match m with
  | [] => [(k, v)]
  | (k', v') :: t => if k <? k' then (k, v) :: m else if k =? k' then m else (k', v') :: zinsert k v t
  end.
(** std::map::find. *)
Fixpoint zfind {A} (k : Z) (m : list (Z * A)) : option A :=
  match m with
  | [] => None
  | (k', v) :: t => if k =? k' then Some v else zfind k t
  end.

(** ** String tables *)
(** resource_string_table_reader.cpp:30-59: one of the 16 strings. State: passed_bytes and the map. *)
Definition string_step (id : Z) (d : list Z) (st : Z * list (Z * list Z)) (i : Z) : res (Z * list (Z * list Z)) :=
  let '(passed, m) := st in
  throw_if (zlen d <? 2 + passed) resource_incorrect_string_table ;;;
  len <- rd_le d passed 2 ;;
  let passed1 := u32 (passed + 2) in
  throw_if (zlen d <? u32 (len + passed1)) resource_incorrect_string_table ;;;
  m' <- (if len =? 0 then Ok m
         else s <- rd_units d passed1 len ;; Ok (zinsert (u16 (u32 (Z.shiftl (u32 (id - 1)) 4 + i))) s m)) ;;
  Ok (u32 (passed1 + len * 2), m').
(** resource_string_table_reader.cpp:23-62 parse_string_list. *)
Definition parse_string_list (id : Z) (d : list Z) : res (list (Z * list Z)) :=
  r <- mfold (string_step id d) [0;1;2;3;4;5;6;7;8;9;10;11;12;13;14;15] (0, []) ;; Ok (snd r).
(** resource_string_table_reader.cpp:65-87 get_string_by_id: the lookup in the parsed table. *)
Definition get_string (id : Z) (m : list (Z * list Z)) : res (list Z) :=
  match zfind id m with Some s => Ok s | None => Throw resource_string_not_found end.

(** ** Message tables *)
(** message_table.cpp:12-23: is_unicode and the string, trailing NULs stripped. *)
Definition message : Type := bool * list Z.
(** resource_message_list_reader.cpp:43-90: one entry. State: current id, position, map. *)
Definition message_step (d : list Z) (hi off : Z) (st : Z * Z * list (Z * message)) : res (Z * Z * list (Z * message) + list (Z * message)) :=
  let '(id, pos, m) := st in
  if id <=? hi then
    throw_if (negb (is_sum_safe off pos) || negb (is_sum_safe (u32 (off + pos)) 4) || (zlen d <? u32 (off + pos + 4))) resource_incorrect_message_table ;;;
    len <- rd_le d (off + pos) 2 ;;
    flags <- rd_le d (off + pos + 2) 2 ;;
    throw_if ((len <? 4) || negb (is_sum_safe (u32 (off + pos)) len) || (zlen d <? u32 (off + pos + len)) || (len <? 4)) resource_incorrect_message_table ;;;
    item <- (if Z.testbit flags 0 then
               throw_if (negb (len mod 2 =? 0)) resource_incorrect_message_table ;;;
               s <- rd_units d (off + pos + 4) ((len - 4) / 2) ;; Ok (true, strip_nullbytes s)
             else s <- rd d (off + pos + 4) (len - 4) ;; Ok (false, strip_nullbytes s)) ;;
    Ok (inl (u32 (id + 1), u32 (pos + len), zinsert id item m))
  else Ok (inr m).
(** resource_message_list_reader.cpp:31-91: one block. *)
Definition message_block (d : list Z) (i : Z) (m : list (Z * message)) : res (list (Z * message)) :=
  lo <- rd_le d (16 - 12 + 12 * i) 4 ;;
  hi <- rd_le d (16 - 12 + 12 * i + 4) 4 ;;
  off <- rd_le d (16 - 12 + 12 * i + 8) 4 ;;
  throw_if ((zlen d <? off) || (hi <? lo)) resource_incorrect_message_table ;;;
  mloop big_fuel (message_step d hi off) (lo, 0, m).
(** resource_message_list_reader.cpp:13-95 parse_message_list. *)
Definition parse_message_list (d : list Z) : res (list (Z * message)) :=
  throw_if (zlen d <? 16) resource_incorrect_message_table ;;;
  n <- rd_le d 0 4 ;;
  throw_if ((max_dword / 12 <=? n) || negb (is_sum_safe (u32 (n * 12)) 16) || (zlen d <? n * 12 + 16)) resource_incorrect_message_table ;;;
  mloop big_fuel (fun st : Z * list (Z * message) =>
    let '(i, m) := st in
    if i =? n then Ok (inr m) else m' <- message_block d i m ;; Ok (inl (u32 (i + 1), m'))) (0, []).

(** ** Bitmaps *)
(** resource_bitmap_writer.cpp:15-26: the resource data stored for a bitmap file. *)
Definition bitmap_data (file : list Z) : res (list Z) :=
  throw_if (zlen file <? 14) resource_incorrect_bitmap ;;; Ok (zdrop 14 file).
(** resource_bitmap_reader.cpp:39-64 create_bitmap. pow(2.f, n) is exact for n <= 8. *)
Definition create_bitmap (d : list Z) : res (list Z) :=
  throw_if (zlen d <? 40) resource_incorrect_bitmap ;;;
  clr <- rd_le d 32 4 ;;
  bits <- rd_le d 14 2 ;;
  let off := if negb (clr =? 0) then u32 (54 + u32 (4 * clr)) else if bits <=? 8 then u32 (54 + 4 * 2 ^ bits) else 54 in
  Ok (le 2 0x4d42 ++ le 4 (u32 (14 + zlen d)) ++ le 2 0 ++ le 2 0 ++ le 4 off ++ d).
