(** Model of version_info_viewer.cpp, version_info_editor.cpp and file_version_info.h/.cpp. The objects hold references to the
    two maps, so the state is the pair of maps. The string streams are those of libstdc++ in the "C" locale. *)
From Verif Require Export VerModel.

(** ** Containers *)
(** std::map::find. *)
Fixpoint sfind {A} (k : list Z) (m : list (list Z * A)) : option A :=
  match m with [] => None | (k', v) :: t => if str_eqb k k' then Some v else sfind k t end.
(** std::map::operator[] and an assignment: a new key takes its place in the order. *)
Fixpoint sassign {A} (k : list Z) (v : A) (m : list (list Z * A)) : list (list Z * A) :=
  match m with
  | [] => [(k, v)]
  | (k', v') :: t => if str_ltb k k' then (k, v) :: m else if str_eqb k k' then (k', v) :: t else (k', v') :: sassign k v t
  end.
(** std::map::erase with a key. *)
Fixpoint serase {A} (k : list Z) (m : list (list Z * A)) : list (list Z * A) :=
  match m with [] => [] | (k', v') :: t => if str_eqb k k' then t else (k', v') :: serase k t end.

(** ** Translation strings *)
(** std::isspace in the "C" locale. *)
Definition is_space (c : Z) : bool := (c =? 32) || ((9 <=? c) && (c <=? 13)).
(** The digits std::num_get takes in base 16. *)
Definition hex_value (c : Z) : option Z :=
  if (48 <=? c) && (c <=? 57) then Some (c - 48)
  else if (97 <=? c) && (c <=? 102) then Some (c - 87)
  else if (65 <=? c) && (c <=? 70) then Some (c - 55)
  else None.
(** The blanks operator>> skips. *)
Fixpoint skip_spaces (s : list Z) : list Z := match s with c :: t => if is_space c then skip_spaces t else s | [] => [] end.
(** The number the leading digits make; [acc] is what was read. *)
Fixpoint hex_number (acc : Z) (s : list Z) : Z := match s with c :: t => match hex_value c with Some d => hex_number (acc * 16 + d) t | None => acc end | [] => acc end.
(** operator>>(uint32_t&) with std::hex: blanks, a sign, "0x", digits. Too many digits give the largest number; no digits give 0. *)
Definition skip_sign (s : list Z) : list Z := match s with c :: t => if (c =? 45) || (c =? 43) then t else s | [] => [] end.
(** The prefix that std::num_get takes in base 16. *)
Definition skip_0x (s : list Z) : list Z := match s with c :: x :: t => if (c =? 48) && ((x =? 120) || (x =? 88)) then t else s | _ => s end.
(** The whole of operator>>(uint32_t&) with std::hex. *)
Definition hex_input (s : list Z) : Z :=
  let s1 := skip_spaces s in
  let negative := match s1 with c :: _ => c =? 45 | [] => false end in
  let n := hex_number 0 (skip_0x (skip_sign s1)) in
  if 0xFFFFFFFF <? n then 0xFFFFFFFF else if negative then u32 (- n) else n.
(** version_info_viewer.cpp:146-158 translation_from_string. *)
Definition translation_from_string (s : list Z) : Z * Z := let id := hex_input s in (u16 (Z.shiftr id 16), u16 (Z.land id 0xFFFF)).
(** A digit as std::hex writes it. *)
Definition hex_digit (d : Z) : Z := if d <? 10 then 48 + d else 87 + d.
(** A 16-bit number written with std::hex, std::setw(4) and std::setfill(L'0'): never more than four digits. *)
Definition hex4 (n : Z) : list Z := [hex_digit (n / 4096 mod 16); hex_digit (n / 256 mod 16); hex_digit (n / 16 mod 16); hex_digit (n mod 16)].
(** version_info_viewer.cpp:79-83 and version_info_editor.cpp:142-145. *)
Definition translation_string (language codepage : Z) : list Z := hex4 language ++ hex4 codepage.
(** version_info_viewer.cpp:9, L"041904b0". *)
Definition default_translation : list Z := [48; 52; 49; 57; 48; 52; 98; 48].

(** ** Viewer *)
(** version_info_viewer.cpp:70-89 get_translation_list. *)
Definition get_translation_list (t : trans_map) : list (list Z) := map (fun e => translation_string (fst e) (snd e)) t.
(** The table a translation means: the viewer's 108-127. *)
Definition view_table (s : lang_map) (translation : list Z) : option (list (list Z * list Z)) :=
  match s with
  | [] => None
  | (_, first) :: _ => match translation with
                       | [] => match sfind default_translation s with Some m => Some m | None => Some first end
                       | _ => sfind translation s
                       end
  end.
(** version_info_viewer.cpp:95-143 get_property. *)
Definition get_property (s : lang_map) (name translation : list Z) (throw_if_absent : bool) : res (list Z) :=
  let absent := if throw_if_absent then Throw version_info_string_does_not_exist else Ok [] in
  match view_table s translation with
  | None => absent
  | Some m => match sfind name m with None => absent | Some v => Ok v end
  end.

(** ** Editor *)
(** version_info_editor.cpp:116-129 add_translation: the range of equal keys is searched. *)
Definition add_translation (t : trans_map) (language codepage : Z) : trans_map :=
  if existsb (fun e => (fst e =? language) && (snd e =? codepage)) t then t else multi_insert language codepage t.
(** version_info_editor.cpp:110-114. *)
Definition add_translation_string (t : trans_map) (translation : list Z) : trans_map :=
  let '(l, c) := translation_from_string translation in add_translation t l c.
(** version_info_editor.cpp:75-107 set_property: the table is found or made, then the property assigned. *)
Definition set_property (st : lang_map * trans_map) (name value translation : list Z) : lang_map * trans_map :=
  let '(s, t) := st in
  let '(key, (s1, t1)) :=
    match translation with
    | [] => match sfind default_translation s with
            | Some _ => (default_translation, (s, t))
            | None => match s with
                      | (k, _) :: _ => (k, (s, t))
                      | [] => (default_translation, (sinsert default_translation [] s, add_translation_string t default_translation))
                      end
            end
    | _ => match sfind translation s with
           | Some _ => (translation, (s, t))
           | None => (translation, (sinsert translation [] s, add_translation_string t translation))
           end
    end in
  (sassign key (sassign name value match sfind key s1 with Some m => m | None => [] end) s1, t1).
(** version_info_editor.cpp:153-161: the first pair found is erased. *)
Fixpoint erase_pair (language codepage : Z) (t : trans_map) : trans_map :=
  match t with [] => [] | (l, c) :: r => if (l =? language) && (c =? codepage) then r else (l, c) :: erase_pair language codepage r end.
(** version_info_editor.cpp:138-162 remove_translation. *)
Definition remove_translation (st : lang_map * trans_map) (language codepage : Z) : lang_map * trans_map :=
  (serase (translation_string language codepage) (fst st), erase_pair language codepage (snd st)).
(** version_info_editor.cpp:132-136. *)
Definition remove_translation_string (st : lang_map * trans_map) (translation : list Z) : lang_map * trans_map :=
  let '(l, c) := translation_from_string translation in remove_translation st l c.

(** ** The named properties *)
Inductive property := CompanyName | FileDescription | FileVersion | InternalName | LegalCopyright | OriginalFilename | ProductName | ProductVersion.
(** version_info_viewer.cpp:23-67: the name each getter asks for. *)
Definition getter_name (p : property) : list Z :=
  match p with
  | CompanyName => [67; 111; 109; 112; 97; 110; 121; 78; 97; 109; 101]
  | FileDescription => [70; 105; 108; 101; 68; 101; 115; 99; 114; 105; 112; 116; 105; 111; 110]
  | FileVersion => [70; 105; 108; 101; 86; 101; 114; 115; 105; 111; 110]
  | InternalName => [73; 110; 116; 101; 114; 110; 97; 108; 78; 97; 109; 101]
  | LegalCopyright => [76; 101; 103; 97; 108; 67; 111; 112; 121; 114; 105; 103; 104; 116]
  | OriginalFilename => [79; 114; 105; 103; 105; 110; 97; 108; 70; 105; 108; 101; 110; 97; 109; 101]
  | ProductName => [80; 114; 111; 100; 117; 99; 116; 78; 97; 109; 101]
  | ProductVersion => [80; 114; 111; 100; 117; 99; 116; 86; 101; 114; 115; 105; 111; 110]
  end.
(** version_info_editor.cpp:23-68: the name each setter sets. *)
Definition setter_name (p : property) : list Z :=
  match p with
  | CompanyName => [67; 111; 109; 112; 97; 110; 121; 78; 97; 109; 101]
  | FileDescription => [70; 105; 108; 101; 68; 101; 115; 99; 114; 105; 112; 116; 105; 111; 110]
  | FileVersion => [70; 105; 108; 101; 86; 101; 114; 115; 105; 111; 110]
  | InternalName => [73; 110; 116; 101; 114; 110; 97; 108; 78; 97; 109; 101]
  | LegalCopyright => [76; 101; 103; 97; 108; 67; 111; 112; 121; 114; 105; 103; 104; 116]
  | OriginalFilename => [79; 114; 105; 103; 105; 110; 97; 108; 70; 105; 108; 101; 110; 97; 109; 101]
  | ProductName => [80; 114; 111; 100; 117; 99; 116; 78; 97; 109; 101]
  | ProductVersion => [80; 114; 111; 100; 117; 99; 116; 86; 101; 114; 115; 105; 111; 110]
  end.
(** version_info_viewer.cpp: the getters of the named properties. *)
Definition get_named (s : lang_map) (p : property) (translation : list Z) : res (list Z) := get_property s (getter_name p) translation false.
(** version_info_editor.cpp: the setters of the named properties. *)
Definition set_named (st : lang_map * trans_map) (p : property) (value translation : list Z) : lang_map * trans_map := set_property st (setter_name p) value translation.

(** ** file_version_info *)
Inductive file_flag := Debug | Prerelease | Patched | PrivateBuild | InfoInferred | SpecialBuild.
(** pe_structures.h:202-207. *)
Definition flag_bits (f : file_flag) : Z :=
  match f with Debug => 1 | Prerelease => 2 | Patched => 4 | PrivateBuild => 8 | InfoInferred => 16 | SpecialBuild => 32 end.
(** Assignment to the field flags_. *)
Definition with_flags (i : file_info) (v : Z) : file_info :=
  mk_file_info (fi_version_ms i) (fi_version_ls i) (fi_product_ms i) (fi_product_ls i) v (fi_os i) (fi_type i) (fi_subtype i) (fi_date_ms i) (fi_date_ls i).
(** file_version_info.cpp:29-62, the six is_ functions. *)
Definition get_file_flag (i : file_info) (f : file_flag) : bool := negb (Z.land (fi_flags i) (flag_bits f) =? 0).
(** file_version_info.cpp:205-256, the six setters with set_file_flag and clear_file_flag. *)
Definition set_file_flag (i : file_info) (f : file_flag) (on : bool) : file_info :=
  with_flags i (if on then Z.lor (fi_flags i) (flag_bits f) else Z.land (fi_flags i) (u32 (Z.lnot (flag_bits f)))).

(** file_version_info.h:14-31. *)
Inductive file_os := os_unknown | os_dos | os_os216 | os_os232 | os_nt | os_wince | os_win16 | os_pm16 | os_pm32 | os_win32
  | os_dos_win16 | os_dos_win32 | os_os216_pm16 | os_os232_pm32 | os_nt_win32.
(** file_version_info.cpp:101-150 get_file_os, with pe_structures.h:210-227. *)
Definition get_file_os (i : file_info) : file_os :=
  let v := fi_os i in
  if v =? 0x10000 then os_dos else if v =? 0x20000 then os_os216 else if v =? 0x30000 then os_os232 else if v =? 0x40000 then os_nt
  else if v =? 0x50000 then os_wince else if v =? 1 then os_win16 else if v =? 2 then os_pm16 else if v =? 3 then os_pm32 else if v =? 4 then os_win32
  else if v =? 0x10001 then os_dos_win16 else if v =? 0x10004 then os_dos_win32 else if v =? 0x20002 then os_os216_pm16
  else if v =? 0x30003 then os_os232_pm32 else if v =? 0x40004 then os_nt_win32 else os_unknown.
(** Assignment to the field file_os_. *)
Definition with_os (i : file_info) (v : Z) : file_info :=
  mk_file_info (fi_version_ms i) (fi_version_ls i) (fi_product_ms i) (fi_product_ls i) (fi_flags i) v (fi_type i) (fi_subtype i) (fi_date_ms i) (fi_date_ls i).
(** file_version_info.cpp:295-359 set_file_os: any other value of the enumeration changes nothing. *)
Definition set_file_os (i : file_info) (o : file_os) : file_info :=
  match o with
  | os_dos => with_os i 0x10000 | os_os216 => with_os i 0x20000 | os_os232 => with_os i 0x30000 | os_nt => with_os i 0x40000
  | os_wince => with_os i 0x50000 | os_win16 => with_os i 1 | os_pm16 => with_os i 2 | os_pm32 => with_os i 3 | os_win32 => with_os i 4
  | os_dos_win16 => with_os i 0x10001 | os_dos_win32 => with_os i 0x10004 | os_os216_pm16 => with_os i 0x20002
  | os_os232_pm32 => with_os i 0x30003 | os_nt_win32 => with_os i 0x40004 | os_unknown => i
  end.
(** file_version_info.h:34-43. *)
Inductive file_kind := type_unknown | type_application | type_dll | type_driver | type_font | type_vxd | type_static_lib.
(** file_version_info.cpp:159-184 get_file_type. *)
Definition get_file_type (i : file_info) : file_kind :=
  let v := fi_type i in
  if v =? 1 then type_application else if v =? 2 then type_dll else if v =? 3 then type_driver else if v =? 4 then type_font
  else if v =? 5 then type_vxd else if v =? 7 then type_static_lib else type_unknown.
(** Assignment to the field file_type_. *)
Definition with_type (i : file_info) (v : Z) : file_info :=
  mk_file_info (fi_version_ms i) (fi_version_ls i) (fi_product_ms i) (fi_product_ls i) (fi_flags i) (fi_os i) v (fi_subtype i) (fi_date_ms i) (fi_date_ls i).
(** file_version_info.cpp:368-400 set_file_type. *)
Definition set_file_type (i : file_info) (k : file_kind) : file_info :=
  match k with
  | type_application => with_type i 1 | type_dll => with_type i 2 | type_driver => with_type i 3 | type_font => with_type i 4
  | type_vxd => with_type i 5 | type_static_lib => with_type i 7 | type_unknown => i
  end.
(** A 32-bit number as operator<< writes it: ten digits are enough. *)
Fixpoint decimal (n : nat) (v : Z) : list Z :=
  match n with O => [] | S k => (if v <? 10 then [] else decimal k (v / 10)) ++ [48 + v mod 10] end.
(** file_version_info.h:152-163 get_version_string. *)
Definition version_string (ms ls : Z) : list Z :=
  decimal 10 (Z.shiftr ms 16) ++ [46] ++ decimal 10 (Z.land ms 0xFFFF) ++ [46] ++ decimal 10 (Z.shiftr ls 16) ++ [46] ++ decimal 10 (Z.land ls 0xFFFF).
(** file_version_info.h:95-107. *)
Definition file_version_string (i : file_info) : list Z := version_string (fi_version_ms i) (fi_version_ls i).
(** file_version_info.h:101-106 get_product_version_string. *)
Definition product_version_string (i : file_info) : list Z := version_string (fi_product_ms i) (fi_product_ls i).
