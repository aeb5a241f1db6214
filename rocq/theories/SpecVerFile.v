(** What the version information of a file says (C88). *)
From Coq Require Import String.
From Verif Require Export SpecVerAny SpecVerEdit.

(** The first table of the key [key] has [v] as the first string named [name]. *)
Definition says (cs : list version_child) (key name v : list Z) : Prop := exists raw, listed_first (all_tables cs) key raw /\ listed_first raw name v.
(** The table meant when none is named: 041904b0 if there is one, otherwise the first in the order of strings. *)
Definition default_key (cs : list version_child) (key : list Z) : Prop :=
  let keys := map fst (all_tables cs) in
  In key keys /\ (key = text "041904b0" \/ (~ In (text "041904b0") keys /\ forall k, In k keys -> k = key \/ str_before key k)).
(** The strings the getters and setters of the viewer and of the editor are about. *)
Definition documented_name (p : property) : list Z :=
  match p with
  | CompanyName => text "CompanyName" | FileDescription => text "FileDescription" | FileVersion => text "FileVersion" | InternalName => text "InternalName"
  | LegalCopyright => text "LegalCopyright" | OriginalFilename => text "OriginalFilename" | ProductName => text "ProductName" | ProductVersion => text "ProductVersion"
  end.

(** ** The numbers of VS_FIXEDFILEINFO (C65) *)
(** VOS_: the operating system in the upper half, the windowing system in the lower. *)
Definition os_number (o : file_os) : option Z :=
  let dos := 1 in let os216 := 2 in let os232 := 3 in let nt := 4 in let wince := 5 in
  let windows16 := 1 in let pm16 := 2 in let pm32 := 3 in let windows32 := 4 in
  let both := fun system windows => Some (65536 * system + windows) in
  match o with
  | os_unknown => None
  | os_dos => both dos 0 | os_os216 => both os216 0 | os_os232 => both os232 0 | os_nt => both nt 0 | os_wince => both wince 0
  | os_win16 => both 0 windows16 | os_pm16 => both 0 pm16 | os_pm32 => both 0 pm32 | os_win32 => both 0 windows32
  | os_dos_win16 => both dos windows16 | os_dos_win32 => both dos windows32 | os_os216_pm16 => both os216 pm16 | os_os232_pm32 => both os232 pm32 | os_nt_win32 => both nt windows32
  end.
(** VFT_. *)
Definition type_number (k : file_kind) : option Z :=
  match k with type_unknown => None | type_application => Some 1 | type_dll => Some 2 | type_driver => Some 3 | type_font => Some 4 | type_vxd => Some 5 | type_static_lib => Some 7 end.
(** VS_FF_: the bit. *)
Definition flag_number (f : file_flag) : Z := match f with Debug => 0 | Prerelease => 1 | Patched => 2 | PrivateBuild => 3 | InfoInferred => 4 | SpecialBuild => 5 end.
