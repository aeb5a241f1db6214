(** Where the values of the NT headers are in a file (C76). *)
From Verif Require Export HeaderModel SpecLoad SpecRebuild.

(** Offset from the PE signature and size in bytes of a value: the "PE Format" specification's tables of the COFF file header and of the
    optional header, for PE32 and PE32+. *)
Definition place (plus : bool) (q : query) : Z * Z :=
  let word := if plus then 8 else 4 in
  match q with
  | QSignature => (0, 4) | QMachine => (4, 2) | QSections => (6, 2) | QTimestamp => (8, 4) | QOptionalSize => (20, 2) | QCharacteristics => (22, 2)
  | QMagic => (24, 2) | QEntryPoint => (40, 4) | QBaseOfCode => (44, 4) | QImageBase => (if plus then 48 else 52, word)
  | QSectionAlignment => (56, 4) | QFileAlignment => (60, 4) | QMajorOs => (64, 2) | QMinorOs => (66, 2) | QMajorSubsystem => (72, 2) | QMinorSubsystem => (74, 2)
  | QImageSize => (80, 4) | QHeadersSize => (84, 4) | QChecksum => (88, 4) | QSubsystem => (92, 2) | QDllCharacteristics => (94, 2)
  | QStackReserve => (96, word) | QStackCommit => (96 + word, word) | QHeapReserve => (96 + 2 * word, word) | QHeapCommit => (96 + 3 * word, word)
  | QDirectories => (100 + 4 * word, 4)
  end.
(** The value [q] of the NT headers at [off] of a file. *)
Definition header_value (file : list Z) (plus : bool) (off : Z) (q : query) : Z := le_at file (off + fst (place plus q)) (snd (place plus q)).
(** Address and presence of the directory [id] in the file. *)
Definition directory_rva_at (file : list Z) (plus : bool) (off id : Z) : Z := le_at file (off + (if plus then 136 else 120) + 8 * id) 4.
Definition directory_present (file : list Z) (plus : bool) (off id : Z) : bool := (id <? header_value file plus off QDirectories) && negb (directory_rva_at file plus off id =? 0).
Definition directory_number (q : has) : Z :=
  match q with HasExports => 0 | HasImports => 1 | HasResources => 2 | HasExceptions => 3 | HasSecurity => 4 | HasReloc => 5 | HasDebug => 6 | HasTls => 9 | HasConfig => 10 | HasBoundImport => 11 | HasDelayImport => 13 | IsDotnet => 14 end.

(** The arguments have the types of the parameters. *)
Definition arguments (c : change) : Prop :=
  match c with
  | SetMachine v | SetCharacteristics v | SetFlags v | ClearFlags v | SetSubsystem v | SetDllCharacteristics v => is_u16 v
  | SetOsVersion a b | SetSubsystemVersion a b => is_u16 a /\ is_u16 b
  | SetTimestamp v | SetEntryPoint v | SetBaseOfCode v | SetChecksum v | SetDirectories v => is_u32 v
  | SetImageBase v | SetStackReserve v | SetStackCommit v | SetHeapReserve v | SetHeapCommit v => is_u64 v
  end.
(** The value that a call gives to a query, if it is one that it changes; [word] is the size of a pointer. *)
Definition changed_to (plus : bool) (c : change) (q : query) (old : Z) : Z :=
  let cut v := if plus then v else v mod 2^32 in
  match c, q with
  | SetMachine v, QMachine => v
  | SetTimestamp v, QTimestamp => v
  | SetCharacteristics v, QCharacteristics => v
  | SetFlags v, QCharacteristics => Z.lor old v
  | ClearFlags v, QCharacteristics => Z.ldiff old v
  | SetEntryPoint v, QEntryPoint => v
  | SetBaseOfCode v, QBaseOfCode => v
  | SetOsVersion a _, QMajorOs => a
  | SetOsVersion _ b, QMinorOs => b
  | SetSubsystemVersion a _, QMajorSubsystem => a
  | SetSubsystemVersion _ b, QMinorSubsystem => b
  | SetChecksum v, QChecksum => v
  | SetSubsystem v, QSubsystem => v
  | SetDllCharacteristics v, QDllCharacteristics => v
  | SetDirectories v, QDirectories => v
  | SetImageBase v, QImageBase => cut v
  | SetStackReserve v, QStackReserve => cut v
  | SetStackCommit v, QStackCommit => cut v
  | SetHeapReserve v, QHeapReserve => cut v
  | SetHeapCommit v, QHeapCommit => cut v
  | _, _ => old
  end.
(** The values in a file written from the image [p]: those of [p], except for those that writing computes anew. *)
Definition written (strip change_headers save : bool) (p : pe) (q : query) : Z :=
  match q with
  | QSections => zlen (p_sections p)
  | QOptionalSize => nt_length p - 24
  | QImageSize => match rev (p_sections p) with s :: _ => send (salign p) s | [] => 0 end
  | QHeadersSize => if change_headers then data_start strip save p else header_get p QHeadersSize
  | QBaseOfCode => if strip then 16 else header_get p QBaseOfCode
  | _ => header_get p q
  end.
(** A call that gives the headers no more directories than they have room for. *)
Definition modest (c : change) : Prop := match c with SetDirectories v => v <= 16 | _ => True end.
