(** Model of the accessors for single header values (pe_properties_generic.cpp, forwarded to by pe_base.cpp). *)
From Verif Require Export PeModel.

(** The queries of the interface for values of the NT headers. The last five have a 32-bit and a 64-bit form each. *)
Inductive query : Type :=
| QSignature | QMachine | QSections | QTimestamp | QOptionalSize | QCharacteristics | QMagic | QEntryPoint | QBaseOfCode | QSectionAlignment
| QFileAlignment | QMajorOs | QMinorOs | QMajorSubsystem | QMinorSubsystem | QImageSize | QHeadersSize | QChecksum | QSubsystem
| QDllCharacteristics | QDirectories | QImageBase | QStackReserve | QStackCommit | QHeapReserve | QHeapCommit.
(** pe_properties_generic.cpp:141-193, 253-370, 379-384, 400-412, 421-482, 523-528, 600-605: get_pe_signature, get_machine, get_number_of_sections,
    get_time_date_stamp, get_size_of_optional_header, get_characteristics, get_magic, get_ep, get_base_of_code, get_section_alignment,
    get_file_alignment, get_major_os_version, get_minor_os_version, get_major_subsystem_version, get_minor_subsystem_version,
    get_size_of_image, get_size_of_headers, get_checksum, get_subsystem, get_dll_characteristics, get_number_of_rvas_and_sizes,
    get_image_base_64, get_stack_size_reserve_64, get_stack_size_commit_64, get_heap_size_reserve_64, get_heap_size_commit_64. *)
Definition header_get (p : pe) (q : query) : Z :=
  let h := p_nt p in
  match q with
  | QSignature => h_signature h | QMachine => h_machine h | QSections => h_nsections h | QTimestamp => h_timestamp h
  | QOptionalSize => h_optsize h | QCharacteristics => h_chars h | QMagic => h_magic h | QEntryPoint => h_ep h | QBaseOfCode => h_basecode h
  | QSectionAlignment => h_salign h | QFileAlignment => h_falign h | QMajorOs => h_majos h | QMinorOs => h_minos h
  | QMajorSubsystem => h_majsub h | QMinorSubsystem => h_minsub h | QImageSize => h_imagesize h | QHeadersSize => h_hdrsize h
  | QChecksum => h_checksum h | QSubsystem => h_subsystem h | QDllCharacteristics => h_dllchars h | QDirectories => h_nrva h
  | QImageBase => h_imagebase h | QStackReserve => h_stackres h | QStackCommit => h_stackcom h | QHeapReserve => h_heapres h | QHeapCommit => h_heapcom h
  end.
(** pe_properties_generic.cpp:141-145, 253-257, 267-271, 281-285, 295-299: the 32-bit forms of the last five queries, a cast to uint32_t. *)
Definition header_get_32 (p : pe) (q : query) : Z := u32 (header_get p q).

(** The calls of the interface that change a value of the NT headers. *)
Inductive change : Type :=
| SetMachine (v : Z) | SetTimestamp (v : Z) | SetCharacteristics (v : Z) | SetFlags (v : Z) | ClearFlags (v : Z) | SetEntryPoint (v : Z)
| SetBaseOfCode (v : Z) | SetOsVersion (major minor : Z) | SetSubsystemVersion (major minor : Z) | SetChecksum (v : Z) | SetSubsystem (v : Z)
| SetDllCharacteristics (v : Z) | SetDirectories (v : Z) | SetImageBase (v : Z) | SetStackReserve (v : Z) | SetStackCommit (v : Z)
| SetHeapReserve (v : Z) | SetHeapCommit (v : Z).
(** PEClassType::BaseSize: static_cast to uint32_t or uint64_t, pe_properties_generic.cpp:164-168, pe_properties_generic.h:14-38 *)
Definition base_cast (p : pe) (v : Z) : Z := if p_plus p then u64 v else u32 v.
(** pe_properties_generic.cpp:155-181, 197-252, 323-329, 344-350, 365-398, 414-419, 442-449, 464-471, 593-598; pe_base.cpp:1100-1109:
    set_machine, set_time_date_stamp, set_characteristics, set_characteristics_flags, clear_characteristics_flags, set_ep, set_base_of_code,
    set_os_version, set_subsystem_version, set_checksum, set_subsystem, set_dll_characteristics, set_number_of_rvas_and_sizes,
    set_image_base and set_image_base_64, set_stack_size_reserve, set_stack_size_commit, set_heap_size_reserve, set_heap_size_commit with
    a 32-bit or 64-bit argument. The argument is one of the parameter's type. *)
Definition header_set (p : pe) (c : change) : pe :=
  match c with
  | SetMachine v => with_nt (set_h_machine v) p
  | SetTimestamp v => with_nt (set_h_timestamp v) p
  | SetCharacteristics v => set_characteristics v p
  | SetFlags v => set_characteristics_flags v p
  | ClearFlags v => clear_characteristics_flags v p
  | SetEntryPoint v => with_nt (set_h_ep v) p
  | SetBaseOfCode v => with_nt (set_h_basecode v) p
  | SetOsVersion major minor => with_nt (fun h => set_h_minos minor (set_h_majos major h)) p
  | SetSubsystemVersion major minor => with_nt (fun h => set_h_minsub minor (set_h_majsub major h)) p
  | SetChecksum v => with_nt (set_h_checksum v) p
  | SetSubsystem v => with_nt (set_h_subsystem v) p
  | SetDllCharacteristics v => with_nt (set_h_dllchars v) p
  | SetDirectories v => set_number_of_rvas_and_sizes v p
  | SetImageBase v => with_nt (set_h_imagebase (base_cast p v)) p
  | SetStackReserve v => with_nt (set_h_stackres (base_cast p v)) p
  | SetStackCommit v => with_nt (set_h_stackcom (base_cast p v)) p
  | SetHeapReserve v => with_nt (set_h_heapres (base_cast p v)) p
  | SetHeapCommit v => with_nt (set_h_heapcom (base_cast p v)) p
  end.

(** pe_structures.h:71 *)
Definition dir_security : Z := 4.
(** pe_structures.h:80 *)
Definition dir_delay_import : Z := 13.
(** The queries for directories: has_exports, has_imports, has_resources, has_exception_directory, has_security, has_reloc, has_debug, has_tls,
    has_config, has_bound_import, has_delay_import, is_dotnet. *)
Inductive has : Type := HasExports | HasImports | HasResources | HasExceptions | HasSecurity | HasReloc | HasDebug | HasTls | HasConfig | HasBoundImport | HasDelayImport | IsDotnet.
(** pe_base.cpp:547-618 *)
Definition has_query (p : pe) (q : has) : res bool :=
  match q with
  | HasImports => directory_exists p dir_import
  | HasExports => directory_exists p dir_export
  | HasResources => directory_exists p dir_resource
  | HasSecurity => directory_exists p dir_security
  | HasReloc => b <- directory_exists p dir_basereloc ;; Ok (b && (Z.land (chars p) image_file_relocs_stripped =? 0))
  | HasTls => directory_exists p dir_tls
  | HasConfig => directory_exists p dir_load_config
  | HasBoundImport => directory_exists p dir_bound_import
  | HasDelayImport => directory_exists p dir_delay_import
  | IsDotnet => directory_exists p dir_com
  | HasExceptions => directory_exists p dir_exception
  | HasDebug => directory_exists p dir_debug
  end.
(** pe_base.cpp:1129-1133 is_console *)
Definition is_console (p : pe) : bool := header_get p QSubsystem =? 3.
(** pe_base.cpp:1135-1139 is_gui *)
Definition is_gui (p : pe) : bool := header_get p QSubsystem =? 2.
(** pe_base.cpp:121-125 get_pe_header_start: an int32_t. *)
Definition pe_header_start (p : pe) : Z := if p_lfanew p <? 2^31 then p_lfanew p else p_lfanew p - 2^32.
