(** Model of the in-memory image: /repo/src/pe_lib/pe_properties_generic.cpp and the
    state, directory, address and section-editing parts of /repo/src/pe_lib/pe_base.cpp. *)
From Verif Require Export Base UtilsModel SectionModel.

(** image_nt_headers32/64 with their file and optional headers and the data directory array: pe_structures.h:276-378. [h_basedata] exists in PE32 only; for PE+ it stays 0 *)
Record nt_headers : Type := mk_nt {
  h_signature : Z;
  h_machine : Z;
  h_nsections : Z;
  h_timestamp : Z;
  h_symtab : Z;
  h_nsyms : Z;
  h_optsize : Z;
  h_chars : Z;
  h_magic : Z;
  h_majlink : Z;
  h_minlink : Z;
  h_code : Z;
  h_idata : Z;
  h_udata : Z;
  h_ep : Z;
  h_basecode : Z;
  h_basedata : Z;
  h_imagebase : Z;
  h_salign : Z;
  h_falign : Z;
  h_majos : Z;
  h_minos : Z;
  h_majimg : Z;
  h_minimg : Z;
  h_majsub : Z;
  h_minsub : Z;
  h_win32ver : Z;
  h_imagesize : Z;
  h_hdrsize : Z;
  h_checksum : Z;
  h_subsystem : Z;
  h_dllchars : Z;
  h_stackres : Z;
  h_stackcom : Z;
  h_heapres : Z;
  h_heapcom : Z;
  h_loaderflags : Z;
  h_nrva : Z;
  h_dirs : list (Z * Z)
}.
(** Assigns one field: pe_structures.h:368. *)
Definition set_h_signature (v : Z) (h : nt_headers) : nt_headers :=
  mk_nt v (h_machine h) (h_nsections h) (h_timestamp h) (h_symtab h) (h_nsyms h) (h_optsize h) (h_chars h) (h_magic h) (h_majlink h) (h_minlink h) (h_code h) (h_idata h) (h_udata h) (h_ep h) (h_basecode h) (h_basedata h) (h_imagebase h) (h_salign h) (h_falign h) (h_majos h) (h_minos h) (h_majimg h) (h_minimg h) (h_majsub h) (h_minsub h) (h_win32ver h) (h_imagesize h) (h_hdrsize h) (h_checksum h) (h_subsystem h) (h_dllchars h) (h_stackres h) (h_stackcom h) (h_heapres h) (h_heapcom h) (h_loaderflags h) (h_nrva h) (h_dirs h).
(** Assigns one field: pe_structures.h:357. *)
Definition set_h_machine (v : Z) (h : nt_headers) : nt_headers :=
  mk_nt (h_signature h) v (h_nsections h) (h_timestamp h) (h_symtab h) (h_nsyms h) (h_optsize h) (h_chars h) (h_magic h) (h_majlink h) (h_minlink h) (h_code h) (h_idata h) (h_udata h) (h_ep h) (h_basecode h) (h_basedata h) (h_imagebase h) (h_salign h) (h_falign h) (h_majos h) (h_minos h) (h_majimg h) (h_minimg h) (h_majsub h) (h_minsub h) (h_win32ver h) (h_imagesize h) (h_hdrsize h) (h_checksum h) (h_subsystem h) (h_dllchars h) (h_stackres h) (h_stackcom h) (h_heapres h) (h_heapcom h) (h_loaderflags h) (h_nrva h) (h_dirs h).
(** Assigns one field: pe_structures.h:358. *)
Definition set_h_nsections (v : Z) (h : nt_headers) : nt_headers :=
  mk_nt (h_signature h) (h_machine h) v (h_timestamp h) (h_symtab h) (h_nsyms h) (h_optsize h) (h_chars h) (h_magic h) (h_majlink h) (h_minlink h) (h_code h) (h_idata h) (h_udata h) (h_ep h) (h_basecode h) (h_basedata h) (h_imagebase h) (h_salign h) (h_falign h) (h_majos h) (h_minos h) (h_majimg h) (h_minimg h) (h_majsub h) (h_minsub h) (h_win32ver h) (h_imagesize h) (h_hdrsize h) (h_checksum h) (h_subsystem h) (h_dllchars h) (h_stackres h) (h_stackcom h) (h_heapres h) (h_heapcom h) (h_loaderflags h) (h_nrva h) (h_dirs h).
(** Assigns one field: pe_structures.h:359. *)
Definition set_h_timestamp (v : Z) (h : nt_headers) : nt_headers :=
  mk_nt (h_signature h) (h_machine h) (h_nsections h) v (h_symtab h) (h_nsyms h) (h_optsize h) (h_chars h) (h_magic h) (h_majlink h) (h_minlink h) (h_code h) (h_idata h) (h_udata h) (h_ep h) (h_basecode h) (h_basedata h) (h_imagebase h) (h_salign h) (h_falign h) (h_majos h) (h_minos h) (h_majimg h) (h_minimg h) (h_majsub h) (h_minsub h) (h_win32ver h) (h_imagesize h) (h_hdrsize h) (h_checksum h) (h_subsystem h) (h_dllchars h) (h_stackres h) (h_stackcom h) (h_heapres h) (h_heapcom h) (h_loaderflags h) (h_nrva h) (h_dirs h).
(** Assigns one field: pe_structures.h:360. *)
Definition set_h_symtab (v : Z) (h : nt_headers) : nt_headers :=
  mk_nt (h_signature h) (h_machine h) (h_nsections h) (h_timestamp h) v (h_nsyms h) (h_optsize h) (h_chars h) (h_magic h) (h_majlink h) (h_minlink h) (h_code h) (h_idata h) (h_udata h) (h_ep h) (h_basecode h) (h_basedata h) (h_imagebase h) (h_salign h) (h_falign h) (h_majos h) (h_minos h) (h_majimg h) (h_minimg h) (h_majsub h) (h_minsub h) (h_win32ver h) (h_imagesize h) (h_hdrsize h) (h_checksum h) (h_subsystem h) (h_dllchars h) (h_stackres h) (h_stackcom h) (h_heapres h) (h_heapcom h) (h_loaderflags h) (h_nrva h) (h_dirs h).
(** Assigns one field: pe_structures.h:361. *)
Definition set_h_nsyms (v : Z) (h : nt_headers) : nt_headers :=
  mk_nt (h_signature h) (h_machine h) (h_nsections h) (h_timestamp h) (h_symtab h) v (h_optsize h) (h_chars h) (h_magic h) (h_majlink h) (h_minlink h) (h_code h) (h_idata h) (h_udata h) (h_ep h) (h_basecode h) (h_basedata h) (h_imagebase h) (h_salign h) (h_falign h) (h_majos h) (h_minos h) (h_majimg h) (h_minimg h) (h_majsub h) (h_minsub h) (h_win32ver h) (h_imagesize h) (h_hdrsize h) (h_checksum h) (h_subsystem h) (h_dllchars h) (h_stackres h) (h_stackcom h) (h_heapres h) (h_heapcom h) (h_loaderflags h) (h_nrva h) (h_dirs h).
(** Assigns one field: pe_structures.h:362. *)
Definition set_h_optsize (v : Z) (h : nt_headers) : nt_headers :=
  mk_nt (h_signature h) (h_machine h) (h_nsections h) (h_timestamp h) (h_symtab h) (h_nsyms h) v (h_chars h) (h_magic h) (h_majlink h) (h_minlink h) (h_code h) (h_idata h) (h_udata h) (h_ep h) (h_basecode h) (h_basedata h) (h_imagebase h) (h_salign h) (h_falign h) (h_majos h) (h_minos h) (h_majimg h) (h_minimg h) (h_majsub h) (h_minsub h) (h_win32ver h) (h_imagesize h) (h_hdrsize h) (h_checksum h) (h_subsystem h) (h_dllchars h) (h_stackres h) (h_stackcom h) (h_heapres h) (h_heapcom h) (h_loaderflags h) (h_nrva h) (h_dirs h).
(** Assigns one field: pe_structures.h:363. *)
Definition set_h_chars (v : Z) (h : nt_headers) : nt_headers :=
  mk_nt (h_signature h) (h_machine h) (h_nsections h) (h_timestamp h) (h_symtab h) (h_nsyms h) (h_optsize h) v (h_magic h) (h_majlink h) (h_minlink h) (h_code h) (h_idata h) (h_udata h) (h_ep h) (h_basecode h) (h_basedata h) (h_imagebase h) (h_salign h) (h_falign h) (h_majos h) (h_minos h) (h_majimg h) (h_minimg h) (h_majsub h) (h_minsub h) (h_win32ver h) (h_imagesize h) (h_hdrsize h) (h_checksum h) (h_subsystem h) (h_dllchars h) (h_stackres h) (h_stackcom h) (h_heapres h) (h_heapcom h) (h_loaderflags h) (h_nrva h) (h_dirs h).
(** Assigns one field: pe_structures.h:286. *)
Definition set_h_magic (v : Z) (h : nt_headers) : nt_headers :=
  mk_nt (h_signature h) (h_machine h) (h_nsections h) (h_timestamp h) (h_symtab h) (h_nsyms h) (h_optsize h) (h_chars h) v (h_majlink h) (h_minlink h) (h_code h) (h_idata h) (h_udata h) (h_ep h) (h_basecode h) (h_basedata h) (h_imagebase h) (h_salign h) (h_falign h) (h_majos h) (h_minos h) (h_majimg h) (h_minimg h) (h_majsub h) (h_minsub h) (h_win32ver h) (h_imagesize h) (h_hdrsize h) (h_checksum h) (h_subsystem h) (h_dllchars h) (h_stackres h) (h_stackcom h) (h_heapres h) (h_heapcom h) (h_loaderflags h) (h_nrva h) (h_dirs h).
(** Assigns one field: pe_structures.h:287. *)
Definition set_h_majlink (v : Z) (h : nt_headers) : nt_headers :=
  mk_nt (h_signature h) (h_machine h) (h_nsections h) (h_timestamp h) (h_symtab h) (h_nsyms h) (h_optsize h) (h_chars h) (h_magic h) v (h_minlink h) (h_code h) (h_idata h) (h_udata h) (h_ep h) (h_basecode h) (h_basedata h) (h_imagebase h) (h_salign h) (h_falign h) (h_majos h) (h_minos h) (h_majimg h) (h_minimg h) (h_majsub h) (h_minsub h) (h_win32ver h) (h_imagesize h) (h_hdrsize h) (h_checksum h) (h_subsystem h) (h_dllchars h) (h_stackres h) (h_stackcom h) (h_heapres h) (h_heapcom h) (h_loaderflags h) (h_nrva h) (h_dirs h).
(** Assigns one field: pe_structures.h:288. *)
Definition set_h_minlink (v : Z) (h : nt_headers) : nt_headers :=
  mk_nt (h_signature h) (h_machine h) (h_nsections h) (h_timestamp h) (h_symtab h) (h_nsyms h) (h_optsize h) (h_chars h) (h_magic h) (h_majlink h) v (h_code h) (h_idata h) (h_udata h) (h_ep h) (h_basecode h) (h_basedata h) (h_imagebase h) (h_salign h) (h_falign h) (h_majos h) (h_minos h) (h_majimg h) (h_minimg h) (h_majsub h) (h_minsub h) (h_win32ver h) (h_imagesize h) (h_hdrsize h) (h_checksum h) (h_subsystem h) (h_dllchars h) (h_stackres h) (h_stackcom h) (h_heapres h) (h_heapcom h) (h_loaderflags h) (h_nrva h) (h_dirs h).
(** Assigns one field: pe_structures.h:289. *)
Definition set_h_code (v : Z) (h : nt_headers) : nt_headers :=
  mk_nt (h_signature h) (h_machine h) (h_nsections h) (h_timestamp h) (h_symtab h) (h_nsyms h) (h_optsize h) (h_chars h) (h_magic h) (h_majlink h) (h_minlink h) v (h_idata h) (h_udata h) (h_ep h) (h_basecode h) (h_basedata h) (h_imagebase h) (h_salign h) (h_falign h) (h_majos h) (h_minos h) (h_majimg h) (h_minimg h) (h_majsub h) (h_minsub h) (h_win32ver h) (h_imagesize h) (h_hdrsize h) (h_checksum h) (h_subsystem h) (h_dllchars h) (h_stackres h) (h_stackcom h) (h_heapres h) (h_heapcom h) (h_loaderflags h) (h_nrva h) (h_dirs h).
(** Assigns one field: pe_structures.h:290. *)
Definition set_h_idata (v : Z) (h : nt_headers) : nt_headers :=
  mk_nt (h_signature h) (h_machine h) (h_nsections h) (h_timestamp h) (h_symtab h) (h_nsyms h) (h_optsize h) (h_chars h) (h_magic h) (h_majlink h) (h_minlink h) (h_code h) v (h_udata h) (h_ep h) (h_basecode h) (h_basedata h) (h_imagebase h) (h_salign h) (h_falign h) (h_majos h) (h_minos h) (h_majimg h) (h_minimg h) (h_majsub h) (h_minsub h) (h_win32ver h) (h_imagesize h) (h_hdrsize h) (h_checksum h) (h_subsystem h) (h_dllchars h) (h_stackres h) (h_stackcom h) (h_heapres h) (h_heapcom h) (h_loaderflags h) (h_nrva h) (h_dirs h).
(** Assigns one field: pe_structures.h:291. *)
Definition set_h_udata (v : Z) (h : nt_headers) : nt_headers :=
  mk_nt (h_signature h) (h_machine h) (h_nsections h) (h_timestamp h) (h_symtab h) (h_nsyms h) (h_optsize h) (h_chars h) (h_magic h) (h_majlink h) (h_minlink h) (h_code h) (h_idata h) v (h_ep h) (h_basecode h) (h_basedata h) (h_imagebase h) (h_salign h) (h_falign h) (h_majos h) (h_minos h) (h_majimg h) (h_minimg h) (h_majsub h) (h_minsub h) (h_win32ver h) (h_imagesize h) (h_hdrsize h) (h_checksum h) (h_subsystem h) (h_dllchars h) (h_stackres h) (h_stackcom h) (h_heapres h) (h_heapcom h) (h_loaderflags h) (h_nrva h) (h_dirs h).
(** Assigns one field: pe_structures.h:292. *)
Definition set_h_ep (v : Z) (h : nt_headers) : nt_headers :=
  mk_nt (h_signature h) (h_machine h) (h_nsections h) (h_timestamp h) (h_symtab h) (h_nsyms h) (h_optsize h) (h_chars h) (h_magic h) (h_majlink h) (h_minlink h) (h_code h) (h_idata h) (h_udata h) v (h_basecode h) (h_basedata h) (h_imagebase h) (h_salign h) (h_falign h) (h_majos h) (h_minos h) (h_majimg h) (h_minimg h) (h_majsub h) (h_minsub h) (h_win32ver h) (h_imagesize h) (h_hdrsize h) (h_checksum h) (h_subsystem h) (h_dllchars h) (h_stackres h) (h_stackcom h) (h_heapres h) (h_heapcom h) (h_loaderflags h) (h_nrva h) (h_dirs h).
(** Assigns one field: pe_structures.h:293. *)
Definition set_h_basecode (v : Z) (h : nt_headers) : nt_headers :=
  mk_nt (h_signature h) (h_machine h) (h_nsections h) (h_timestamp h) (h_symtab h) (h_nsyms h) (h_optsize h) (h_chars h) (h_magic h) (h_majlink h) (h_minlink h) (h_code h) (h_idata h) (h_udata h) (h_ep h) v (h_basedata h) (h_imagebase h) (h_salign h) (h_falign h) (h_majos h) (h_minos h) (h_majimg h) (h_minimg h) (h_majsub h) (h_minsub h) (h_win32ver h) (h_imagesize h) (h_hdrsize h) (h_checksum h) (h_subsystem h) (h_dllchars h) (h_stackres h) (h_stackcom h) (h_heapres h) (h_heapcom h) (h_loaderflags h) (h_nrva h) (h_dirs h).
(** Assigns one field: pe_structures.h:294. *)
Definition set_h_basedata (v : Z) (h : nt_headers) : nt_headers :=
  mk_nt (h_signature h) (h_machine h) (h_nsections h) (h_timestamp h) (h_symtab h) (h_nsyms h) (h_optsize h) (h_chars h) (h_magic h) (h_majlink h) (h_minlink h) (h_code h) (h_idata h) (h_udata h) (h_ep h) (h_basecode h) v (h_imagebase h) (h_salign h) (h_falign h) (h_majos h) (h_minos h) (h_majimg h) (h_minimg h) (h_majsub h) (h_minsub h) (h_win32ver h) (h_imagesize h) (h_hdrsize h) (h_checksum h) (h_subsystem h) (h_dllchars h) (h_stackres h) (h_stackcom h) (h_heapres h) (h_heapcom h) (h_loaderflags h) (h_nrva h) (h_dirs h).
(** Assigns one field: pe_structures.h:297. *)
Definition set_h_imagebase (v : Z) (h : nt_headers) : nt_headers :=
  mk_nt (h_signature h) (h_machine h) (h_nsections h) (h_timestamp h) (h_symtab h) (h_nsyms h) (h_optsize h) (h_chars h) (h_magic h) (h_majlink h) (h_minlink h) (h_code h) (h_idata h) (h_udata h) (h_ep h) (h_basecode h) (h_basedata h) v (h_salign h) (h_falign h) (h_majos h) (h_minos h) (h_majimg h) (h_minimg h) (h_majsub h) (h_minsub h) (h_win32ver h) (h_imagesize h) (h_hdrsize h) (h_checksum h) (h_subsystem h) (h_dllchars h) (h_stackres h) (h_stackcom h) (h_heapres h) (h_heapcom h) (h_loaderflags h) (h_nrva h) (h_dirs h).
(** Assigns one field: pe_structures.h:298. *)
Definition set_h_salign (v : Z) (h : nt_headers) : nt_headers :=
  mk_nt (h_signature h) (h_machine h) (h_nsections h) (h_timestamp h) (h_symtab h) (h_nsyms h) (h_optsize h) (h_chars h) (h_magic h) (h_majlink h) (h_minlink h) (h_code h) (h_idata h) (h_udata h) (h_ep h) (h_basecode h) (h_basedata h) (h_imagebase h) v (h_falign h) (h_majos h) (h_minos h) (h_majimg h) (h_minimg h) (h_majsub h) (h_minsub h) (h_win32ver h) (h_imagesize h) (h_hdrsize h) (h_checksum h) (h_subsystem h) (h_dllchars h) (h_stackres h) (h_stackcom h) (h_heapres h) (h_heapcom h) (h_loaderflags h) (h_nrva h) (h_dirs h).
(** Assigns one field: pe_structures.h:299. *)
Definition set_h_falign (v : Z) (h : nt_headers) : nt_headers :=
  mk_nt (h_signature h) (h_machine h) (h_nsections h) (h_timestamp h) (h_symtab h) (h_nsyms h) (h_optsize h) (h_chars h) (h_magic h) (h_majlink h) (h_minlink h) (h_code h) (h_idata h) (h_udata h) (h_ep h) (h_basecode h) (h_basedata h) (h_imagebase h) (h_salign h) v (h_majos h) (h_minos h) (h_majimg h) (h_minimg h) (h_majsub h) (h_minsub h) (h_win32ver h) (h_imagesize h) (h_hdrsize h) (h_checksum h) (h_subsystem h) (h_dllchars h) (h_stackres h) (h_stackcom h) (h_heapres h) (h_heapcom h) (h_loaderflags h) (h_nrva h) (h_dirs h).
(** Assigns one field: pe_structures.h:300. *)
Definition set_h_majos (v : Z) (h : nt_headers) : nt_headers :=
  mk_nt (h_signature h) (h_machine h) (h_nsections h) (h_timestamp h) (h_symtab h) (h_nsyms h) (h_optsize h) (h_chars h) (h_magic h) (h_majlink h) (h_minlink h) (h_code h) (h_idata h) (h_udata h) (h_ep h) (h_basecode h) (h_basedata h) (h_imagebase h) (h_salign h) (h_falign h) v (h_minos h) (h_majimg h) (h_minimg h) (h_majsub h) (h_minsub h) (h_win32ver h) (h_imagesize h) (h_hdrsize h) (h_checksum h) (h_subsystem h) (h_dllchars h) (h_stackres h) (h_stackcom h) (h_heapres h) (h_heapcom h) (h_loaderflags h) (h_nrva h) (h_dirs h).
(** Assigns one field: pe_structures.h:301. *)
Definition set_h_minos (v : Z) (h : nt_headers) : nt_headers :=
  mk_nt (h_signature h) (h_machine h) (h_nsections h) (h_timestamp h) (h_symtab h) (h_nsyms h) (h_optsize h) (h_chars h) (h_magic h) (h_majlink h) (h_minlink h) (h_code h) (h_idata h) (h_udata h) (h_ep h) (h_basecode h) (h_basedata h) (h_imagebase h) (h_salign h) (h_falign h) (h_majos h) v (h_majimg h) (h_minimg h) (h_majsub h) (h_minsub h) (h_win32ver h) (h_imagesize h) (h_hdrsize h) (h_checksum h) (h_subsystem h) (h_dllchars h) (h_stackres h) (h_stackcom h) (h_heapres h) (h_heapcom h) (h_loaderflags h) (h_nrva h) (h_dirs h).
(** Assigns one field: pe_structures.h:302. *)
Definition set_h_majimg (v : Z) (h : nt_headers) : nt_headers :=
  mk_nt (h_signature h) (h_machine h) (h_nsections h) (h_timestamp h) (h_symtab h) (h_nsyms h) (h_optsize h) (h_chars h) (h_magic h) (h_majlink h) (h_minlink h) (h_code h) (h_idata h) (h_udata h) (h_ep h) (h_basecode h) (h_basedata h) (h_imagebase h) (h_salign h) (h_falign h) (h_majos h) (h_minos h) v (h_minimg h) (h_majsub h) (h_minsub h) (h_win32ver h) (h_imagesize h) (h_hdrsize h) (h_checksum h) (h_subsystem h) (h_dllchars h) (h_stackres h) (h_stackcom h) (h_heapres h) (h_heapcom h) (h_loaderflags h) (h_nrva h) (h_dirs h).
(** Assigns one field: pe_structures.h:303. *)
Definition set_h_minimg (v : Z) (h : nt_headers) : nt_headers :=
  mk_nt (h_signature h) (h_machine h) (h_nsections h) (h_timestamp h) (h_symtab h) (h_nsyms h) (h_optsize h) (h_chars h) (h_magic h) (h_majlink h) (h_minlink h) (h_code h) (h_idata h) (h_udata h) (h_ep h) (h_basecode h) (h_basedata h) (h_imagebase h) (h_salign h) (h_falign h) (h_majos h) (h_minos h) (h_majimg h) v (h_majsub h) (h_minsub h) (h_win32ver h) (h_imagesize h) (h_hdrsize h) (h_checksum h) (h_subsystem h) (h_dllchars h) (h_stackres h) (h_stackcom h) (h_heapres h) (h_heapcom h) (h_loaderflags h) (h_nrva h) (h_dirs h).
(** Assigns one field: pe_structures.h:304. *)
Definition set_h_majsub (v : Z) (h : nt_headers) : nt_headers :=
  mk_nt (h_signature h) (h_machine h) (h_nsections h) (h_timestamp h) (h_symtab h) (h_nsyms h) (h_optsize h) (h_chars h) (h_magic h) (h_majlink h) (h_minlink h) (h_code h) (h_idata h) (h_udata h) (h_ep h) (h_basecode h) (h_basedata h) (h_imagebase h) (h_salign h) (h_falign h) (h_majos h) (h_minos h) (h_majimg h) (h_minimg h) v (h_minsub h) (h_win32ver h) (h_imagesize h) (h_hdrsize h) (h_checksum h) (h_subsystem h) (h_dllchars h) (h_stackres h) (h_stackcom h) (h_heapres h) (h_heapcom h) (h_loaderflags h) (h_nrva h) (h_dirs h).
(** Assigns one field: pe_structures.h:305. *)
Definition set_h_minsub (v : Z) (h : nt_headers) : nt_headers :=
  mk_nt (h_signature h) (h_machine h) (h_nsections h) (h_timestamp h) (h_symtab h) (h_nsyms h) (h_optsize h) (h_chars h) (h_magic h) (h_majlink h) (h_minlink h) (h_code h) (h_idata h) (h_udata h) (h_ep h) (h_basecode h) (h_basedata h) (h_imagebase h) (h_salign h) (h_falign h) (h_majos h) (h_minos h) (h_majimg h) (h_minimg h) (h_majsub h) v (h_win32ver h) (h_imagesize h) (h_hdrsize h) (h_checksum h) (h_subsystem h) (h_dllchars h) (h_stackres h) (h_stackcom h) (h_heapres h) (h_heapcom h) (h_loaderflags h) (h_nrva h) (h_dirs h).
(** Assigns one field: pe_structures.h:306. *)
Definition set_h_win32ver (v : Z) (h : nt_headers) : nt_headers :=
  mk_nt (h_signature h) (h_machine h) (h_nsections h) (h_timestamp h) (h_symtab h) (h_nsyms h) (h_optsize h) (h_chars h) (h_magic h) (h_majlink h) (h_minlink h) (h_code h) (h_idata h) (h_udata h) (h_ep h) (h_basecode h) (h_basedata h) (h_imagebase h) (h_salign h) (h_falign h) (h_majos h) (h_minos h) (h_majimg h) (h_minimg h) (h_majsub h) (h_minsub h) v (h_imagesize h) (h_hdrsize h) (h_checksum h) (h_subsystem h) (h_dllchars h) (h_stackres h) (h_stackcom h) (h_heapres h) (h_heapcom h) (h_loaderflags h) (h_nrva h) (h_dirs h).
(** Assigns one field: pe_structures.h:307. *)
Definition set_h_imagesize (v : Z) (h : nt_headers) : nt_headers :=
  mk_nt (h_signature h) (h_machine h) (h_nsections h) (h_timestamp h) (h_symtab h) (h_nsyms h) (h_optsize h) (h_chars h) (h_magic h) (h_majlink h) (h_minlink h) (h_code h) (h_idata h) (h_udata h) (h_ep h) (h_basecode h) (h_basedata h) (h_imagebase h) (h_salign h) (h_falign h) (h_majos h) (h_minos h) (h_majimg h) (h_minimg h) (h_majsub h) (h_minsub h) (h_win32ver h) v (h_hdrsize h) (h_checksum h) (h_subsystem h) (h_dllchars h) (h_stackres h) (h_stackcom h) (h_heapres h) (h_heapcom h) (h_loaderflags h) (h_nrva h) (h_dirs h).
(** Assigns one field: pe_structures.h:308. *)
Definition set_h_hdrsize (v : Z) (h : nt_headers) : nt_headers :=
  mk_nt (h_signature h) (h_machine h) (h_nsections h) (h_timestamp h) (h_symtab h) (h_nsyms h) (h_optsize h) (h_chars h) (h_magic h) (h_majlink h) (h_minlink h) (h_code h) (h_idata h) (h_udata h) (h_ep h) (h_basecode h) (h_basedata h) (h_imagebase h) (h_salign h) (h_falign h) (h_majos h) (h_minos h) (h_majimg h) (h_minimg h) (h_majsub h) (h_minsub h) (h_win32ver h) (h_imagesize h) v (h_checksum h) (h_subsystem h) (h_dllchars h) (h_stackres h) (h_stackcom h) (h_heapres h) (h_heapcom h) (h_loaderflags h) (h_nrva h) (h_dirs h).
(** Assigns one field: pe_structures.h:309. *)
Definition set_h_checksum (v : Z) (h : nt_headers) : nt_headers :=
  mk_nt (h_signature h) (h_machine h) (h_nsections h) (h_timestamp h) (h_symtab h) (h_nsyms h) (h_optsize h) (h_chars h) (h_magic h) (h_majlink h) (h_minlink h) (h_code h) (h_idata h) (h_udata h) (h_ep h) (h_basecode h) (h_basedata h) (h_imagebase h) (h_salign h) (h_falign h) (h_majos h) (h_minos h) (h_majimg h) (h_minimg h) (h_majsub h) (h_minsub h) (h_win32ver h) (h_imagesize h) (h_hdrsize h) v (h_subsystem h) (h_dllchars h) (h_stackres h) (h_stackcom h) (h_heapres h) (h_heapcom h) (h_loaderflags h) (h_nrva h) (h_dirs h).
(** Assigns one field: pe_structures.h:310. *)
Definition set_h_subsystem (v : Z) (h : nt_headers) : nt_headers :=
  mk_nt (h_signature h) (h_machine h) (h_nsections h) (h_timestamp h) (h_symtab h) (h_nsyms h) (h_optsize h) (h_chars h) (h_magic h) (h_majlink h) (h_minlink h) (h_code h) (h_idata h) (h_udata h) (h_ep h) (h_basecode h) (h_basedata h) (h_imagebase h) (h_salign h) (h_falign h) (h_majos h) (h_minos h) (h_majimg h) (h_minimg h) (h_majsub h) (h_minsub h) (h_win32ver h) (h_imagesize h) (h_hdrsize h) (h_checksum h) v (h_dllchars h) (h_stackres h) (h_stackcom h) (h_heapres h) (h_heapcom h) (h_loaderflags h) (h_nrva h) (h_dirs h).
(** Assigns one field: pe_structures.h:311. *)
Definition set_h_dllchars (v : Z) (h : nt_headers) : nt_headers :=
  mk_nt (h_signature h) (h_machine h) (h_nsections h) (h_timestamp h) (h_symtab h) (h_nsyms h) (h_optsize h) (h_chars h) (h_magic h) (h_majlink h) (h_minlink h) (h_code h) (h_idata h) (h_udata h) (h_ep h) (h_basecode h) (h_basedata h) (h_imagebase h) (h_salign h) (h_falign h) (h_majos h) (h_minos h) (h_majimg h) (h_minimg h) (h_majsub h) (h_minsub h) (h_win32ver h) (h_imagesize h) (h_hdrsize h) (h_checksum h) (h_subsystem h) v (h_stackres h) (h_stackcom h) (h_heapres h) (h_heapcom h) (h_loaderflags h) (h_nrva h) (h_dirs h).
(** Assigns one field: pe_structures.h:312. *)
Definition set_h_stackres (v : Z) (h : nt_headers) : nt_headers :=
  mk_nt (h_signature h) (h_machine h) (h_nsections h) (h_timestamp h) (h_symtab h) (h_nsyms h) (h_optsize h) (h_chars h) (h_magic h) (h_majlink h) (h_minlink h) (h_code h) (h_idata h) (h_udata h) (h_ep h) (h_basecode h) (h_basedata h) (h_imagebase h) (h_salign h) (h_falign h) (h_majos h) (h_minos h) (h_majimg h) (h_minimg h) (h_majsub h) (h_minsub h) (h_win32ver h) (h_imagesize h) (h_hdrsize h) (h_checksum h) (h_subsystem h) (h_dllchars h) v (h_stackcom h) (h_heapres h) (h_heapcom h) (h_loaderflags h) (h_nrva h) (h_dirs h).
(** Assigns one field: pe_structures.h:313. *)
Definition set_h_stackcom (v : Z) (h : nt_headers) : nt_headers :=
  mk_nt (h_signature h) (h_machine h) (h_nsections h) (h_timestamp h) (h_symtab h) (h_nsyms h) (h_optsize h) (h_chars h) (h_magic h) (h_majlink h) (h_minlink h) (h_code h) (h_idata h) (h_udata h) (h_ep h) (h_basecode h) (h_basedata h) (h_imagebase h) (h_salign h) (h_falign h) (h_majos h) (h_minos h) (h_majimg h) (h_minimg h) (h_majsub h) (h_minsub h) (h_win32ver h) (h_imagesize h) (h_hdrsize h) (h_checksum h) (h_subsystem h) (h_dllchars h) (h_stackres h) v (h_heapres h) (h_heapcom h) (h_loaderflags h) (h_nrva h) (h_dirs h).
(** Assigns one field: pe_structures.h:314. *)
Definition set_h_heapres (v : Z) (h : nt_headers) : nt_headers :=
  mk_nt (h_signature h) (h_machine h) (h_nsections h) (h_timestamp h) (h_symtab h) (h_nsyms h) (h_optsize h) (h_chars h) (h_magic h) (h_majlink h) (h_minlink h) (h_code h) (h_idata h) (h_udata h) (h_ep h) (h_basecode h) (h_basedata h) (h_imagebase h) (h_salign h) (h_falign h) (h_majos h) (h_minos h) (h_majimg h) (h_minimg h) (h_majsub h) (h_minsub h) (h_win32ver h) (h_imagesize h) (h_hdrsize h) (h_checksum h) (h_subsystem h) (h_dllchars h) (h_stackres h) (h_stackcom h) v (h_heapcom h) (h_loaderflags h) (h_nrva h) (h_dirs h).
(** Assigns one field: pe_structures.h:315. *)
Definition set_h_heapcom (v : Z) (h : nt_headers) : nt_headers :=
  mk_nt (h_signature h) (h_machine h) (h_nsections h) (h_timestamp h) (h_symtab h) (h_nsyms h) (h_optsize h) (h_chars h) (h_magic h) (h_majlink h) (h_minlink h) (h_code h) (h_idata h) (h_udata h) (h_ep h) (h_basecode h) (h_basedata h) (h_imagebase h) (h_salign h) (h_falign h) (h_majos h) (h_minos h) (h_majimg h) (h_minimg h) (h_majsub h) (h_minsub h) (h_win32ver h) (h_imagesize h) (h_hdrsize h) (h_checksum h) (h_subsystem h) (h_dllchars h) (h_stackres h) (h_stackcom h) (h_heapres h) v (h_loaderflags h) (h_nrva h) (h_dirs h).
(** Assigns one field: pe_structures.h:316. *)
Definition set_h_loaderflags (v : Z) (h : nt_headers) : nt_headers :=
  mk_nt (h_signature h) (h_machine h) (h_nsections h) (h_timestamp h) (h_symtab h) (h_nsyms h) (h_optsize h) (h_chars h) (h_magic h) (h_majlink h) (h_minlink h) (h_code h) (h_idata h) (h_udata h) (h_ep h) (h_basecode h) (h_basedata h) (h_imagebase h) (h_salign h) (h_falign h) (h_majos h) (h_minos h) (h_majimg h) (h_minimg h) (h_majsub h) (h_minsub h) (h_win32ver h) (h_imagesize h) (h_hdrsize h) (h_checksum h) (h_subsystem h) (h_dllchars h) (h_stackres h) (h_stackcom h) (h_heapres h) (h_heapcom h) v (h_nrva h) (h_dirs h).
(** Assigns one field: pe_structures.h:317. *)
Definition set_h_nrva (v : Z) (h : nt_headers) : nt_headers :=
  mk_nt (h_signature h) (h_machine h) (h_nsections h) (h_timestamp h) (h_symtab h) (h_nsyms h) (h_optsize h) (h_chars h) (h_magic h) (h_majlink h) (h_minlink h) (h_code h) (h_idata h) (h_udata h) (h_ep h) (h_basecode h) (h_basedata h) (h_imagebase h) (h_salign h) (h_falign h) (h_majos h) (h_minos h) (h_majimg h) (h_minimg h) (h_majsub h) (h_minsub h) (h_win32ver h) (h_imagesize h) (h_hdrsize h) (h_checksum h) (h_subsystem h) (h_dllchars h) (h_stackres h) (h_stackcom h) (h_heapres h) (h_heapcom h) (h_loaderflags h) v (h_dirs h).
(** Assigns one field: pe_structures.h:318. *)
Definition set_h_dirs (v : list (Z * Z)) (h : nt_headers) : nt_headers :=
  mk_nt (h_signature h) (h_machine h) (h_nsections h) (h_timestamp h) (h_symtab h) (h_nsyms h) (h_optsize h) (h_chars h) (h_magic h) (h_majlink h) (h_minlink h) (h_code h) (h_idata h) (h_udata h) (h_ep h) (h_basecode h) (h_basedata h) (h_imagebase h) (h_salign h) (h_falign h) (h_majos h) (h_minos h) (h_majimg h) (h_minimg h) (h_majsub h) (h_minsub h) (h_win32ver h) (h_imagesize h) (h_hdrsize h) (h_checksum h) (h_subsystem h) (h_dllchars h) (h_stackres h) (h_stackcom h) (h_heapres h) (h_heapcom h) (h_loaderflags h) (h_nrva h) v.
(** Field widths of the NT headers without the data directories: PE32 then PE+ (pe_structures.h:283-378). *)
Definition nt_widths (plus : bool) : list nat :=
  if plus then [4; 2; 2; 4; 4; 4; 2; 2; 2; 1; 1; 4; 4; 4; 4; 4; 8; 4; 4; 2; 2; 2; 2; 2; 2; 4; 4; 4; 4; 2; 2; 8; 8; 8; 8; 4; 4]%nat
  else [4; 2; 2; 4; 4; 4; 2; 2; 2; 1; 1; 4; 4; 4; 4; 4; 4; 4; 4; 4; 2; 2; 2; 2; 2; 2; 4; 4; 4; 4; 2; 2; 4; 4; 4; 4; 4; 4]%nat.
(** The header structure as the list of its fields, in memory order (pe_structures.h:283-378). *)
Definition nt_fields (plus : bool) (h : nt_headers) : list Z :=
  if plus then [h_signature h; h_machine h; h_nsections h; h_timestamp h; h_symtab h; h_nsyms h; h_optsize h; h_chars h; h_magic h; h_majlink h; h_minlink h; h_code h; h_idata h; h_udata h; h_ep h; h_basecode h; h_imagebase h; h_salign h; h_falign h; h_majos h; h_minos h; h_majimg h; h_minimg h; h_majsub h; h_minsub h; h_win32ver h; h_imagesize h; h_hdrsize h; h_checksum h; h_subsystem h; h_dllchars h; h_stackres h; h_stackcom h; h_heapres h; h_heapcom h; h_loaderflags h; h_nrva h]
  else [h_signature h; h_machine h; h_nsections h; h_timestamp h; h_symtab h; h_nsyms h; h_optsize h; h_chars h; h_magic h; h_majlink h; h_minlink h; h_code h; h_idata h; h_udata h; h_ep h; h_basecode h; h_basedata h; h_imagebase h; h_salign h; h_falign h; h_majos h; h_minos h; h_majimg h; h_minimg h; h_majsub h; h_minsub h; h_win32ver h; h_imagesize h; h_hdrsize h; h_checksum h; h_subsystem h; h_dllchars h; h_stackres h; h_stackcom h; h_heapres h; h_heapcom h; h_loaderflags h; h_nrva h].
(** The header structure from its fields (inverse of [nt_fields]). *)
Definition nt_of_fields (plus : bool) (l : list Z) (dirs : list (Z * Z)) : nt_headers :=
  let f i := nth i l 0 in
  if plus then mk_nt (f 0%nat) (f 1%nat) (f 2%nat) (f 3%nat) (f 4%nat) (f 5%nat) (f 6%nat) (f 7%nat) (f 8%nat) (f 9%nat) (f 10%nat) (f 11%nat) (f 12%nat) (f 13%nat) (f 14%nat) (f 15%nat) 0 (f 16%nat) (f 17%nat) (f 18%nat) (f 19%nat) (f 20%nat) (f 21%nat) (f 22%nat) (f 23%nat) (f 24%nat) (f 25%nat) (f 26%nat) (f 27%nat) (f 28%nat) (f 29%nat) (f 30%nat) (f 31%nat) (f 32%nat) (f 33%nat) (f 34%nat) (f 35%nat) (f 36%nat) dirs
  else mk_nt (f 0%nat) (f 1%nat) (f 2%nat) (f 3%nat) (f 4%nat) (f 5%nat) (f 6%nat) (f 7%nat) (f 8%nat) (f 9%nat) (f 10%nat) (f 11%nat) (f 12%nat) (f 13%nat) (f 14%nat) (f 15%nat) (f 16%nat) (f 17%nat) (f 18%nat) (f 19%nat) (f 20%nat) (f 21%nat) (f 22%nat) (f 23%nat) (f 24%nat) (f 25%nat) (f 26%nat) (f 27%nat) (f 28%nat) (f 29%nat) (f 30%nat) (f 31%nat) (f 32%nat) (f 33%nat) (f 34%nat) (f 35%nat) (f 36%nat) (f 37%nat) dirs.

(** class pe_base: dos_header_ (e_magic, the 58 bytes between it and e_lfanew, e_lfanew as its 32-bit pattern), rich_overlay_, props_, sections_, has_overlay_, full_headers_data_, debug_data_: pe_base.h:484-497 *)
Record pe : Type := mk_pe {
  p_plus : bool;
  p_magic : Z;
  p_dosmid : list Z;
  p_lfanew : Z;
  p_stub : list Z;
  p_nt : nt_headers;
  p_sections : list section;
  p_overlay : bool;
  p_full : list Z;
  p_debug : list (Z * list Z)
}.
(** Assigns one field: pe_base.h:497. *)
Definition set_p_plus (v : bool) (h : pe) : pe :=
  mk_pe v (p_magic h) (p_dosmid h) (p_lfanew h) (p_stub h) (p_nt h) (p_sections h) (p_overlay h) (p_full h) (p_debug h).
(** Assigns one field: pe_base.h:484. *)
Definition set_p_magic (v : Z) (h : pe) : pe :=
  mk_pe (p_plus h) v (p_dosmid h) (p_lfanew h) (p_stub h) (p_nt h) (p_sections h) (p_overlay h) (p_full h) (p_debug h).
(** Assigns one field: pe_base.h:484. *)
Definition set_p_dosmid (v : list Z) (h : pe) : pe :=
  mk_pe (p_plus h) (p_magic h) v (p_lfanew h) (p_stub h) (p_nt h) (p_sections h) (p_overlay h) (p_full h) (p_debug h).
(** Assigns one field: pe_base.h:484. *)
Definition set_p_lfanew (v : Z) (h : pe) : pe :=
  mk_pe (p_plus h) (p_magic h) (p_dosmid h) v (p_stub h) (p_nt h) (p_sections h) (p_overlay h) (p_full h) (p_debug h).
(** Assigns one field: pe_base.h:486. *)
Definition set_p_stub (v : list Z) (h : pe) : pe :=
  mk_pe (p_plus h) (p_magic h) (p_dosmid h) (p_lfanew h) v (p_nt h) (p_sections h) (p_overlay h) (p_full h) (p_debug h).
(** Assigns one field: pe_base.h:497. *)
Definition set_p_nt (v : nt_headers) (h : pe) : pe :=
  mk_pe (p_plus h) (p_magic h) (p_dosmid h) (p_lfanew h) (p_stub h) v (p_sections h) (p_overlay h) (p_full h) (p_debug h).
(** Assigns one field: pe_base.h:488. *)
Definition set_p_sections (v : list section) (h : pe) : pe :=
  mk_pe (p_plus h) (p_magic h) (p_dosmid h) (p_lfanew h) (p_stub h) (p_nt h) v (p_overlay h) (p_full h) (p_debug h).
(** Assigns one field: pe_base.h:490. *)
Definition set_p_overlay (v : bool) (h : pe) : pe :=
  mk_pe (p_plus h) (p_magic h) (p_dosmid h) (p_lfanew h) (p_stub h) (p_nt h) (p_sections h) v (p_full h) (p_debug h).
(** Assigns one field: pe_base.h:492. *)
Definition set_p_full (v : list Z) (h : pe) : pe :=
  mk_pe (p_plus h) (p_magic h) (p_dosmid h) (p_lfanew h) (p_stub h) (p_nt h) (p_sections h) (p_overlay h) v (p_debug h).
(** Assigns one field: pe_base.h:495. *)
Definition set_p_debug (v : list (Z * list Z)) (h : pe) : pe :=
  mk_pe (p_plus h) (p_magic h) (p_dosmid h) (p_lfanew h) (p_stub h) (p_nt h) (p_sections h) (p_overlay h) (p_full h) v.

(** * Header getters and setters on the image *)
(** pe_base.cpp:173-177 *)
Definition salign (p : pe) : Z := h_salign (p_nt p).
(** pe_base.cpp:227-231 *)
Definition falign (p : pe) : Z := h_falign (p_nt p).
(** pe_base.cpp:268-272 *)
Definition nrva (p : pe) : Z := h_nrva (p_nt p).
(** pe_base.cpp:1312-1316 *)
Definition hdrsize (p : pe) : Z := h_hdrsize (p_nt p).
(** pe_base.cpp:250-254 *)
Definition imagesize (p : pe) : Z := h_imagesize (p_nt p).
(** pe_base.cpp:280-284 *)
Definition chars (p : pe) : Z := h_chars (p_nt p).
(** pe_base.cpp:1342-1352 *)
Definition imagebase (p : pe) : Z := h_imagebase (p_nt p).
(** Applies a header assignment to the image (all setters of pe_base forward to
    props_: pe_base.cpp:274-290, 1606-1664). *)
Definition with_nt (f : nt_headers -> nt_headers) (p : pe) : pe := set_p_nt (f (p_nt p)) p.
(** pe_base.cpp:1606-1610 *)
Definition set_number_of_sections (n : Z) : pe -> pe := with_nt (set_h_nsections n).
(** pe_base.cpp:1612-1616 *)
Definition set_size_of_image (n : Z) : pe -> pe := with_nt (set_h_imagesize n).
(** pe_base.cpp:1618-1622 *)
Definition set_size_of_headers (n : Z) : pe -> pe := with_nt (set_h_hdrsize n).
(** pe_base.cpp:286-290 *)
Definition set_characteristics (n : Z) : pe -> pe := with_nt (set_h_chars n).
(** pe_base.cpp:274-278 *)
Definition set_number_of_rvas_and_sizes (n : Z) : pe -> pe := with_nt (set_h_nrva n).
(** pe_base.cpp:1105-1109, pe_properties.cpp *)
Definition set_characteristics_flags (f : Z) (p : pe) : pe := set_characteristics (Z.lor (chars p) f) p.
(** pe_base.cpp:1099-1103, pe_properties.cpp *)
Definition clear_characteristics_flags (f : Z) (p : pe) : pe :=
  set_characteristics (Z.land (chars p) (u16 (Z.lnot f))) p.
(** pe_base.cpp:1111-1115 *)
Definition check_characteristics_flag (f : Z) (p : pe) : bool := negb (Z.land (chars p) f =? 0).

(** * Data directories *)
(** pe_structures.h:20 *)
Definition image_numberof_directory_entries : Z := 16.
(** pe_structures.h:67-81: directory indices. *)
Definition dir_export : Z := 0.
(** pe_structures.h:68 *)
Definition dir_import : Z := 1.
(** pe_structures.h:69 *)
Definition dir_resource : Z := 2.
(** pe_structures.h:70 *)
Definition dir_exception : Z := 3.
(** pe_structures.h:72 *)
Definition dir_basereloc : Z := 5.
(** pe_structures.h:73 *)
Definition dir_debug : Z := 6.
(** pe_structures.h:76 *)
Definition dir_tls : Z := 9.
(** pe_structures.h:77 *)
Definition dir_load_config : Z := 10.
(** pe_structures.h:78 *)
Definition dir_bound_import : Z := 11.
(** pe_structures.h:79 *)
Definition dir_iat : Z := 12.
(** pe_structures.h:81 *)
Definition dir_com : Z := 14.
(** pe_structures.h:37,49,26 *)
Definition image_file_relocs_stripped : Z := 0x0001.
(** pe_structures.h:49 *)
Definition image_file_dll : Z := 0x2000.
(** pe_structures.h:26 *)
Definition image_dllcharacteristics_dynamic_base : Z := 0x0040.

(** pe_properties_generic.cpp:43-49 directory_exists: unsigned NumberOfRvaAndSizes - 1,
    unchecked index into the 16-entry array. *)
Definition directory_exists (p : pe) (id : Z) : res bool :=
  if id <=? u32 (nrva p - 1) then
    d <- nth_ub (h_dirs (p_nt p)) id ;; Ok (negb (fst d =? 0))
  else Ok false.
(** pe_properties_generic.cpp:72-81 get_directory_rva. *)
Definition get_directory_rva (p : pe) (id : Z) : res Z :=
  throw_if (nrva p <=? id) directory_does_not_exist ;;;
  d <- nth_ub (h_dirs (p_nt p)) id ;; Ok (fst d).
(** pe_properties_generic.cpp:104-113 get_directory_size. *)
Definition get_directory_size (p : pe) (id : Z) : res Z :=
  throw_if (nrva p <=? id) directory_does_not_exist ;;;
  d <- nth_ub (h_dirs (p_nt p)) id ;; Ok (snd d).
(** Store of one directory entry (pe_properties_generic.cpp:57-58, 91, 101). *)
Definition store_dir (p : pe) (id : Z) (d : Z * Z) : pe :=
  with_nt (fun h => set_h_dirs (upd (h_dirs h) (Z.to_nat id) d) h) p.
(** pe_properties_generic.cpp:83-92 set_directory_rva. *)
Definition set_directory_rva (p : pe) (id rva : Z) : res pe :=
  throw_if (nrva p <=? id) directory_does_not_exist ;;;
  d <- nth_ub (h_dirs (p_nt p)) id ;; Ok (store_dir p id (rva, snd d)).
(** pe_properties_generic.cpp:94-102 set_directory_size. *)
Definition set_directory_size (p : pe) (id size : Z) : res pe :=
  throw_if (nrva p <=? id) directory_does_not_exist ;;;
  d <- nth_ub (h_dirs (p_nt p)) id ;; Ok (store_dir p id (fst d, size)).
(** pe_properties_generic.cpp:51-70 remove_directory. *)
Definition remove_directory (p : pe) (id : Z) : res pe :=
  ex <- directory_exists p id ;;
  if ex then
    let p1 := store_dir p id (0, 0) in
    Ok (if id =? dir_basereloc then
          with_nt (fun h => set_h_dllchars
                     (Z.land (h_dllchars h) (u16 (Z.lnot image_dllcharacteristics_dynamic_base))) h)
            (set_characteristics_flags image_file_relocs_stripped p1)
        else if id =? dir_export then clear_characteristics_flags image_file_dll p1
        else p1)
  else Ok p.
(** pe_properties_generic.cpp:121-132: the loop of strip_data_directories from index
    [i] = [k] - 1 downwards; the result is the index (plus one) at which it stops.
    [min_count] is compared as a signed int. *)
Fixpoint strip_dirs_loop (dirs : list (Z * Z)) (k : nat) (min_count : Z) (strip_iat : bool) : res Z :=
  match k with
  | O => Ok 0
  | S i =>
    d <- nth_ub dirs (Z.of_nat i) ;;
    if negb (fst d =? 0) && (negb (Z.of_nat i =? dir_iat) || negb strip_iat) then Ok (Z.of_nat k)
    else if Z.of_nat i <=? s32 min_count - 2 then Ok (Z.of_nat k)
    else strip_dirs_loop dirs i min_count strip_iat
  end.
(** pe_properties_generic.cpp:115-139 strip_data_directories. Counts above 16 (only
    reachable by set_number_of_rvas_and_sizes) read outside the array. *)
Definition strip_data_directories (p : pe) (min_count : Z) (strip_iat : bool) : res (pe * Z) :=
  if nrva p <=? 16 then
    k <- strip_dirs_loop (h_dirs (p_nt p)) (Z.to_nat (nrva p)) min_count strip_iat ;;
    if k =? image_numberof_directory_entries then Ok (p, image_numberof_directory_entries)
    else Ok (set_number_of_rvas_and_sizes k p, k)
  else if nrva p <=? 2^31 then Ub BadIndex
  else (* the int index is negative: the loop is not entered; returns i + 1 *)
    Ok (p, nrva p).
(** pe_base.cpp:572-576 has_reloc. *)
Definition has_reloc (p : pe) : res bool :=
  ex <- directory_exists p dir_basereloc ;;
  Ok (ex && negb (check_characteristics_flag image_file_relocs_stripped p)).

(** * VA / RVA *)
(** pe_properties_generic.cpp:486-504 va_to_rva (both overloads compute in 64 bits). *)
Definition va_to_rva (p : pe) (va : Z) (bound_check : bool) : res Z :=
  throw_if (bound_check && (max_dword <? u64 (va - imagebase p))) incorrect_address_conversion ;;;
  Ok (u32 (va - imagebase p)).
(** pe_properties_generic.cpp:506-514 rva_to_va_32. *)
Definition rva_to_va_32 (p : pe) (rva : Z) : res Z :=
  throw_if (negb (is_sum_safe rva (u32 (imagebase p)))) incorrect_address_conversion ;;;
  Ok (u32 (rva + imagebase p)).
(** pe_properties_generic.cpp:516-521 rva_to_va_64. *)
Definition rva_to_va_64 (p : pe) (rva : Z) : res Z := Ok (u64 (rva + imagebase p)).

(** * Section lookup *)
(** pe_base.cpp:300: the range test used by all lookups (32-bit sum). *)
Definition in_section (sa rva : Z) (s : section) : bool :=
  (s_va s <=? rva) && (rva <? u32 (s_va s + aligned_vsize sa s)).
(** std::find_if over the section list, giving the index. *)
Fixpoint find_index {A} (f : A -> bool) (l : list A) : option nat :=
  match l with
  | [] => None
  | x :: t => if f x then Some O else option_map S (find_index f t)
  end.
(** pe_base.cpp:292-320 section_from_rva: index of the section found. *)
Definition section_from_rva (p : pe) (rva : Z) : res nat :=
  match find_index (in_section (salign p) rva) (p_sections p) with
  | Some i => Ok i
  | None => Throw no_section_found
  end.
(** The section object at an index; an index that is not attached is outside the model. *)
Definition get_section (p : pe) (i : nat) : res section :=
  match nth_error (p_sections p) i with Some s => Ok s | None => Ub BadIndex end.
(** Store of a section object. *)
Definition put_section (p : pe) (i : nat) (s : section) : pe := set_p_sections (upd (p_sections p) i s) p.
(** pe_base.cpp:322-332 section_from_directory. *)
Definition section_from_directory (p : pe) (id : Z) : res nat :=
  rva <- get_directory_rva p id ;; section_from_rva p rva.
(** pe_base.cpp:498-502 section_attached (sections are identified by index). *)
Definition section_attached (p : pe) (i : nat) : bool := Nat.ltb i (length (p_sections p)).

(** section_data_type, pe_base.h *)
Inductive datatype := RawData | VirtData.
(** Bytes seen for a data type (pe_base.h:374, 395; pe_base.cpp:640, 755). *)
Definition view (p : pe) (s : section) (ty : datatype) : list Z :=
  match ty with RawData => raw_view s | VirtData => virt_view (salign p) s end.

(** pe_base.h:368-383 section_data_from_rva<T>(s, rva, datatype), T of [n] bytes. *)
Definition read_in_section (p : pe) (s : section) (rva n : Z) (ty : datatype) : res (list Z) :=
  if in_section (salign p) rva s && is_sum_safe rva n then
    throw_if (zlen (view p s ty) <? u32 (rva - s_va s) + n) rva_not_exists ;;;
    rd (view p s ty) (rva - s_va s) n
  else Throw rva_not_exists.
(** pe_base.h:385-401 section_data_from_rva<T>(rva, datatype, include_headers). *)
Definition read_rva (p : pe) (rva n : Z) (ty : datatype) (hdrs : bool) : res (list Z) :=
  if hdrs && is_sum_safe rva n && (rva + n <? zlen (p_full p)) then rd (p_full p) rva n
  else
    i <- section_from_rva p rva ;;
    s <- get_section p i ;;
    throw_if (zlen (view p s ty) <? u32 (rva - s_va s) + n) rva_not_exists ;;;
    rd (view p s ty) (rva - s_va s) n.
(** pe_base.h:416-428 section_data_from_va<T>. *)
Definition read_va (p : pe) (va n : Z) (ty : datatype) (hdrs : bool) : res (list Z) :=
  rva <- va_to_rva p va true ;; read_rva p rva n ty hdrs.

(** A C++ char pointer into a buffer: the buffer and the offset. *)
Definition ptr : Type := (list Z * Z)%type.
(** pe_base.cpp:747-756 section_data_from_rva(rva, datatype, include_headers) const. *)
Definition ptr_rva (p : pe) (rva : Z) (ty : datatype) (hdrs : bool) : res ptr :=
  if hdrs && (rva <? zlen (p_full p)) then Ok (p_full p, rva)
  else
    i <- section_from_rva p rva ;;
    s <- get_section p i ;;
    Ok (view p s ty, rva - s_va s).
(** pe_base.cpp:635-643 section_data_from_rva(s, rva, datatype) const. *)
Definition ptr_in_section (p : pe) (s : section) (rva : Z) (ty : datatype) : res ptr :=
  if in_section (salign p) rva s then Ok (view p s ty, rva - s_va s) else Throw rva_not_exists.
(** pe_base.cpp:732-745 section_data_from_rva(rva, include_headers), writable pointer. *)
Definition ptr_rva_mut (p : pe) (rva : Z) (hdrs : bool) : res ptr :=
  if hdrs && (rva <? zlen (p_full p)) then Ok (p_full p, rva)
  else
    i <- section_from_rva p rva ;;
    s <- get_section p i ;;
    throw_if (zlen (raw_view s) =? 0) section_is_empty ;;;
    Ok (raw_view s, rva - s_va s).
(** pe_base.cpp:620-633 section_data_from_rva(s, rva), writable pointer. *)
Definition ptr_in_section_mut (p : pe) (s : section) (rva : Z) : res ptr :=
  if in_section (salign p) rva s then
    throw_if (zlen (raw_view s) =? 0) section_is_empty ;;;
    Ok (raw_view s, rva - s_va s)
  else Throw rva_not_exists.

(** pe_base.cpp:653,680,708: length of the data of a section for a data type. *)
Definition data_length (p : pe) (s : section) (ty : datatype) : Z :=
  match ty with RawData => zlen (raw_view s) | VirtData => aligned_vsize (salign p) s end.
(** pe_base.cpp:645-654 section_data_length_from_rva(rva, datatype, include_headers). *)
Definition length_rva_total (p : pe) (rva : Z) (ty : datatype) (hdrs : bool) : res Z :=
  if hdrs && (rva <? zlen (p_full p)) then Ok (u32 (zlen (p_full p)))
  else i <- section_from_rva p rva ;; s <- get_section p i ;; Ok (u32 (data_length p s ty)).
(** pe_base.cpp:668-687 section_data_length_from_rva(rva, rva_inside, datatype, include_headers). *)
Definition length_rva (p : pe) (rva rva_inside : Z) (ty : datatype) (hdrs : bool) : res Z :=
  if hdrs && (rva <? zlen (p_full p)) && (rva_inside <? zlen (p_full p))
  then Ok (u32 (zlen (p_full p) - rva_inside))
  else
    i <- section_from_rva p rva ;;
    s <- get_section p i ;;
    throw_if (rva_inside <? s_va s) rva_not_exists ;;;
    let length := data_length p s ty + s_va s - rva_inside in
    Ok (if length <? 0 then 0 else u32 length).
(** pe_base.cpp:701-718 section_data_length_from_rva(s, rva_inside, datatype): int32_t result. *)
Definition length_in_section (p : pe) (s : section) (rva_inside : Z) (ty : datatype) : res Z :=
  if in_section (salign p) rva_inside s then
    let length := s32 (data_length p s ty + s_va s - rva_inside) in
    Ok (if length <? 0 then 0 else length)
  else Throw rva_not_exists.

(** * File offsets *)
(** pe_base.cpp:1376-1394 file_offset_to_section. *)
Definition file_offset_to_section (p : pe) (offset : Z) : res nat :=
  match find_index (has_raw_offset offset) (p_sections p) with
  | Some i => Ok i
  | None => Throw no_section_found
  end.
(** pe_base.cpp:1354-1363 rva_to_file_offset. *)
Definition rva_to_file_offset (p : pe) (rva : Z) : res Z :=
  if rva <? hdrsize p then Ok rva
  else i <- section_from_rva p rva ;; s <- get_section p i ;;
       Ok (u32 (s_rawptr s + rva - s_va s)).
(** pe_base.cpp:1365-1374 file_offset_to_rva. *)
Definition file_offset_to_rva (p : pe) (offset : Z) : res Z :=
  if offset <? hdrsize p then Ok offset
  else i <- file_offset_to_section p offset ;; s <- get_section p i ;;
       Ok (u32 (offset - s_rawptr s + s_va s)).
(** pe_base.cpp:1396-1400 rva_from_section_offset. *)
Definition rva_from_section_offset (s : section) (off : Z) : Z := u32 (s_va s + off).

(** * Editing sections *)
(** pe_base.cpp:165-171 update_number_of_sections. *)
Definition update_number_of_sections (p : pe) : pe :=
  set_number_of_sections (u16 (zlen (p_sections p))) p.
(** pe_base.cpp:390-398 update_image_size. *)
Definition update_image_size (p : pe) : pe :=
  match rev (p_sections p) with
  | [] => set_size_of_image (hdrsize p) p
  | s :: _ => set_size_of_image (u32 (s_va s + aligned_vsize (salign p) s)) p
  end.

(** pe_base.cpp:191-225 realign_section. *)
Definition realign_section (p : pe) (index : nat) : res pe :=
  throw_if (negb (Nat.ltb index (length (p_sections p)))) section_not_found ;;;
  s0 <- get_section p index ;;
  let s := unmap_virtual s0 in
  let d := s_data s in
  if Nat.eqb index (length (p_sections p) - 1) then
    let n := zlen d - trailing0_count d in
    Ok (put_section p index (set_s_data (resize d n) (set_s_rawsize (u32 n) s)))
  else
    let n := aligned_rawsize (falign p) s in
    Ok (put_section p index (set_s_data (resize d n) (set_s_rawsize n s))).
(** pe_base.cpp:152-157 realign_all_sections. *)
Definition realign_all_sections (p : pe) : res pe :=
  mfold realign_section (seq 0 (length (p_sections p))) p.
(** pe_base.h:516 *)
Definition minimum_file_alignment : Z := 512.
(** pe_base.cpp:233-248 set_file_alignment. *)
Definition set_file_alignment (p : pe) (a : Z) : res pe :=
  throw_if (a <? minimum_file_alignment) incorrect_file_alignment ;;;
  throw_if (negb (is_power_of_2 a)) incorrect_file_alignment ;;;
  throw_if (salign p <? a) incorrect_file_alignment ;;;
  Ok (with_nt (set_h_falign a) p).
(** pe_base.cpp:1555-1561 realign_file. *)
Definition realign_file (p : pe) (a : Z) : res pe :=
  p1 <- set_file_alignment p a ;; realign_all_sections p1.

(** pe_base.cpp:339,369: the section is not one of those before the last one. *)
Definition not_last (p : pe) (i : nat) : bool :=
  Nat.eqb (length (p_sections p)) 0 || Nat.ltb i (length (p_sections p) - 1).
(** pe_base.cpp:334-360 set_section_virtual_size for an attached section. *)
Definition set_section_virtual_size (p : pe) (i : nat) (vsize : Z) : res pe :=
  throw_if (not_last p i) error_changing_section_virtual_size ;;;
  s <- get_section p i ;;
  if vsize =? 0 then
    throw_if (sec_empty s) error_changing_section_virtual_size ;;;
    Ok (update_image_size (put_section p i (set_s_vsize (s_rawsize s) s)))
  else Ok (update_image_size (put_section p i (set_s_vsize vsize s))).

(** pe_base.cpp:436-458 prepare_section. *)
Definition prepare_section (fa sa : Z) (s0 : section) : res section :=
  let s1 := unmap_virtual s0 in
  let s2 := set_s_rawsize (u32 (align_up64 (zlen (s_data s1)) fa)) s1 in
  throw_if ((s_rawsize s2 =? 0) && (s_vsize s2 =? 0)) zero_section_sizes ;;;
  Ok (if s_vsize s2 =? 0 then set_s_vsize (s_rawsize s2) s2
      else set_s_vsize (Z.max (align_up (s_rawsize s2) fa) (align_up (s_vsize s2) sa)) s2).
(** pe_base.cpp:1576-1583: index at which the stripping loop stops; at least one byte is kept. *)
Definition strip_keep1 (d : list Z) : list Z :=
  if zlen d =? 0 then d else ztake (Z.max 1 (zlen d - trailing0_count d)) d.
(** pe_base.cpp:1563-1592 recalculate_section_sizes for an attached section. *)
Definition recalculate_section_sizes (p : pe) (i : nat) (auto_strip : bool) : res pe :=
  s0 <- get_section p i ;;
  s1 <- prepare_section (falign p) (salign p) s0 ;;
  let s2 := if auto_strip && negb (Nat.eqb i (length (p_sections p) - 1))
            then let d := strip_keep1 (s_data s1) in
                 set_s_rawsize (u32 (zlen d)) (set_s_data d s1)
            else s1 in
  let p2 := put_section p i s2 in
  if align_up (s_vsize s2) (salign p) <? align_up (s_rawsize s2) (falign p)
  then set_section_virtual_size p2 i (align_up (s_rawsize s2) (salign p))
  else Ok p2.

(** pe_base.h section_expand_type *)
Inductive expand_kind := ExpandRaw | ExpandVirtual.
(** pe_base.cpp:362-388 expand_section for an attached section. *)
Definition expand_section (p : pe) (i : nat) (needed_rva needed_size : Z) (k : expand_kind)
  : res (pe * bool) :=
  throw_if (not_last p i) error_expanding_section ;;;
  s <- get_section p i ;;
  match k with
  | ExpandRaw =>
    len <- length_in_section p s needed_rva RawData ;;
    if len <? needed_size then
      let s1 := with_raw (fun d => resize d (u32 (needed_rva - s_va s + needed_size))) s in
      p1 <- recalculate_section_sizes (put_section p i s1) i false ;;
      Ok (p1, true)
    else Ok (p, false)
  | ExpandVirtual =>
    len <- length_in_section p s needed_rva VirtData ;;
    if len <? needed_size then
      p1 <- set_section_virtual_size p i (u32 (needed_rva - s_va s + needed_size)) ;;
      Ok (p1, true)
    else Ok (p, false)
  end.

(** pe_base.h:515 *)
Definition maximum_number_of_sections : Z := 0x60.
(** pe_base.cpp:460-496 add_section; the result is the new image (the new section is its last one). *)
Definition add_section (p : pe) (s0 : section) (autoupdate : bool) : res pe :=
  throw_if (maximum_number_of_sections <=? zlen (p_sections p)) no_more_sections_can_be_added ;;;
  s1 <- prepare_section (falign p) (salign p) s0 ;;
  let '(s2, old) :=
    match rev (p_sections p) with
    | last :: _ =>
      let va := align_up (u32 (s_va last + aligned_vsize (salign p) last)) (salign p) in
      let last' := if autoupdate
                   then let l := unmap_virtual last in
                        set_s_rawsize (u32 (align_up64 (zlen (s_data l)) (falign p))) l
                   else last in
      (set_s_va va s1, upd (p_sections p) (length (p_sections p) - 1) last')
    | [] =>
      (set_s_va (if s_va s1 =? 0 then align_up (hdrsize p) (salign p)
                 else align_up (s_va s1) (salign p)) s1, p_sections p)
    end in
  let p1 := set_p_sections (old ++ [s2]) p in
  let p2 := set_number_of_sections (u16 (zlen (old ++ [s2]))) p1 in
  Ok (set_size_of_image (u32 (imagesize p2 + aligned_vsize (salign p2) s2)) p2).

(** * Creating an image *)
(** pe_properties_generic.cpp:17-36 create_pe. [optsize]: sizeof(OptionalHeader), 224 or 240. *)
Definition create_nt (plus : bool) (sa subsystem : Z) : nt_headers :=
  mk_nt 0x4550 0x14C 0 0 0 0 (if plus then 240 else 224) 0
    (if plus then 0x20b else 0x10b) 0 0 0 0 0 0 0 0 0x400000
    sa 0x200 0 0 0 0 0 0 0
    0 1024 0 subsystem 0 0x100000 0x1000 0x100000 0x1000 0 0x10 (repeat (0, 0) 16).
(** pe_base.cpp:48-75 the creating constructor. The DOS header words between e_magic and e_lfanew:
    e_cblp 0x90, e_cp 3, e_cparhdr 4, e_maxalloc 0xFFFF, e_sp 0xB8, e_lfarlc 64, others 0. *)
Definition create_pe (plus : bool) (sa : Z) (dll : bool) (subsystem : Z) : pe :=
  let dosmid := enc_fields (repeat 2%nat 29)
      [0x90; 3; 0; 4; 0; 0xFFFF; 0; 0xB8; 0; 0; 0; 64; 0; 0;0;0;0; 0; 0; 0;0;0;0;0;0;0;0;0;0] in
  let p0 := mk_pe plus 0x5A4D dosmid 0 [] (create_nt plus sa subsystem) [] false [] [] in
  let p1 := set_characteristics 3 p0 in
  let p2 := if plus then p1 else set_characteristics_flags 0x0100 p1 in
  let p3 := if dll then set_characteristics_flags image_file_dll p2 else p2 in
  with_nt (fun h => set_h_majos 5 (set_h_minos 1 (set_h_majsub 5 (set_h_minsub 1 h)))) p3.

(** Ranges of the fields of the NT headers. *)
Definition wf_nt (plus : bool) (h : nt_headers) : Prop :=
  Forall2 (fun w v => 0 <= v < 256 ^ Z.of_nat w) (nt_widths plus) (nt_fields plus h) /\
  length (h_dirs h) = 16%nat /\
  Forall (fun d => is_u32 (fst d) /\ is_u32 (snd d)) (h_dirs h).
(** Ranges of everything in an image object (types of the C++ members). *)
Definition wf_pe (p : pe) : Prop :=
  is_u16 (p_magic p) /\ bytes (p_dosmid p) /\ zlen (p_dosmid p) = 58 /\ is_u32 (p_lfanew p) /\
  bytes (p_stub p) /\ wf_nt (p_plus p) (p_nt p) /\ Forall wf_section (p_sections p) /\
  bytes (p_full p).

Arguments section_from_rva : simpl never.
Arguments in_section : simpl never.
