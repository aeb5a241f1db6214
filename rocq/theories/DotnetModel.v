(** Model of pe_dotnet.cpp. *)
From Verif Require Export TlsModel ReadersModel.

(** pe_structures.h:872-902 image_cor20_header; a directory is the pair of its address and its size. *)
Record cor20 : Type := mk_cor20 { n_cb : Z; n_major : Z; n_minor : Z; n_metadata : Z * Z; n_flags : Z; n_entry : Z; n_resources : Z * Z;
  n_strong_name : Z * Z; n_code_manager : Z * Z; n_vtable : Z * Z; n_jumps : Z * Z; n_native : Z * Z }.
(** pe_structures.h:872-902: the sizes of the fields. *)
Definition cor20_widths : list nat := [4; 2; 2; 4; 4; 4; 4; 4; 4; 4; 4; 4; 4; 4; 4; 4; 4; 4; 4]%nat.
(** pe_structures.h:907-911: comimage_flags_ilonly, comimage_flags_32bitrequired, comimage_flags_il_library,
    comimage_flags_native_entrypoint. *)
Definition com_il_only : Z := 1.
(** pe_structures.h:908. *)
Definition com_32bit : Z := 2.
(** pe_structures.h:909. *)
Definition com_il_library : Z := 4.
(** pe_structures.h:911. *)
Definition com_native : Z := 0x10.
(** pe_dotnet.cpp:9-12: the object that is constructed without a header. *)
Definition no_cor20 : cor20 := mk_cor20 0 0 0 (0, 0) 0 0 (0, 0) (0, 0) (0, 0) (0, 0) (0, 0) (0, 0).
(** pe_dotnet.cpp:20-23 get_major_runtime_version. *)
Definition net_major (h : cor20) : Z := n_major h.
(** pe_dotnet.cpp:26-29 get_minor_runtime_version. *)
Definition net_minor (h : cor20) : Z := n_minor h.
(** pe_dotnet.cpp:32-41 get_rva_of_metadata and get_size_of_metadata. *)
Definition net_metadata (h : cor20) : Z * Z := n_metadata h.
(** pe_dotnet.cpp:44-47 get_flags. *)
Definition net_flags (h : cor20) : Z := n_flags h.
(** pe_dotnet.cpp:50-53 is_native_entry_point. *)
Definition net_native_entry (h : cor20) : bool := negb (Z.land (n_flags h) com_native =? 0).
(** pe_dotnet.cpp:56-59 is_32bit_required. *)
Definition net_32bit (h : cor20) : bool := negb (Z.land (n_flags h) com_32bit =? 0).
(** pe_dotnet.cpp:62-65 is_il_library. *)
Definition net_il_library (h : cor20) : bool := negb (Z.land (n_flags h) com_il_library =? 0).
(** pe_dotnet.cpp:68-71 is_il_only. *)
Definition net_il_only (h : cor20) : bool := negb (Z.land (n_flags h) com_il_only =? 0).
(** pe_dotnet.cpp:75-78 get_entry_point_rva_or_token. *)
Definition net_entry (h : cor20) : Z := n_entry h.
(** pe_dotnet.cpp:81-90 get_rva_of_resources and get_size_of_resources. *)
Definition net_resources (h : cor20) : Z * Z := n_resources h.
(** pe_dotnet.cpp:93-102 get_rva_of_strong_name_signature and get_size_of_strong_name_signature. *)
Definition net_strong_name (h : cor20) : Z * Z := n_strong_name h.
(** pe_dotnet.cpp:105-114 get_rva_of_code_manager_table and get_size_of_code_manager_table. *)
Definition net_code_manager (h : cor20) : Z * Z := n_code_manager h.
(** pe_dotnet.cpp:117-126 get_rva_of_vtable_fixups and get_size_of_vtable_fixups. *)
Definition net_vtable (h : cor20) : Z * Z := n_vtable h.
(** pe_dotnet.cpp:129-138 get_rva_of_export_address_table_jumps and get_size_of_export_address_table_jumps. *)
Definition net_jumps (h : cor20) : Z * Z := n_jumps h.
(** pe_dotnet.cpp:142-152 get_rva_of_managed_native_header and get_size_of_managed_native_header. *)
Definition net_native_header (h : cor20) : Z * Z := n_native h.
(** pe_base.cpp:603-606 is_dotnet. *)
Definition is_dotnet (p : pe) : res bool := directory_exists p dir_com.
(** pe_dotnet.cpp:156-164 get_basic_dotnet_info. *)
Definition get_basic_dotnet_info (p : pe) : res cor20 :=
  ex <- is_dotnet p ;;
  throw_if (negb ex) image_does_not_have_managed_code ;;;
  rva <- get_directory_rva p dir_com ;;
  e <- read_rva p rva (widths cor20_widths) VirtData true ;;
  match dec_fields cor20_widths e with
  | [cb; major; minor; a0; b0; flags; entry; a1; b1; a2; b2; a3; b3; a4; b4; a5; b5; a6; b6] =>
      Ok (mk_cor20 cb major minor (a0, b0) flags entry (a1, b1) (a2, b2) (a3, b3) (a4, b4) (a5, b5) (a6, b6))
  | _ => Throw incorrect_address_conversion
  end.
