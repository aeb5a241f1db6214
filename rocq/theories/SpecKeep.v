(** Vocabulary of C78. *)
From Verif Require Export SpecRebuild SpecLoad LoadModel RebuildModel BoundModel ConfigModel DotnetModel ExportModel ImportModel ReadersModel RelocModel ResModel TlsModel.

(** The image with no header bytes to look at: a reader of this image sees the sections only. *)
Definition sections_only (p : pe) : pe := set_p_full [] p.
(** The cached header bytes end before every section. *)
Definition headers_below (p : pe) : Prop := Forall (fun s => zlen (p_full p) <= s_va s) (p_sections p).
(** [r] is the image that opening a file with these bytes gives. *)
Definition loaded_from (out : list Z) (r : pe) : Prop :=
  exists strict read_debug f, factory_create false read_debug (open_stream strict out) = (f, Ok r).
(** What the reader finds in the sections of [p] it also finds in [r]. *)
Definition still_reads {A} (read : pe -> res A) (p r : pe) : Prop :=
  forall x, read (sections_only p) = Ok x -> read r = Ok x.
(** ... for exports, imports, relocations, TLS, load configuration, exceptions, resources and the .NET header. *)
Definition all_kept (p r : pe) : Prop :=
  (forall info, still_reads (fun q => get_exports q info) p r) /\ still_reads get_imports p r /\ (forall abs, still_reads (fun q => get_relocations q abs) p r) /\ still_reads get_tls p r /\ still_reads get_config p r /\
  still_reads get_exception_directory_data p r /\ still_reads get_resources p r /\ still_reads get_basic_dotnet_info p r.

(** ** Realigning before writing (C79) *)
(** Realigning to the file alignment [a] drops no data: every section has a virtual size, its data and its rounded size in the file fit in
    its address range, and the data of the sections before the last one fit in that rounded size. *)
Definition realignable (a : Z) (p : pe) : Prop :=
  forall i s, nth_error (p_sections p) i = Some s ->
    wf_section s /\ 0 < s_vsize s <= 2^31 /\ s_rawsize s <= 2^31 /\ zlen (raw_view s) <= span (salign p) s /\ ceil_mult (s_rawsize s) a <= span (salign p) s /\
    (S i <> length (p_sections p) -> zlen (raw_view s) <= ceil_mult (s_rawsize s) a).
(** A consistent layout, except that the sizes of sections in the file need not be those of their data. *)
Definition laid_out (p : pe) : Prop :=
  image_wf p /\ zlen (p_stub p) < 2^30 /\ p_magic p = 0x5a4d /\ h_signature (p_nt p) = 0x4550 /\ h_magic (p_nt p) = (if p_plus p then 0x20b else 0x10b) /\
  (p_plus p = true -> h_basedata (p_nt p) = 0) /\ good_align p /\ 0 < zlen (p_sections p) <= 0x60 /\
  exists start, hdrsize p <= start /\ (salign p | start) /\ chain (salign p) start (p_sections p) /\ chain_end (salign p) start (p_sections p) < 2^32.
(** Both images give the same exports, imports, relocations, TLS data, exceptions, resources and .NET header, if any. *)
Definition read_alike {A} (read : pe -> res A) (p r : pe) : Prop := forall x, read p = Ok x <-> read r = Ok x.
Definition all_alike (p r : pe) : Prop :=
  (forall info, read_alike (fun q => get_exports q info) p r) /\ read_alike get_imports p r /\ (forall abs, read_alike (fun q => get_relocations q abs) p r) /\ read_alike get_tls p r /\
  read_alike get_exception_directory_data p r /\ read_alike get_resources p r /\ read_alike get_basic_dotnet_info p r.
(** What these readers find in the sections of [p] they also find in [r]. *)
Definition tables_kept (p r : pe) : Prop :=
  (forall info, still_reads (fun q => get_exports q info) p r) /\ still_reads get_imports p r /\ (forall abs, still_reads (fun q => get_relocations q abs) p r) /\ still_reads get_tls p r /\
  still_reads get_exception_directory_data p r /\ still_reads get_resources p r /\ still_reads get_basic_dotnet_info p r.

(** ** Editing a table, realigning and writing (C80) *)
(** The image can be edited and then realigned to the file alignment [a]. *)
Definition editable (a : Z) (p : pe) : Prop := laid_out p /\ unmapped p /\ realignable a p /\ power_of_two a /\ 512 <= a <= salign p.
(** [r] was opened from a file that was written for [p] after realigning it to [a]: the file has fewer than 2^32 bytes, and no section without
    data points behind the headers. *)
Definition saved (p : pe) (a : Z) (r : pe) : Prop :=
  exists p1 strip change_headers save_bound q out, realign_file p a = Ok p1 /\
    data_start strip save_bound p1 + data_total (falign p1) (p_sections p1) < 2^32 /\ no_stale_pointers (data_start strip save_bound p1) p1 /\
    rebuild_pe p1 strip change_headers save_bound = Ok (q, out) /\ loaded_from out r.
