(** Theorems about the debug directory (C60, C68, C70). *)
From Verif Require Import DebugSamples.

(** C60. Reading the debug directory of any image with any raw debug data reads nothing outside of them and ends. *)
Theorem C60_safe : forall p, readable p -> raw_ok p -> safe (get_debug_information p).
Proof. exact debug_safe. Qed.
Print Assumptions C60_safe.
Example C60_case : readable (debug_image 1 file_raw (zeros 28)) /\ raw_ok (debug_image 1 file_raw (zeros 28)) /\ bytes aux_raw /\ raw_ok (debug_image 4 misc_short []).
Proof. destruct (debug_image_ok 1 file_raw (zeros 28)) as (R1 & R2 & _); [apply raw_bytes|apply bytes_zeros|rewrite zlen_zeros; lia|]. split; [exact R1|]. split; [exact R2|]. split; [apply raw_bytes|]. constructor; [apply raw_bytes|constructor]. Qed.
(** C60. In particular for every file that can be loaded, from any stream and with any options. *)
Theorem C60_loaded : forall plus from_mem read_debug f f' p, wf_stream f -> load plus from_mem read_debug f = (f', Ok p) -> safe (get_debug_information p).
Proof. intros plus from_mem read_debug f f' p W E. destruct (loaded_readable _ _ _ _ _ _ W E). apply debug_safe; assumption. Qed.
Print Assumptions C60_loaded.
Example C60_loaded_case : wf_stream (open_stream true debug_file) /\ exists f' p, load false false true (open_stream true debug_file) = (f', Ok p).
Proof. split; [apply debug_stream|]. do 2 eexists. vm_compute. reflexivity. Qed.

(** C68. Entries are returned exactly as the table of the directory and the raw data say. *)
Theorem C68_exact : forall p, readable p -> raw_ok p -> forall rva size n l, dir_is p dir_debug (rva, size) -> dir_debug < nrva p -> rva <> 0 ->
  length_rva p rva rva VirtData true = Ok n -> 28 <= n -> rva + size < 2^32 ->
  (get_debug_information p = Ok l <-> debug_table p (rva + size) rva l).
Proof. exact debug_exact. Qed.
Print Assumptions C68_exact.
Example C68_case : readable (debug_image 2 pdb7_raw (zeros 28)) /\ raw_ok (debug_image 2 pdb7_raw (zeros 28)) /\ dir_is (debug_image 2 pdb7_raw (zeros 28)) dir_debug (0x2000, 28) /\
  dir_debug < nrva (debug_image 2 pdb7_raw (zeros 28)) /\ length_rva (debug_image 2 pdb7_raw (zeros 28)) 0x2000 0x2000 VirtData true = Ok 8192 /\
  get_debug_information (debug_image 2 pdb7_raw (zeros 28)) = Ok [sample_entry 2 30 (AdvPdb7 [0;1;2;3;4;5;6;7;8;9;10;11;12;13;14;15] 5 [0x61; 0x2e; 0x70; 0x64; 0x62])].
Proof. split; [apply pdb7_image|]. split; [apply pdb7_image|]. split; [split; [vm_compute; congruence|reflexivity]|]. split; [reflexivity|]. split; [vm_compute; reflexivity|exact pdb7_reads]. Qed.
(** C68. Without the directory there are no entries. *)
Theorem C68_absent : forall p, directory_exists p dir_debug = Ok false -> get_debug_information p = Ok [].
Proof. intros p E. unfold get_debug_information. rewrite E. reflexivity. Qed.
Print Assumptions C68_absent.
Example C68_absent_case : directory_exists (sample_read 6 (0, 0) []) dir_debug = Ok false.
Proof. vm_compute. reflexivity. Qed.
(** C68. The text of a COFF file symbol is not the one in its auxiliary records. *)
Theorem C68_file_names_refuted : exists p e d s name value sec ty aux text n lva h, readable p /\ raw_ok p /\ raw_data p (d_ptr e) d /\
  get_debug_information p = Ok [e] /\ d_adv e = AdvCoff (n :: lva :: h) [s] /\ cs_file s = true /\
  symbol_at d lva name value sec ty 0x67 aux /\ trimmed (slice d (lva + 18) (18 * aux)) text /\ cs_name s <> text.
Proof. exact file_name_wrong. Qed.
Print Assumptions C68_file_names_refuted.
(** C68. An auxiliary record is returned as a symbol. *)
Theorem C68_auxiliary_refuted : exists p e d name value sec ty class aux s n lva h, readable p /\ raw_ok p /\ raw_data p (d_ptr e) d /\
  get_debug_information p = Ok [e] /\ d_adv e = AdvCoff (n :: lva :: h) [s] /\
  symbol_at d lva name value sec ty class aux /\ class <> 0x67 /\ cs_index s = aux.
Proof. exact auxiliary_reported. Qed.
Print Assumptions C68_auxiliary_refuted.
(** C68. CodeView 4.0 data ("NB09") are not reported as such: the type is "none". *)
Theorem C68_codeview_type_refuted : exists p e d rest, readable p /\ raw_ok p /\ raw_data p (d_ptr e) d /\ d_type e = 2 /\ d = [0x4E; 0x42; 0x30; 0x39] ++ rest /\
  get_debug_information p = Ok [e] /\ advanced_type (d_adv e) = 0.
Proof. exact codeview_type_lost. Qed.
Print Assumptions C68_codeview_type_refuted.
(** C68. Raw data are refused with an exception that is not the library's. *)
Theorem C68_exceptions_refuted : exists p d, readable p /\ raw_ok p /\ raw_data p 0x600 d /\ get_debug_information p = Throw std_length_error.
Proof. exact misc_foreign. Qed.
Print Assumptions C68_exceptions_refuted.
(** C68. A directory of one entry is refused when the section ends behind it. *)
Theorem C68_last_refuted : exists p e rva x, readable p /\ raw_ok p /\ dir_is p dir_debug (rva, 28) /\ entry_ok e /\ d_ptr e <> 0 /\ shows p rva (entry_bytes e) /\
  get_debug_information p = Throw x.
Proof. exact last_refused. Qed.
Print Assumptions C68_last_refuted.

(** C70. The raw debug data kept by loading a file are the bytes of the file at that offset. Partial: for file streams; for string streams they may be zeros instead. *)
Theorem C70_from_file_partial : forall plus from_mem read_debug f f' p ptr d, wf_stream f -> load plus from_mem read_debug f = (f', Ok p) -> raw_data p ptr d ->
  stands (i_data f) ptr d \/ i_strict f = true /\ d = zeros (zlen d).
Proof.
  intros plus from_mem read_debug f f' p ptr d W E (a & b & Ed & _). destruct (load_raw _ _ _ _ _ _ W E) as [_ HR]. rewrite Ed in HR. rewrite Forall_forall in HR.
  exact (HR (ptr, d) (in_elt _ _ _)).
Qed.
Print Assumptions C70_from_file_partial.
Example C70_case : wf_stream (open_stream false debug_file2) /\ exists f' p, load false false true (open_stream false debug_file2) = (f', Ok p) /\ raw_data p 0x3C [0x40; 0; 0; 0].
Proof. exact debug_kept. Qed.
(** C70. A string stream too short for them does not stop loading. *)
Theorem C70_past_end_refuted : exists f f' p ptr d, ready f /\ load false false true f = (f', Ok p) /\ raw_data p ptr d /\ zlen d = 4 /\ zlen (i_data f) < ptr.
Proof. exact debug_zeros. Qed.
Print Assumptions C70_past_end_refuted.
