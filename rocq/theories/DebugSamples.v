(** Sample debug directories for PropDebug.v. *)
From Verif Require Export DebugLoad SamplesRead SamplesLoad.

(** An entry with type [ty] and [size] bytes of raw data at file offset 0x600. *)
Definition sample_entry (ty size : Z) (a : advanced) : debug_info := mk_debug 0 1 2 3 ty size 0 0x600 a.
(** The sample image with this entry, followed by [rest], and raw data [d]. *)
Definition debug_image (ty : Z) (d rest : list Z) : pe :=
  set_p_debug [(0x600, d)] (sample_read 6 (0x2000, 28) (entry_bytes (sample_entry ty (zlen d) AdvNone) ++ rest)).
Lemma readable_debug m p : readable p -> readable (set_p_debug m p).
Proof. destruct p. intros H. exact H. Qed.
Lemma debug_image_ok ty d rest : bytes d -> bytes rest -> zlen rest < 2^30 ->
  readable (debug_image ty d rest) /\ raw_ok (debug_image ty d rest) /\ raw_data (debug_image ty d rest) 0x600 d.
Proof.
  intros B R L. split; [|split].
  - apply readable_debug, sample_read_readable; cbn [fst snd]; [unfold is_u32; lia|unfold is_u32; lia| |rewrite zlen_app, entry_len; lia].
    unfold bytes. apply Forall_app. split; [|exact R].
    unfold entry_bytes. repeat (apply Forall_app; split); apply bytes_le.
  - constructor; [exact B|constructor].
  - exists [], []. split; [reflexivity|intros []].
Qed.
(** PDB 7.0 data: GUID 0..15, age 5, "a.pdb". *)
Definition pdb7_raw : list Z := sig_rsds ++ [0;1;2;3;4;5;6;7;8;9;10;11;12;13;14;15] ++ le 4 5 ++ [0x61; 0x2e; 0x70; 0x64; 0x62; 0].
Lemma pdb7_reads : get_debug_information (debug_image 2 pdb7_raw (zeros 28)) = Ok [sample_entry 2 30 (AdvPdb7 [0;1;2;3;4;5;6;7;8;9;10;11;12;13;14;15] 5 [0x61; 0x2e; 0x70; 0x64; 0x62])].
Proof. vm_compute. reflexivity. Qed.
(** COFF data with two records from offset 32: [a] and [b]. *)
Definition coff_raw (a b : list Z) : list Z := concat (map (le 4) [2; 32; 0; 0; 0; 0; 0; 0]) ++ a ++ b.
(** A file symbol with its name "a.c" in the record behind it. *)
Definition file_record : list Z := symbol_bytes [0x2e; 0x66; 0x69; 0x6c; 0x65; 0; 0; 0] 0 0 0 0x67 1.
Definition file_raw : list Z := coff_raw file_record ([0x61; 0x2e; 0x63] ++ zeros 15).
(** A static symbol with an auxiliary record; read as a symbol the auxiliary record is a function "b". *)
Definition static_record : list Z := symbol_bytes [0x61; 0; 0; 0; 0; 0; 0; 0] 7 1 0 3 1.
Definition func_record : list Z := symbol_bytes [0x62; 0; 0; 0; 0; 0; 0; 0] 9 1 0x20 2 0.
Definition aux_raw : list Z := coff_raw static_record func_record.
Definition nb09_raw : list Z := sig_nb09 ++ zeros 4.
Definition misc_short : list Z := le 4 1 ++ le 4 4 ++ zeros 5.
Lemma raw_bytes : bytes pdb7_raw /\ bytes file_raw /\ bytes aux_raw /\ bytes nb09_raw /\ bytes misc_short.
Proof. repeat (split; [apply bytes_check; vm_compute; reflexivity|]). apply bytes_check; vm_compute; reflexivity. Qed.
Lemma pdb7_image : readable (debug_image 2 pdb7_raw (zeros 28)) /\ raw_ok (debug_image 2 pdb7_raw (zeros 28)) /\ raw_data (debug_image 2 pdb7_raw (zeros 28)) 0x600 pdb7_raw.
Proof. apply debug_image_ok; [apply raw_bytes|apply bytes_zeros|rewrite zlen_zeros; lia]. Qed.
Lemma aux_image : readable (debug_image 1 aux_raw (zeros 28)) /\ raw_ok (debug_image 1 aux_raw (zeros 28)) /\ raw_data (debug_image 1 aux_raw (zeros 28)) 0x600 aux_raw.
Proof. apply debug_image_ok; [apply raw_bytes|apply bytes_zeros|rewrite zlen_zeros; lia]. Qed.
Lemma file_name_wrong : exists p e d s name value sec ty aux text n lva h, readable p /\ raw_ok p /\ raw_data p (d_ptr e) d /\
  get_debug_information p = Ok [e] /\ d_adv e = AdvCoff (n :: lva :: h) [s] /\ cs_file s = true /\
  symbol_at d lva name value sec ty 0x67 aux /\ trimmed (slice d (lva + 18) (18 * aux)) text /\ cs_name s <> text.
Proof.
  exists (debug_image 1 file_raw (zeros 28)). eexists. exists file_raw. eexists. exists [0x2e; 0x66; 0x69; 0x6c; 0x65; 0; 0; 0], 0, 0, 0, 1, [0x61; 0x2e; 0x63], 2, 32, [0; 0; 0; 0; 0; 0].
  destruct (debug_image_ok 1 file_raw (zeros 28)) as (R1 & R2 & R3); [apply raw_bytes|apply bytes_zeros|rewrite zlen_zeros; lia|].
  split; [exact R1|]. split; [exact R2|]. split; [|split; [vm_compute; reflexivity|]]; [exact R3|]. cbn [d_adv]. split; [reflexivity|]. split; [reflexivity|].
  split; [|split].
  - split; [reflexivity|]. do 5 (split; [vm_compute; split; congruence|]). apply stands_holds. split; [lia|]. split; [vm_compute; congruence|]. vm_compute. reflexivity.
  - split; [exists 15; vm_compute; reflexivity|]. right. exists 0x63, [0x61; 0x2e]. split; [reflexivity|lia].
  - vm_compute. congruence.
Qed.
Lemma auxiliary_reported : exists p e d name value sec ty class aux s n lva h, readable p /\ raw_ok p /\ raw_data p (d_ptr e) d /\
  get_debug_information p = Ok [e] /\ d_adv e = AdvCoff (n :: lva :: h) [s] /\
  symbol_at d lva name value sec ty class aux /\ class <> 0x67 /\ cs_index s = aux.
Proof.
  exists (debug_image 1 aux_raw (zeros 28)). eexists. exists aux_raw, [0x61; 0; 0; 0; 0; 0; 0; 0], 7, 1, 0, 3, 1. eexists. exists 2, 32, [0; 0; 0; 0; 0; 0].
  destruct aux_image as (R1 & R2 & R3).
  split; [exact R1|]. split; [exact R2|]. split; [|split; [vm_compute; reflexivity|]]; [exact R3|]. cbn [d_adv]. split; [reflexivity|].
  split; [|split; [lia|reflexivity]].
  split; [reflexivity|]. do 5 (split; [vm_compute; split; congruence|]). apply stands_holds. split; [lia|]. split; [vm_compute; congruence|]. vm_compute. reflexivity.
Qed.
Lemma codeview_type_lost : exists p e d rest, readable p /\ raw_ok p /\ raw_data p (d_ptr e) d /\ d_type e = 2 /\ d = sig_nb09 ++ rest /\
  get_debug_information p = Ok [e] /\ advanced_type (d_adv e) = 0.
Proof.
  exists (debug_image 2 nb09_raw (zeros 28)). eexists. exists nb09_raw, (zeros 4).
  destruct (debug_image_ok 2 nb09_raw (zeros 28)) as (R1 & R2 & R3); [apply raw_bytes|apply bytes_zeros|rewrite zlen_zeros; lia|].
  split; [exact R1|]. split; [exact R2|]. split; [|split; [|split; [reflexivity|split; [vm_compute; reflexivity|]]]]; [exact R3|reflexivity|reflexivity].
Qed.
Lemma misc_foreign : exists p d, readable p /\ raw_ok p /\ raw_data p 0x600 d /\ get_debug_information p = Throw std_length_error.
Proof.
  exists (debug_image 4 misc_short (zeros 28)), misc_short.
  destruct (debug_image_ok 4 misc_short (zeros 28)) as (R1 & R2 & R3); [apply raw_bytes|apply bytes_zeros|rewrite zlen_zeros; lia|].
  split; [exact R1|]. split; [exact R2|]. split; [exact R3|]. vm_compute. reflexivity.
Qed.
(** A directory of one entry in the last 28 bytes of the last section. *)
Definition last_image : pe := sample_read 6 (0x3FE4, 28) (zeros 8164 ++ entry_bytes (sample_entry 3 0 AdvNone)).
Lemma last_refused : exists p e rva x, readable p /\ raw_ok p /\ dir_is p dir_debug (rva, 28) /\ entry_ok e /\ d_ptr e <> 0 /\ shows p rva (entry_bytes e) /\
  get_debug_information p = Throw x.
Proof.
  exists last_image, (sample_entry 3 0 AdvNone), 0x3FE4, no_section_found.
  split. { apply sample_read_readable; cbn [fst snd]; [unfold is_u32; lia|unfold is_u32; lia| |].
    - unfold bytes. apply Forall_app. split; [apply bytes_zeros|]. unfold entry_bytes. repeat (apply Forall_app; split); apply bytes_le.
    - rewrite zlen_app, zlen_zeros, entry_len by lia. lia. }
  split; [constructor|]. split; [split; [vm_compute; congruence|reflexivity]|]. split; [vm_compute; repeat split; congruence|]. split; [discriminate|].
  split; [|vm_compute; reflexivity]. vm_compute. reflexivity.
Qed.
Lemma debug_zeros : exists f f' p ptr d, ready f /\ load false false true f = (f', Ok p) /\ raw_data p ptr d /\ zlen d = 4 /\ zlen (i_data f) < ptr.
Proof.
  exists (open_stream true debug_file). do 2 eexists. exists 0x10000, [0; 0; 0; 0]. split; [apply debug_stream|]. split; [vm_compute; reflexivity|].
  split; [exists [], []; split; [reflexivity|intros []]|]. split; [reflexivity|vm_compute; reflexivity].
Qed.
(** A file whose debug entry refers to the first four bytes of the file. *)
Definition debug_file2 : list Z :=
  file_of 4 4 0x1C0 0x188 (upd (upd (repeat 0 32) 12 0x188) 13 28)
    [[0x74786574; 32; 0x188; 32; 0x188; 0; 0; 0; 0; 0x60000020]; [0x61746164; 16; 0x1A8; 0; 0; 0; 0; 0; 0; 0xC0000040]]
    (enc_fields [4; 4; 2; 2; 4; 4; 4; 4; 4]%nat [0; 0; 0; 0; 2; 4; 0; 0x3C; 0]).
Lemma debug_kept : wf_stream (open_stream false debug_file2) /\ exists f' p, load false false true (open_stream false debug_file2) = (f', Ok p) /\ raw_data p 0x3C [0x40; 0; 0; 0].
Proof.
  split; [apply wf_open; [apply bytes_check; reflexivity|vm_compute; reflexivity]|]. do 2 eexists. split; [vm_compute; reflexivity|].
  exists [], []. split; [reflexivity|intros []].
Qed.
