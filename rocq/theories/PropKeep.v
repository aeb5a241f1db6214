(** C78-C80: what readers find in an image, and in the file written for it. *)
From Verif Require Import KeepEdit SamplesKeep.

(** C78: exports, imports, relocations, TLS data, load configuration, exceptions, resources and the .NET header that are found in the sections of a
    consistent image are found again, the same, in the image opened from the file that was written for it. *)
Theorem C78_written : forall p strip change_headers save_bound q out r, consistent p -> unmapped p -> 0 < nrva p ->
  data_start strip save_bound p + data_total (falign p) (p_sections p) < 2^32 -> no_stale_pointers (data_start strip save_bound p) p ->
  rebuild_pe p strip change_headers save_bound = Ok (q, out) -> loaded_from out r -> all_kept p r.
Proof. intros p strip chg save q out r C U N T NS E H. exact (written_kept p strip chg save q out C U N T NS E r H). Qed.
Print Assumptions C78_written.
(** So are bound imports, unless the directory is moved behind the headers. *)
Theorem C78_bound_imports : forall p strip change_headers save_bound q out r, consistent p -> unmapped p -> 0 < nrva p ->
  data_start strip save_bound p + data_total (falign p) (p_sections p) < 2^32 -> no_stale_pointers (data_start strip save_bound p) p ->
  rebuild_pe p strip change_headers save_bound = Ok (q, out) -> bound_saved save_bound p = false -> loaded_from out r -> still_reads get_bound_imports p r.
Proof. intros p strip chg save q out r C U N T NS E B H. exact (written_bound p strip chg save q out C U N T NS E r B H). Qed.
Print Assumptions C78_bound_imports.
(** What is found in the sections alone is found in the image, when its header bytes end before the sections. *)
Theorem C78_sections_suffice : forall p, image_wf p -> headers_below p -> all_kept p p /\ still_reads get_bound_imports p p.
Proof. exact sections_seen. Qed.
Print Assumptions C78_sections_suffice.
(** The header bytes of a loaded image are the first bytes of the file, as many as SizeOfHeaders says, but not beyond the data of the first section that has
    any (beyond the end of the file if none has). *)
Theorem C78_header_bytes : forall plus from_mem read_debug f f' p, wf_stream f -> load plus from_mem read_debug f = (f', Ok p) ->
  p_full p = ztake (zlen (p_full p)) (i_data f) /\
  (forall before s after, p_sections p = before ++ s :: after -> Forall (fun t => raw_view t = []) before -> raw_view s <> [] -> zlen (p_full p) = Z.min (hdrsize p) (s_rawptr s)) /\
  (Forall (fun t => raw_view t = []) (p_sections p) -> zlen (p_full p) = Z.min (hdrsize p) (zlen (i_data f) mod 2^32)).
Proof. exact header_bytes. Qed.
Print Assumptions C78_header_bytes.
(** An image with four exported functions, its file and the image opened from it. *)
Example C78_case : consistent keep_image /\ unmapped keep_image /\ 0 < nrva keep_image /\
  data_start false false keep_image + data_total (falign keep_image) (p_sections keep_image) < 2^32 /\ no_stale_pointers (data_start false false keep_image) keep_image /\
  rebuild_pe keep_image false true false = Ok (fst keep_written, keep_file) /\ loaded_from keep_file keep_opened /\ bound_saved false keep_image = false /\
  exists x l, get_exports (sections_only keep_image) true = Ok (Some x, l) /\ length l = 4%nat /\ map e_name l = [[]; [97]; [97; 200]; [98; 98]].
Proof.
  destruct keep_consistent as [A B]. destruct keep_bounds as (C & D & E). repeat (split; [first [assumption|exact keep_rebuilt|exact keep_loaded]|]). split; [vm_compute; reflexivity|].
  do 2 eexists. split; [vm_compute; reflexivity|]. split; reflexivity.
Qed.
Example C78_sections_case : image_wf sample_pe /\ headers_below sample_pe.
Proof. split; [exact sample_image_wf|]. unfold headers_below. apply Forall_forall. intros s [<-|[<-|[]]]; vm_compute; congruence. Qed.
Example C78_header_case : wf_stream (open_stream true sample_file) /\ exists f' p, load false false true (open_stream true sample_file) = (f', Ok p) /\ zlen (p_full p) = hdrsize p /\ 0 < hdrsize p.
Proof. split; [apply sample_stream|]. do 2 eexists. split; [vm_compute; reflexivity|]. split; vm_compute; reflexivity. Qed.

(** C79: realigning the file to another file alignment changes nothing that these readers return (the load configuration and bound imports excepted), ... *)
Theorem C79_realign_reads : forall p a p', good_align p -> power_of_two a -> 512 <= a <= salign p -> unmapped p -> realignable a p -> image_wf p -> realign_file p a = Ok p' -> all_alike p p'.
Proof. exact realign_reads. Qed.
Print Assumptions C79_realign_reads.
(** ... makes a layout consistent, ... *)
Theorem C79_realign_consistent : forall p a p', laid_out p -> power_of_two a -> 512 <= a <= salign p -> unmapped p -> realignable a p -> realign_file p a = Ok p' -> consistent p' /\ unmapped p'.
Proof. exact realign_consistent. Qed.
Print Assumptions C79_realign_consistent.
(** ... and what they find in the sections is found in the image opened from the file written then. *)
Theorem C79_realigned_written : forall p a r, editable a p -> 0 < nrva p -> saved p a r -> tables_kept p r.
Proof. intros p a r. exact (saved_tables a p r). Qed.
Print Assumptions C79_realigned_written.
Example C79_case : editable 0x200 keep_edited /\ good_align keep_edited /\ image_wf keep_edited /\ ~ consistent keep_edited /\ realign_file keep_edited 0x200 = Ok keep_image /\
  0 < nrva keep_edited /\ saved keep_edited 0x200 keep_opened /\ exists x l, get_exports (sections_only keep_edited) true = Ok (Some x, l) /\ length l = 4%nat.
Proof.
  split; [exact keep_editable|]. pose proof keep_editable as ((W & _ & _ & _ & _ & _ & G & _) & _). split; [exact G|]. split; [exact W|].
  split.
  { intros (_ & _ & _ & _ & _ & _ & _ & _ & _ & F). rewrite Forall_forall in F.
    assert (X : forallb (fun s => s_rawsize s =? zlen (raw_view s)) (p_sections keep_edited) = false) by (vm_compute; reflexivity).
    assert (Y : forallb (fun s => s_rawsize s =? zlen (raw_view s)) (p_sections keep_edited) = true); [|congruence].
    apply forallb_forall. intros s Hs. destruct (F s Hs) as (_ & E & _). apply Z.eqb_eq, E. }
  split; [exact keep_realigned|]. split; [vm_compute; reflexivity|]. split; [exact keep_saved|]. do 2 eexists. split; [vm_compute; reflexivity|reflexivity].
Qed.
(** Without realigning, an edited image cannot be written: the header of the section that was written to claims more data than there are. *)
Theorem C79_not_realigned_refuted : exists p info l p' where_, editable 0x200 p /\ rebuild_exports p info l 1 2 true false = Ok (p', where_) /\ editable 0x200 p' /\
  forall strip change_headers, rebuild_pe p' strip change_headers false = Ub OobRead.
Proof.
  destruct C32_case as (A & B & C & D & E & F & _ & H & Hs & J & K & M).
  destruct (exports_saved sample_pe 0x1000 1 C32_info C32_l 2 false sample_data 0x200 sample_editable A B C D E F H Hs J K (or_introl M)) as (p' & w & X & Ed & _).
  exists sample_pe, C32_info, C32_l, p', w. split; [exact sample_editable|]. split; [exact X|]. split; [exact Ed|].
  assert (p' = keep_edited) as -> by (unfold keep_edited; rewrite X; reflexivity). intros [|] [|]; vm_compute; reflexivity.
Qed.
Print Assumptions C79_not_realigned_refuted.

(** C80: a table that is rebuilt into an image, which is then realigned, written and opened again, is what readers of the opened image find. The image
    after the edit can be edited again. First the images that can be edited: those with a consistent layout. *)
Theorem C80_editable : forall p a, consistent p -> unmapped p -> power_of_two a -> 512 <= a <= salign p -> editable a p.
Proof. exact consistent_editable. Qed.
Print Assumptions C80_editable.
(** Exports. Missing: the functions and lists that C32 leaves out. *)
Theorem C80_exports_partial : forall p start i info l off strip s a, editable a p ->
  0 <= off -> l <> [] -> Forall valid_export l -> valid_info info -> distinct_exports l ->
  room p start i (ceil_mult off 4 + export_size (xi_name info) l) -> dir_export < nrva p <= 16 ->
  nth_error (p_sections p) i = Some s -> Forall (plain_export (s_va s + ceil_mult off 4) (export_size (xi_name info) l)) l -> ~ In 0 (xi_name info) ->
  export_names l <> [] \/ ~ (salign p | ceil_mult off 4 + export_size (xi_name info) l) ->
  exists p' where_, rebuild_exports p info l i off true strip = Ok (p', where_) /\ editable a p' /\
    forall r, saved p' a r -> exists x l' m, get_exports r true = Ok (Some x, l') /\ get_exports r false = Ok (None, l') /\ same_info l info x /\
      Permutation l m /\ StronglySorted by_ordinal m /\ Forall2 (same_export (lowest l)) m l'.
Proof. exact exports_saved. Qed.
Print Assumptions C80_exports_partial.
(** Relocations. *)
Theorem C80_relocations : forall p start i tables off strip a, editable a p ->
  0 <= off -> tables <> [] -> Forall valid_table tables -> room p start i (2 * ceil_mult off 4 - off + blocks_size tables) -> dir_basereloc < nrva p <= 16 ->
  exists p' where_, rebuild_relocations p tables i off true strip = Ok (p', where_) /\ editable a p' /\
    forall r, saved p' a r -> get_relocations r true = Ok (map with_padding tables) /\ get_relocations r false = Ok (map without_absolute tables).
Proof. exact relocations_saved. Qed.
Print Assumptions C80_relocations.
(** Resources. Missing: the trees that C39 leaves out. *)
Theorem C80_resources_partial : forall p start i t off strip s a, editable a p ->
  0 <= off -> valid_tree t -> storable_tree t -> full_root t -> ordered_tree t \/ even_tree t -> room p start i (resource_end off t) -> dir_resource < nrva p <= 16 ->
  nth_error (p_sections p) i = Some s ->
  exists p' where_ sorted, rebuild_resources p t i off true strip = Ok (p', where_, sorted) /\ editable a p' /\
    forall r, saved p' a r -> exists t', get_resources r = Ok t' /\ canonical t t'.
Proof. exact resources_saved. Qed.
Print Assumptions C80_resources_partial.
(** Imports. Missing: the libraries and settings that C36 leaves out. Tables that stay where they are must be in the sections. *)
Theorem C80_imports_partial : forall p libs i o start s a, let off := o_offset o in let base := s_va s + (off + total library_text_size libs) in editable a p ->
  0 <= off -> Forall (fun l => stays o l && o_rewrite o = false) libs -> Forall valid_library libs -> room p start i (off + import_size p libs o) ->
  dir_import < nrva p <= 16 -> (o_zero_iat o = true -> dir_iat < nrva p) -> o_headers o = true ->
  nth_error (p_sections p) i = Some s -> base < 2^31 -> Forall (recoverable (sections_only p) i o) libs ->
  exists p' where_, rebuild_imports p libs i o = Ok (p', where_) /\ editable a p' /\
    forall r, saved p' a r -> exists ms, get_imports r = Ok ms /\ Forall2 (same_library p o) libs ms.
Proof. exact imports_saved. Qed.
Print Assumptions C80_imports_partial.
Example C80_case : editable 0x200 sample_pe /\ saved keep_edited 0x200 keep_opened /\
  (exists x l, get_exports keep_opened true = Ok (Some x, l) /\ map e_name l = [[]; [97]; [97; 200]; [98; 98]]) /\
  match rebuild_relocations keep_edited C28_tables 0 5 true false with Ok (p, _) => is_ok (get_exports p true) && is_ok (get_relocations p true) = true | _ => False end.
Proof.
  split; [exact sample_editable|]. split; [exact keep_saved|]. split; [do 2 eexists; split; [vm_compute; reflexivity|reflexivity]|].
  vm_compute. reflexivity.
Qed.
