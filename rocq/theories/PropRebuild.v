(** Properties of writing an image: C24, C25, C26, C62. *)
From Verif Require Import SpecRebuild RebuildFacts ReloadFacts SamplesRebuild ReloadDone CreateFacts.

(** C24, as far as it holds: writing never reads outside a buffer when each section has as
    many bytes as its header claims ... *)
Theorem C24_rebuild_partial : forall p strip change_headers save_bound,
  rebuild_range p -> safe (rebuild_pe p strip change_headers save_bound).
Proof. exact rebuild_safe. Qed.
Print Assumptions C24_rebuild_partial.
Example C24_rebuild_case : rebuild_range sample_pe /\
  exists q out, rebuild_pe sample_pe false true true = Ok (q, out) /\ zlen out = 0x403.
Proof. split; [exact sample_range|]. do 2 eexists. split; [vm_compute; reflexivity|vm_compute; reflexivity]. Qed.
(** ... as every image has right after it was loaded (none of its sections wrapping around
    the address space) ... *)
Theorem C24_loaded_partial : forall plus from_mem read_debug f f' p strip change_headers save_bound,
  wf_stream f -> load plus from_mem read_debug f = (f', Ok p) ->
  Forall (fun s => send (salign p) s < 2^32) (p_sections p) -> p_lfanew p < 2^30 ->
  safe (rebuild_pe p strip change_headers save_bound).
Proof. exact rebuild_loaded_safe. Qed.
Print Assumptions C24_loaded_partial.
Example C24_loaded_case : wf_stream (open_stream true sample_file) /\
  exists f' p, load false false true (open_stream true sample_file) = (f', Ok p) /\
  Forall (fun s => send (salign p) s < 2^32) (p_sections p) /\ p_lfanew p < 2^30.
Proof. split; [apply sample_stream|]. do 2 eexists. split; [vm_compute; reflexivity|]. split; [|reflexivity]. repeat constructor. Qed.
(** ... and has again after realigning the file. *)
Theorem C24_realigned_partial : forall p a p' strip change_headers save_bound,
  good_align p -> power_of_two a -> 512 <= a <= salign p ->
  (forall i s, nth_error (p_sections p) i = Some s ->
     wf_section s /\ zlen (raw_view s) < 2^32 /\ s_rawsize s <= 2^31 /\ hdrsize p <= s_va s /\
     (S i <> length (p_sections p) -> zlen (raw_view s) <= ceil_mult (s_rawsize s) a)) ->
  dirs_ok p -> 0 <= nrva p <= 16 -> zlen (p_dosmid p) = 58 -> is_u32 (hdrsize p) -> zlen (p_full p) < 2^32 ->
  zlen (p_stub p) + 40 * zlen (p_sections p) < 2^31 ->
  realign_file p a = Ok p' -> safe (rebuild_pe p' strip change_headers save_bound).
Proof. exact rebuild_realigned_safe. Qed.
Print Assumptions C24_realigned_partial.
Example C24_realigned_case :
  (forall i s, nth_error (p_sections sample_pe) i = Some s ->
     wf_section s /\ zlen (raw_view s) < 2^32 /\ s_rawsize s <= 2^31 /\ hdrsize sample_pe <= s_va s /\
     (S i <> length (p_sections sample_pe) -> zlen (raw_view s) <= ceil_mult (s_rawsize s) 0x400)) /\
  exists q, realign_file sample_pe 0x400 = Ok q /\ map s_rawsize (p_sections q) = [0x400; 3].
Proof.
  split.
  - intros [|[|i]] s H; cbn [nth_error sample_pe p_sections set_p_full set_p_sections with_nt set_p_nt] in H; [| |destruct i; discriminate];
    inversion H; subst; (split; [first [exact sample_code_wf|exact sample_data_wf]|]); (split; [small|]); (split; [small|]); (split; [small|]); intros _; small.
  - eexists; split; [vm_compute; reflexivity|reflexivity].
Qed.
(** Not so right after add_section: the header of the new section claims its raw size
    rounded up to the file alignment, the section has only the bytes it was given, and
    writing reads beyond them. *)
Theorem C24_added_section_refuted : exists p s q,
  image_ok p 0x1000 /\ wf_section s /\ s_rawsize s = zlen (raw_view s) /\ s_vsize s = s_rawsize s /\
  add_section p s true = Ok q /\ rebuild_pe q false true true = Ub OobRead.
Proof.
  exists sample_pe, (set_s_vsize 3 sample_data). do 1 eexists.
  split.
  { split; [exact sample_align|]. split; [exact sample_wf_sections|]. split; [exists 1; reflexivity|]. repeat split; vm_compute; congruence. }
  split; [apply wf_set_vs; [lia|exact sample_data_wf]|]. split; [reflexivity|]. split; [reflexivity|].
  split; [vm_compute; reflexivity|vm_compute; reflexivity].
Qed.
Print Assumptions C24_added_section_refuted.
(** ... nor with a directory count of 17, which set_number_of_rvas_and_sizes accepts:
    writing the NT headers reads beyond them. *)
Theorem C24_directory_count_refuted :
  rebuild_pe (with_nt (set_h_nrva 17) sample_pe) false true false = Ub OobRead.
Proof. vm_compute. reflexivity. Qed.
Print Assumptions C24_directory_count_refuted.

(** C26: in what is written, the bytes at PointerToRawData of every section with data are
    that section's data; they are aligned, behind the headers and do not overlap those of
    another section. The image left behind differs from the one given only in the places. *)
Theorem C26_places_partial : forall p strip change_headers save_bound q out,
  rebuild_range p -> power_of_two (falign p) -> falign p < 2^32 ->
  data_start strip save_bound p + data_total (falign p) (p_sections p) < 2^32 ->
  no_stale_pointers (data_start strip save_bound p) p ->
  rebuild_pe p strip change_headers save_bound = Ok (q, out) ->
  Forall2 same_but_place (p_sections p) (p_sections q) /\
  zlen out <= data_start strip save_bound p + data_total (falign p) (p_sections p) /\
  (forall i s, nth_error (p_sections q) i = Some s -> s_rawsize s <> 0 ->
     (falign p | s_rawptr s) /\ headers_end strip save_bound p <= s_rawptr s /\ s_rawptr s + s_rawsize s <= zlen out /\
     slice out (s_rawptr s) (s_rawsize s) = ztake (s_rawsize s) (raw_view s)) /\
  (forall i j s t, (i < j)%nat -> nth_error (p_sections q) i = Some s -> nth_error (p_sections q) j = Some t ->
     s_rawsize s <> 0 -> s_rawsize t <> 0 -> s_rawptr s + s_rawsize s <= s_rawptr t).
Proof. exact rebuild_places. Qed.
Print Assumptions C26_places_partial.
Example C26_places_case : rebuild_range sample_pe /\ power_of_two (falign sample_pe) /\ falign sample_pe < 2^32 /\
  data_start false true sample_pe + data_total (falign sample_pe) (p_sections sample_pe) < 2^32 /\
  no_stale_pointers (data_start false true sample_pe) sample_pe /\
  exists q out, rebuild_pe sample_pe false true true = Ok (q, out) /\ map s_rawptr (p_sections q) = [0x200; 0x400].
Proof.
  split; [exact sample_range|]. split; [exists 9; split; [lia|reflexivity]|]. split; [reflexivity|]. split; [reflexivity|].
  split; [repeat constructor; discriminate|]. do 2 eexists. split; [vm_compute; reflexivity|vm_compute; reflexivity].
Qed.
(** A section without data whose PointerToRawData lies behind the headers pushes the data
    of the sections after it away from where their headers say. *)
Theorem C26_stale_pointer_refuted : exists p q out s,
  rebuild_range p /\ rebuild_pe p false true true = Ok (q, out) /\
  nth_error (p_sections q) 1 = Some s /\ s_rawsize s = 3 /\ raw_view s = [7; 8; 9] /\
  slice out (s_rawptr s) 3 = [0; 0; 0].
Proof.
  exists stale_pe. do 3 eexists. split; [exact stale_range|]. split; [vm_compute; reflexivity|].
  split; [reflexivity|]. split; [reflexivity|]. split; vm_compute; reflexivity.
Qed.
Print Assumptions C26_stale_pointer_refuted.

(** C25: the file written for an image with a consistent layout is loaded again, both by
    the factory and by the constructor for the image's own kind, and gives back the image. *)
Theorem C25_reload : forall p strip change_headers save_bound q out,
  consistent p ->
  data_start strip save_bound p + data_total (falign p) (p_sections p) < 2^32 ->
  no_stale_pointers (data_start strip save_bound p) p ->
  rebuild_pe p strip change_headers save_bound = Ok (q, out) ->
  forall strict read_debug, exists f r,
    factory_create false read_debug (open_stream strict out) = (f, Ok r) /\
    load (p_plus p) false read_debug (open_stream strict out) = (f, Ok r) /\
    reloaded strip change_headers save_bound p r.
Proof.
  intros p strip chg save q out C D N R strict rd.
  destruct (reload_thm p strip chg save q out C D N R strict rd) as (f & r & A & B & E & _).
  exists f, r. split; [exact A|]. split; [exact B|exact E].
Qed.
Print Assumptions C25_reload.
(** Such an image can be written when the headers fit below the first section. *)
Theorem C25_can_be_written : forall p strip change_headers save_bound,
  consistent p ->
  (save_bound = false \/ nth_error (h_dirs (p_nt p)) 11 = Some (0, 0)) ->
  nrva p <> 0 -> data_start strip save_bound p < 2^32 ->
  (forall s t, p_sections p = s :: t -> change_headers = true -> data_start strip save_bound p <= s_va s) ->
  exists q out, rebuild_pe p strip change_headers save_bound = Ok (q, out).
Proof. exact rebuild_succeeds. Qed.
Print Assumptions C25_can_be_written.
Example C25_case : consistent sample_pe /\
  data_start false true sample_pe + data_total (falign sample_pe) (p_sections sample_pe) < 2^32 /\
  no_stale_pointers (data_start false true sample_pe) sample_pe /\
  nth_error (h_dirs (p_nt sample_pe)) 11 = Some (0, 0) /\ nrva sample_pe <> 0 /\ data_start false true sample_pe < 2^32 /\
  exists q out, rebuild_pe sample_pe false true true = Ok (q, out) /\ zlen out = 0x403.
Proof.
  split; [exact sample_consistent|]. split; [reflexivity|]. split; [repeat constructor; discriminate|].
  split; [vm_compute; reflexivity|]. split; [vm_compute; discriminate|]. split; [reflexivity|].
  do 2 eexists. split; [vm_compute; reflexivity|vm_compute; reflexivity].
Qed.

(** C62: create an image, add the sections in order, realign and write it: each step
    succeeds, provided the sections fit the address space and the headers fit in front of
    the first one, and what was written loads and has the parameters and contents asked for. *)
Theorem C62_created_images_load : forall plus sa dll subsystem l auto a strip change_headers save_bound,
  power_of_two sa -> sa < 2^32 -> is_u16 subsystem -> l <> [] -> zlen l <= 96 -> Forall to_add l ->
  first_address sa l + total_space sa l < 2^32 -> power_of_two a -> 512 <= a <= sa ->
  created_headers strip plus (zlen l) a <= first_address sa l ->
  exists p p' q out,
    mfold (fun p s => add_section p s auto) l (create_pe plus sa dll subsystem) = Ok p /\
    realign_file p a = Ok p' /\ rebuild_pe p' strip change_headers save_bound = Ok (q, out) /\
    forall strict read_debug, exists f r,
      factory_create false read_debug (open_stream strict out) = (f, Ok r) /\
      p_plus r = plus /\ salign r = sa /\ falign r = a /\ h_subsystem (p_nt r) = subsystem /\
      Z.land (h_chars (p_nt r)) 0x2000 = (if dll then 0x2000 else 0) /\
      Forall2 same_contents l (p_sections r) /\ chain sa (first_address sa l) (p_sections r) /\
      imagesize r = first_address sa l + total_space sa l.
Proof. exact created_loads. Qed.
Print Assumptions C62_created_images_load.
Definition C62_sections : list section :=
  [set_s_rawptr 0 (set_s_va 0 sample_code); set_s_rawptr 0 (set_s_va 0 sample_data)].
Lemma C62_wf s : wf_section s -> wf_section (set_s_rawptr 0 (set_s_va 0 s)).
Proof.
  unfold wf_section. cbn [set_s_rawptr set_s_va s_name s_vsize s_va s_rawsize s_rawptr s_relptr s_lineptr s_nrel s_nline s_chars s_data s_old].
  unfold is_u32. intuition lia.
Qed.
Example C62_case :
  power_of_two 0x1000 /\ Forall to_add C62_sections /\ first_address 0x1000 C62_sections + total_space 0x1000 C62_sections = 0x4000 /\
  created_headers false true (zlen C62_sections) 0x200 <= first_address 0x1000 C62_sections.
Proof.
  split; [exists 12; split; [lia|reflexivity]|]. split; [|split; [vm_compute; reflexivity|vm_compute; congruence]].
  constructor; [|constructor; [|constructor]]; (split; [apply C62_wf; first [exact sample_code_wf|exact sample_data_wf]|]);
  (split; [vm_compute; congruence|]); (split; [vm_compute; congruence|]); (split; [right; vm_compute; congruence|]); (split; [reflexivity|left; reflexivity]).
Qed.
(** A new image has no sections and no data directories; its headers say what was asked for, the flags executable and
    relocations stripped, 32 bit machine in PE32 and DLL if asked for, versions 5.1, and a megabyte each for stack and heap.
    The machine is i386 (0x14C) also in PE32+. *)
Theorem C62_new_image : forall plus sa dll subsystem, let p := create_pe plus sa dll subsystem in
  p_plus p = plus /\ salign p = sa /\ h_subsystem (p_nt p) = subsystem /\ p_sections p = [] /\ h_nsections (p_nt p) = 0 /\
  h_chars (p_nt p) = 1 + 2 + (if plus then 0 else 0x100) + (if dll then 0x2000 else 0) /\
  (forall id, 0 <= id -> directory_exists p id = Ok false) /\ nrva p = 16 /\ h_ep (p_nt p) = 0 /\ imagebase p = 0x400000 /\ falign p = 512 /\ hdrsize p = 1024 /\
  p_magic p = 0x5A4D /\ h_signature (p_nt p) = 0x4550 /\ h_magic (p_nt p) = (if plus then 0x20b else 0x10b) /\ h_optsize (p_nt p) = (if plus then 240 else 224) /\ h_machine (p_nt p) = 0x14C /\
  (h_majos (p_nt p), h_minos (p_nt p)) = (5, 1) /\ (h_majsub (p_nt p), h_minsub (p_nt p)) = (5, 1) /\
  (h_stackres (p_nt p), h_stackcom (p_nt p)) = (2^20, 2^12) /\ (h_heapres (p_nt p), h_heapcom (p_nt p)) = (2^20, 2^12).
Proof.
  intros plus sa dll subsystem p. assert (D : forall id, 0 <= id -> directory_exists p id = Ok false).
  { intros id H. unfold directory_exists. assert (N : nrva p = 16) by (unfold p; destruct plus, dll; reflexivity). assert (E : h_dirs (p_nt p) = repeat (0, 0) 16) by (unfold p; destruct plus, dll; reflexivity). rewrite N, E. change (u32 (16 - 1)) with 15.
    destruct (Z.leb_spec id 15); [|reflexivity]. assert (C : In id (map Z.of_nat (seq 0 16))) by (apply in_map_iff; exists (Z.to_nat id); split; [lia|apply in_seq; lia]).
    cbn [map seq] in C. repeat (destruct C as [<-|C]; [reflexivity|]). destruct C. }
  unfold p in *. destruct plus, dll; repeat (split; [reflexivity|]); (split; [exact D|]); repeat split; reflexivity.
Qed.
Print Assumptions C62_new_image.
