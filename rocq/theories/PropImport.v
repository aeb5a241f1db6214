(** C36-C38 and the part of C61 on imports. *)
From Verif Require Import ImportFacts SamplesDir SamplesRead.

(** C37: whatever the image contains, reading its imports ends with a list or an exception and reads no byte outside
    the image's buffers. *)
Theorem C37_reading_is_safe : forall p, readable p -> addressable p -> viewable p -> safe (get_imports p).
Proof. exact imports_safe. Qed.
Print Assumptions C37_reading_is_safe.
(** A library [a.d] with the functions [f] (hint 5) and ordinal 7, at address 0x2000. *)
Definition C37_data : list Z :=
  descriptor 0x2040 11 0 0x2030 0x2050 ++ zeros 20 ++ zeros 8 ++ [97; 46; 100; 0] ++ [5; 0; 102; 0] ++ zeros 8 ++
  le 4 0x2034 ++ le 4 (2^31 + 7) ++ le 4 0 ++ zeros 4 ++ le 4 1 ++ le 4 2 ++ le 4 0.
Definition C37_pe : pe := sample_read 1 (0x2000, 40) C37_data.
Definition C37_libs : list library := [mk_library [97; 46; 100] 11 0x2050 0x2040 [mk_imported [102] 5 0 1; mk_imported [] 0 7 2]].
Lemma C37_ready : readable C37_pe /\ addressable C37_pe /\ viewable C37_pe.
Proof.
  split; [apply sample_read_readable; try small; vm_compute; repeat constructor; intuition congruence|].
  split; [repeat constructor; vm_compute; reflexivity|apply unmapped_viewable; repeat constructor].
Qed.
Example C37_case : readable C37_pe /\ addressable C37_pe /\ viewable C37_pe /\ get_imports C37_pe = Ok C37_libs /\
  (exists e, get_imports (sample_read 1 (0x3fff, 40) C37_data) = Throw e).
Proof. pose proof C37_ready as (A & B & C). repeat (split; [assumption|]). split; [vm_compute; reflexivity|eexists; vm_compute; reflexivity]. Qed.

(** C36: what is returned is what the tables of the image say, and every well-formed table is returned. *)
Theorem C36_exact_tables : forall p, readable p -> addressable p -> viewable p -> forall rva size l,
  dir_is p dir_import (rva, size) -> dir_import < nrva p -> rva <> 0 -> (get_imports p = Ok l <-> library_table p rva l).
Proof. exact imports_exact. Qed.
Print Assumptions C36_exact_tables.
Example C36_exact_case : dir_is C37_pe dir_import (0x2000, 40) /\ dir_import < nrva C37_pe /\ library_table C37_pe 0x2000 C37_libs.
Proof.
  assert (D : dir_is C37_pe dir_import (0x2000, 40)) by (split; [vm_compute; congruence|reflexivity]). pose proof C37_ready as (A & B & C).
  split; [exact D|]. split; [vm_compute; reflexivity|]. apply (imports_exact _ A B C 0x2000 40 _ D ltac:(vm_compute; reflexivity) ltac:(lia)). vm_compute. reflexivity.
Qed.
(** C36 (part): the libraries that are rebuilt into a section with room for them are read back: names, timestamps, and
    for every function its name and hint or its ordinal. [recoverable] says, for each setting, what a library must
    look like: new tables need non-zero addresses of the functions if there is an original IAT, and no ordinals if
    there is none; tables that stay where they are must be there. Missing: tables rewritten in place (see
    PropRewrite.v), images in which the strings end behind 2^31, and the libraries that [recoverable] leaves out; the theorems below
    refute the round trip for them. *)
Theorem C36_round_trip_partial : forall p libs i o start s, let off := o_offset o in let base := s_va s + (off + total library_text_size libs) in
  0 <= off -> Forall (fun l => stays o l && o_rewrite o = false) libs -> Forall valid_library libs -> room p start i (off + import_size p libs o) ->
  dir_import < nrva p <= 16 -> (o_zero_iat o = true -> dir_iat < nrva p) -> o_headers o = true ->
  readable p -> addressable p -> viewable p -> nth_error (p_sections p) i = Some s -> base < 2^31 -> Forall (recoverable p i o) libs ->
  exists p' where_ ms, rebuild_imports p libs i o = Ok (p', where_) /\ get_imports p' = Ok ms /\ Forall2 (same_library p o) libs ms.
Proof. exact imports_round. Qed.
Print Assumptions C36_round_trip_partial.
Definition C36_libs : list library :=
  [mk_library [97; 46; 100] 11 0 0 [mk_imported [102] 5 0 1; mk_imported [] 0 7 2; mk_imported [103; 104] 0xffff 0 0x12345678]; mk_library [98] 0 0 0 []].
Definition C36_set (build : bool) : import_settings := mk_settings 3 build false false true true false false.
Lemma C36_ready : readable sample_pe /\ addressable sample_pe /\ viewable sample_pe.
Proof.
  split.
  - split; [exact sample_dirs|]. split; [split; vm_compute; congruence|]. split; [exact sample_wf_sections|]. split; [apply Forall_forall; intros x [<-|[<-|Hx]]; [lia|lia|apply repeat_spec in Hx; lia]|reflexivity].
  - split; [repeat constructor; vm_compute; reflexivity|apply unmapped_viewable; repeat constructor].
Qed.
Lemma C36_valid : Forall valid_library C36_libs.
Proof. repeat constructor; cbn [l_name l_time l_iat l_oiat l_funcs m_name m_hint m_ordinal m_iat]; unfold is_u16, is_u32, is_u64; try lia. Qed.
Example C36_case : 0 <= o_offset (C36_set true) /\ Forall (fun l => stays (C36_set true) l && o_rewrite (C36_set true) = false) C36_libs /\ Forall valid_library C36_libs /\
  room sample_pe 0x1000 1 (o_offset (C36_set true) + import_size sample_pe C36_libs (C36_set true)) /\ dir_import < nrva sample_pe <= 16 /\ dir_iat < nrva sample_pe /\
  readable sample_pe /\ addressable sample_pe /\ viewable sample_pe /\ nth_error (p_sections sample_pe) 1 = Some sample_data /\
  s_va sample_data + (3 + total library_text_size C36_libs) < 2^31 /\ Forall (recoverable sample_pe 1 (C36_set true)) C36_libs.
Proof.
  split; [cbn; lia|]. split; [repeat constructor|]. split; [exact C36_valid|]. split; [apply sample_room_data; vm_compute; intuition congruence|].
  split; [split; vm_compute; congruence|]. split; [vm_compute; reflexivity|]. pose proof C36_ready as (A & B & C). repeat (split; [assumption|]). split; [reflexivity|]. split; [vm_compute; reflexivity|].
  repeat constructor; cbn; try (intuition congruence); try (vm_compute; congruence).
Qed.
(** A library whose tables stay at addresses 0x2040 and 0x2050 is rebuilt into the other section. *)
Example C36_stays_case : let o := mk_settings 0 true true false true true false false in
  Forall (recoverable C37_pe 0 o) C37_libs /\ Forall (fun l => stays o l = true) C37_libs /\ Forall (fun l => stays o l && o_rewrite o = false) C37_libs /\
  exists p' where_, rebuild_imports C37_pe C37_libs 0 o = Ok (p', where_) /\ get_imports p' = Ok C37_libs.
Proof.
  cbv zeta. assert (El : forall a, 0x2000 <= a < 0x4000 -> elsewhere C37_pe 0 a).
  { intros a Ha. exists 1%nat, (set_s_data C37_data sample_data). split; [discriminate|]. split; [reflexivity|]. assert (Sp : span (salign C37_pe) (set_s_data C37_data sample_data) = 0x2000) by (vm_compute; reflexivity).
    unfold occupies, send. rewrite Sp. change (s_va _) with 0x2000. lia. }
  assert (Ow : forall a w, 0x2000 <= a < 0x4000 -> 0 <= w < 2^32 -> shows C37_pe a (le 4 w) -> old_word C37_pe 0 a w) by (intros a w Ha Hw Sh; split; [apply El, Ha|split; [exact Hw|exact Sh]]).
  split.
  { constructor; [|constructor]. split; [cbn; intuition congruence|]. change (stays _ _) with true. cbv iota. split; [reflexivity|]. change (o_build _ && _ && _) with false. cbv iota.
    replace (if o_build _ && negb _ then l_oiat _ else l_iat _) with 0x2040 by reflexivity. cbn [l_iat l_oiat l_funcs].
    split; [|split; [exists 1; apply Ow; [lia|cbn [m_iat]; lia|vm_compute; reflexivity]|intros _ _; exists 0x2034; apply Ow; [lia|cbn [m_iat]; lia|vm_compute; reflexivity]]].
    apply (old_next _ _ 0x2050 0x2040 0x2034); [discriminate|apply Ow; [lia|cbn [m_iat]; lia|vm_compute; reflexivity]|lia|apply Ow; [lia|cbn [m_iat]; lia|vm_compute; reflexivity]| |intros _; split; apply El; lia|].
    - unfold import_of. change (_ <=? _) with false. cbv iota. split; [lia|]. split; [|split; [vm_compute; intuition congruence|split; vm_compute; reflexivity]].
      unfold text. eexists. eexists. eexists. split; [vm_compute; reflexivity|]. split; [lia|]. split; [vm_compute; reflexivity|]. split; [vm_compute; reflexivity|]. split; [vm_compute; reflexivity|cbn; intuition congruence].
    - change (Z.of_nat (word_size C37_pe)) with 4. apply (old_next _ _ 0x2054 0x2044 (2^31 + 7)); [discriminate|apply Ow; [lia|cbn [m_iat]; lia|vm_compute; reflexivity]|lia|apply Ow; [lia|cbn [m_iat]; lia|vm_compute; reflexivity]| |intros K; vm_compute in K; discriminate|].
      + vm_compute. intuition.
      + change (Z.of_nat (word_size C37_pe)) with 4. apply old_end. apply Ow; [lia|cbn [m_iat]; lia|vm_compute; reflexivity]. }
  split; [repeat constructor|]. split; [repeat constructor|].
  assert (M : match rebuild_imports C37_pe C37_libs 0 (mk_settings 0 true true false true true false false) with Ok (q, _) => get_imports q | _ => Throw insufficient_space end = Ok C37_libs) by (vm_compute; reflexivity).
  destruct (rebuild_imports C37_pe C37_libs 0 _) as [[q w]| | |]; try discriminate M. exists q, w. split; [reflexivity|exact M].
Qed.
(** Without an original IAT, a function that is imported by ordinal is lost. *)
Theorem C36_ordinal_refuted : exists p libs i o start p' where_,
  0 <= o_offset o /\ o_build o = false /\ o_save o = false /\ o_fill o = false /\ o_headers o = true /\ Forall valid_library libs /\ room p start i (o_offset o + import_size p libs o) /\
  dir_import < nrva p <= 16 /\ readable p /\ addressable p /\ viewable p /\ rebuild_imports p libs i o = Ok (p', where_) /\
  map l_funcs libs = [[mk_imported [] 0 7 1]] /\ exists ms, get_imports p' = Ok ms /\ map l_funcs ms = [[]].
Proof.
  set (libs := [mk_library [97] 0 0 0 [mk_imported [] 0 7 1]]). exists sample_pe, libs, 1%nat, (C36_set false), 0x1000.
  destruct (rebuild_imports sample_pe libs 1 (C36_set false)) as [[p' w]| | |] eqn:E; try (vm_compute in E; discriminate). exists p', w.
  split; [cbn; lia|]. repeat (split; [reflexivity|]). split; [repeat constructor; cbn; unfold is_u16, is_u32, is_u64; lia|]. split; [apply sample_room_data; vm_compute; intuition congruence|].
  split; [split; vm_compute; congruence|]. pose proof C36_ready as (A & B & C). repeat (split; [assumption|]). split; [reflexivity|]. split; [reflexivity|].
  vm_compute in E. injection E as <- _. eexists. split; vm_compute; reflexivity.
Qed.
Print Assumptions C36_ordinal_refuted.
(** With an original IAT, a function whose address is not set ends the list. *)
Theorem C36_no_address_refuted : exists p libs i o start p' where_,
  0 <= o_offset o /\ o_build o = true /\ o_save o = false /\ o_fill o = false /\ o_headers o = true /\ Forall valid_library libs /\ room p start i (o_offset o + import_size p libs o) /\
  dir_import < nrva p <= 16 /\ readable p /\ addressable p /\ viewable p /\ rebuild_imports p libs i o = Ok (p', where_) /\
  map l_funcs libs = [[mk_imported [102] 0 0 0; mk_imported [103] 0 0 1]] /\ exists ms, get_imports p' = Ok ms /\ map l_funcs ms = [[]].
Proof.
  set (libs := [mk_library [97] 0 0 0 [mk_imported [102] 0 0 0; mk_imported [103] 0 0 1]]). exists sample_pe, libs, 1%nat, (C36_set true), 0x1000.
  destruct (rebuild_imports sample_pe libs 1 (C36_set true)) as [[p' w]| | |] eqn:E; try (vm_compute in E; discriminate). exists p', w.
  split; [cbn; lia|]. repeat (split; [reflexivity|]). split; [repeat constructor; cbn; unfold is_u16, is_u32, is_u64; lia|]. split; [apply sample_room_data; vm_compute; intuition congruence|].
  split; [split; vm_compute; congruence|]. pose proof C36_ready as (A & B & C). repeat (split; [assumption|]). split; [reflexivity|]. split; [reflexivity|].
  vm_compute in E. injection E as <- _. eexists. split; vm_compute; reflexivity.
Qed.
Print Assumptions C36_no_address_refuted.
(** If missing original IATs are to be filled but original IATs are not to be built, the new IAT gets the addresses and
    nothing refers to the names: the reader takes the addresses for names and throws. *)
Theorem C36_fill_without_build_refuted : exists p libs i o start p' where_ e,
  0 <= o_offset o /\ o_build o = false /\ o_save o = false /\ o_fill o = true /\ o_headers o = true /\ Forall valid_library libs /\ room p start i (o_offset o + import_size p libs o) /\
  dir_import < nrva p <= 16 /\ readable p /\ addressable p /\ viewable p /\ rebuild_imports p libs i o = Ok (p', where_) /\ get_imports p' = Throw e.
Proof.
  set (libs := [mk_library [97] 0 0 0 [mk_imported [102] 0 0 0x9000]]). set (o := mk_settings 0 false false true true true false false). exists sample_pe, libs, 1%nat, o, 0x1000.
  destruct (rebuild_imports sample_pe libs 1 o) as [[p' w]| | |] eqn:E; try (vm_compute in E; discriminate). exists p', w. eexists.
  split; [cbn; lia|]. repeat (split; [reflexivity|]). split; [repeat constructor; cbn; unfold is_u16, is_u32, is_u64; lia|]. split; [apply sample_room_data; vm_compute; intuition congruence|].
  split; [split; vm_compute; congruence|]. pose proof C36_ready as (A & B & C). repeat (split; [assumption|]). split; [reflexivity|].
  vm_compute in E. injection E as <- _. vm_compute. reflexivity.
Qed.
Print Assumptions C36_fill_without_build_refuted.

(** C38 (part): the bytes before the chosen offset and all other sections stay as they were. *)
Theorem C38_front_partial : forall p libs i o start,
  0 <= o_offset o -> Forall (fun l => stays o l && o_rewrite o = false) libs -> Forall valid_library libs -> room p start i (o_offset o + import_size p libs o) -> dirs_ok p ->
  dir_import < nrva p <= 16 -> (o_zero_iat o = true -> dir_iat < nrva p) ->
  exists p' where_, rebuild_imports p libs i o = Ok (p', where_) /\ only_behind p p' i (o_offset o).
Proof.
  intros p libs i o start A B C D E F G. destruct (rebuild_imports_ok p libs i o start A B C D E F G) as (p' & s & _ & H1 & H2 & _). eexists. eexists. split; [exact H1|exact H2].
Qed.
Print Assumptions C38_front_partial.
(** The bytes behind the import data are cut off. *)
Theorem C38_tail_refuted : exists p libs i o start p' where_ s s',
  0 <= o_offset o /\ Forall (fun l => stays o l = false) libs /\ Forall valid_library libs /\ room p start i (o_offset o + import_size p libs o) /\ dirs_ok p /\
  dir_import < nrva p <= 16 /\ dir_iat < nrva p /\ nth_error (p_sections p) i = Some s /\ rebuild_imports p libs i o = Ok (p', where_) /\ nth_error (p_sections p') i = Some s' /\
  o_offset o + import_size p libs o <= 0x1ff /\ byte_of s 0x1ff = 0x90 /\ byte_of s' 0x1ff = 0.
Proof.
  exists sample_pe, C36_libs, 0%nat, (C36_set true), 0x1000.
  destruct (rebuild_imports sample_pe C36_libs 0 (C36_set true)) as [[p' w]| | |] eqn:E; try (vm_compute in E; discriminate). exists p', w, sample_code. eexists.
  split; [cbn; lia|]. split; [repeat constructor|]. split; [exact C36_valid|]. split; [apply sample_room_code; vm_compute; intuition congruence|]. split; [exact sample_dirs|].
  split; [split; vm_compute; congruence|]. split; [vm_compute; reflexivity|]. split; [reflexivity|]. split; [reflexivity|].
  vm_compute in E. injection E as <- _. split; [reflexivity|]. vm_compute. intuition congruence.
Qed.
Print Assumptions C38_tail_refuted.

(** C61 for imports: rebuilding refuses sections that are not attached *)
Theorem C61_imports_not_attached : forall p libs i o, nth_error (p_sections p) i = None -> rebuild_imports p libs i o = Throw section_is_not_attached.
Proof. exact imports_detached. Qed.
Print Assumptions C61_imports_not_attached.
(** and refuses to overflow a section that is not the last one. *)
Theorem C61_imports_no_overflow : forall p libs i o, 0 <= o_offset o -> o_offset o + import_size p libs o < 2^32 -> no_room p i (o_offset o + import_size p libs o) ->
  rebuild_imports p libs i o = Throw insufficient_space.
Proof. exact imports_full. Qed.
Print Assumptions C61_imports_no_overflow.
(** On success, only the chosen section from the chosen offset on, and the entries of imports and, if asked, of the IAT
    in the directory table differ. *)
Theorem C61_imports_only : forall p libs i o start,
  0 <= o_offset o -> Forall (fun l => stays o l && o_rewrite o = false) libs -> Forall valid_library libs -> room p start i (o_offset o + import_size p libs o) -> dirs_ok p ->
  dir_import < nrva p <= 16 -> (o_zero_iat o = true -> dir_iat < nrva p) ->
  exists p' s d, nth_error (p_sections p) i = Some s /\ rebuild_imports p libs i o = Ok (p', d) /\
    d = (s_va s + (o_offset o + total library_text_size libs), import_size p libs o - total library_text_size libs) /\
    only_behind p p' i (o_offset o) /\ same_headers p p' /\ image_ok p' start /\ import_directories p p' o d.
Proof.
  intros p libs i o start A B C D E F G. destruct (rebuild_imports_ok p libs i o start A B C D E F G) as (p' & s & H0 & H1 & H2 & H3 & H4 & H5 & _).
  exists p', s. eexists. repeat (split; [eassumption || reflexivity|]). exact H5.
Qed.
Print Assumptions C61_imports_only.
Example C61_imports_case : no_room sample_pe 0 (0x1f0 + import_size sample_pe C36_libs (C36_set true)) /\ nth_error (p_sections sample_pe) 2 = None /\
  room sample_pe 0x1000 0 (3 + import_size sample_pe C36_libs (C36_set true)).
Proof. split; [apply sample_no_room; vm_compute; reflexivity|]. split; [reflexivity|]. apply sample_room_code; vm_compute; intuition congruence. Qed.
