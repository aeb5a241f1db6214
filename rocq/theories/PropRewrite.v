(** C36 and C61 for import tables that are rewritten where they are. *)
From Verif Require Import RewriteRound SamplesDir PropImport.

(** C36 (part): with the option to rewrite the tables of libraries where they are, the libraries are read back: the names, the timestamps, the places of the
    tables and for every function its name and hint or its ordinal, also if there is no table of names. Missing: the option to fill in missing tables of
    names, and tables in the headers, in the section that is rebuilt, or behind the file data of their section. *)
Theorem C36_rewritten_partial : forall p libs i o start s, let off := o_offset o in let base := s_va s + (off + total library_text_size libs) in let tables := concat (map (old_places p o) libs) in
  0 <= off -> o_rewrite o = true -> o_fill o = false -> Forall valid_library libs -> room p start i (off + import_size p libs o) ->
  dir_import < nrva p <= 16 -> (o_zero_iat o = true -> dir_iat < nrva p) -> o_headers o = true ->
  unmapped p -> nth_error (p_sections p) i = Some s -> zlen (raw_view s) < 2^31 -> Forall (in_other_section p i) tables -> disjoint tables ->
  readable p -> addressable p -> viewable p -> base < 2^31 -> Forall (recoverable_here p o) libs ->
  exists p' where_ ms, rebuild_imports p libs i o = Ok (p', where_) /\ get_imports p' = Ok ms /\ Forall2 (same_here p o) libs ms.
Proof. exact rewrite_round. Qed.
Print Assumptions C36_rewritten_partial.
(** C61: on success only the bytes of the tables, the chosen section from the chosen offset on, and the entries of imports and, if asked, of the IAT in the
    directory table differ. *)
Theorem C61_rewritten_only : forall p libs i o start s, let T := total library_text_size libs in let d := (s_va s + (o_offset o + T), import_size p libs o - T) in let tables := concat (map (old_places p o) libs) in
  0 <= o_offset o -> o_rewrite o = true -> o_fill o = false -> Forall valid_library libs -> room p start i (o_offset o + import_size p libs o) -> dirs_ok p ->
  dir_import < nrva p <= 16 -> (o_zero_iat o = true -> dir_iat < nrva p) ->
  unmapped p -> nth_error (p_sections p) i = Some s -> zlen (raw_view s) < 2^31 -> Forall (in_other_section p i) tables -> disjoint tables ->
  exists p', rebuild_imports p libs i o = Ok (p', d) /\ only_tables p p' i (o_offset o) tables /\ same_headers p p' /\ image_ok p' start /\ import_directories p p' o d.
Proof.
  intros p libs i o start s T d tables H1 H2 H3 H4 H5 H6 H7 H8 H9 H10 H11 H12 H13. destruct (rewrite_ok p libs i o start s H1 H2 H3 H4 H5 H6 H7 H8 H9 H10 H11 H12 H13) as (p' & E1 & E2 & E3 & E4 & E5 & _). exists p'. do 4 (split; [assumption|]). exact E5.
Qed.
Print Assumptions C61_rewritten_only.
(** Two libraries: one with both tables in the code section, one with a table of addresses only; the rest goes to the data section. *)
Definition C36_here : list library :=
  [mk_library [97; 46; 100] 11 0x1010 0x1040 [mk_imported [102] 5 0 1; mk_imported [] 0 7 2]; mk_library [98] 0 0x1080 0 [mk_imported [] 0 9 0; mk_imported [103; 104] 0xffff 0 0]; mk_library [99] 1 0 0 [mk_imported [104] 1 0 0x5000]].
Definition C36_here_set : import_settings := mk_settings 3 true true false true true true false.
Lemma code_place a m : 0x1000 <= a -> 0 <= m -> a + m < 0x1200 -> in_other_section sample_pe 1 (a, m).
Proof.
  intros H1 H2 H3. exists 0%nat, sample_code. split; [discriminate|]. split; [reflexivity|]. cbn [fst snd]. assert (Sp : span (salign sample_pe) sample_code = 0x1000) by (vm_compute; reflexivity).
  assert (Lr : zlen (raw_view sample_code) = 0x200) by (vm_compute; reflexivity). assert (Va : s_va sample_code = 0x1000) by reflexivity. unfold occupies, send. rewrite Sp, Lr, Va. split; [lia|]. split; [vm_compute; congruence|]. lia.
Qed.
Ltac show_recoverable := split; [cbn; intuition congruence|]; split; [repeat (apply Forall_cons; [cbn; intuition congruence|]); apply Forall_nil|];
  repeat lazymatch goal with |- if ?b then _ else _ => let v := eval vm_compute in b in replace b with v by (vm_compute; reflexivity); cbv iota end;
  try (intros Hb; match type of Hb with ?b = true => let v := eval vm_compute in b in lazymatch v with false => exfalso; vm_compute in Hb; discriminate Hb | true => clear Hb end end);
  repeat (apply Forall_cons; [vm_compute; intros Hm; discriminate Hm|]); apply Forall_nil.
Example C36_rewritten_case : let tables := concat (map (old_places sample_pe C36_here_set) C36_here) in
  tables = [(0x1010, 12); (0x1040, 12); (0x1080, 12)] /\ Forall valid_library C36_here /\ room sample_pe 0x1000 1 (3 + import_size sample_pe C36_here C36_here_set) /\ dir_import < nrva sample_pe <= 16 /\ dir_iat < nrva sample_pe /\
  unmapped sample_pe /\ nth_error (p_sections sample_pe) 1 = Some sample_data /\ zlen (raw_view sample_data) < 2^31 /\ Forall (in_other_section sample_pe 1) tables /\ disjoint tables /\
  readable sample_pe /\ addressable sample_pe /\ viewable sample_pe /\ s_va sample_data + (3 + total library_text_size C36_here) < 2^31 /\ Forall (recoverable_here sample_pe C36_here_set) C36_here /\
  exists p' w ms, rebuild_imports sample_pe C36_here 1 C36_here_set = Ok (p', w) /\ get_imports p' = Ok ms /\ map (fun m => (l_name m, map (fun f => (m_name f, m_hint f, m_ordinal f)) (l_funcs m))) ms =
    [([97; 46; 100], [([102], 5, 0); ([], 0, 7)]); ([98], [([], 0, 9); ([103; 104], 0xffff, 0)]); ([99], [([104], 1, 0)])].
Proof.
  cbv zeta. assert (Et : concat (map (old_places sample_pe C36_here_set) C36_here) = [(0x1010, 12); (0x1040, 12); (0x1080, 12)]) by (vm_compute; reflexivity). rewrite Et. split; [reflexivity|].
  split; [repeat constructor; cbn [l_name l_time l_iat l_oiat l_funcs m_name m_hint m_ordinal m_iat]; unfold is_u16, is_u32, is_u64; lia|]. split; [apply sample_room_data; vm_compute; intuition congruence|]. split; [split; vm_compute; congruence|]. split; [vm_compute; reflexivity|].
  split; [exact sample_unmapped|]. split; [reflexivity|]. split; [vm_compute; reflexivity|]. split; [repeat constructor; apply code_place; lia|].
  split; [repeat constructor; unfold apart; cbn [fst snd]; lia|]. pose proof C36_ready as (A & B & C). repeat (split; [assumption|]). split; [vm_compute; reflexivity|].
  split; [repeat (apply Forall_cons; [show_recoverable|]); apply Forall_nil|].
  assert (M : match rebuild_imports sample_pe C36_here 1 C36_here_set with Ok (q, _) => match get_imports q with Ok ms => map (fun m => (l_name m, map (fun f => (m_name f, m_hint f, m_ordinal f)) (l_funcs m))) ms | _ => [] end | _ => [] end =
    [([97; 46; 100], [([102], 5, 0); ([], 0, 7)]); ([98], [([], 0, 9); ([103; 104], 0xffff, 0)]); ([99], [([104], 1, 0)])]) by (vm_compute; reflexivity).
  destruct (rebuild_imports sample_pe C36_here 1 C36_here_set) as [[q w]| | |]; try discriminate M. exists q, w. destruct (get_imports q) as [ms| | |]; try discriminate M. exists ms. split; [reflexivity|]. split; [reflexivity|exact M].
Qed.
(** A table that ends with the last byte of its section's file data, as it can be read, cannot be rewritten: the check before each word asks for more than one word. *)
Theorem C36_rewrite_end_refuted : exists p libs i o start s l j t,
  0 <= o_offset o /\ o_rewrite o = true /\ o_fill o = false /\ libs = [l] /\ Forall valid_library libs /\ room p start i (o_offset o + import_size p libs o) /\ dir_import < nrva p <= 16 /\ (o_zero_iat o = true -> dir_iat < nrva p) /\
  unmapped p /\ nth_error (p_sections p) i = Some s /\ zlen (raw_view s) < 2^31 /\ Forall (recoverable_here p o) libs /\
  j <> i /\ nth_error (p_sections p) j = Some t /\ old_places p o l = [(l_iat l, library_table_size p l)] /\ s_va t <= l_iat l /\ l_iat l + library_table_size p l = s_va t + zlen (raw_view t) /\
  rebuild_imports p libs i o = Throw insufficient_space.
Proof.
  set (l := mk_library [97] 0 0x11f8 0 [mk_imported [102] 5 0 1]). exists sample_pe, [l], 1%nat, C36_here_set, 0x1000, sample_data, l, 0%nat, sample_code.
  split; [cbn; lia|]. do 3 (split; [reflexivity|]). split; [repeat constructor; cbn [l l_name l_time l_iat l_oiat l_funcs m_name m_hint m_ordinal m_iat]; unfold is_u16, is_u32, is_u64; lia|].
  split; [apply sample_room_data; vm_compute; intuition congruence|]. split; [split; vm_compute; congruence|]. split; [intros _; vm_compute; reflexivity|]. split; [exact sample_unmapped|]. split; [reflexivity|]. split; [vm_compute; reflexivity|].
  split; [repeat (apply Forall_cons; [show_recoverable|]); apply Forall_nil|]. split; [discriminate|]. split; [reflexivity|]. split; [vm_compute; reflexivity|]. split; [vm_compute; congruence|]. split; vm_compute; reflexivity.
Qed.
Print Assumptions C36_rewrite_end_refuted.
