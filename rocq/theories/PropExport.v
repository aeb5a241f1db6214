(** C32-C35, C63 and the part of C61 on exports. *)
From Verif Require Import ExportFacts SamplesDir SamplesRead.

(** C32 (part): a list of functions with distinct ordinals and names, rebuilt into a section with room for it,
    is read back in the order of the ordinals, together with the directory information. Missing: the functions that
    [plain_export] leaves out, empty lists, and lists without names that end exactly at the end of
    the section's address range; the theorems below refute the round trip for them. *)
Theorem C32_round_trip_partial : forall p start i info l off strip s,
  0 <= off -> l <> [] -> Forall valid_export l -> valid_info info -> distinct_exports l ->
  room p start i (ceil_mult off 4 + export_size (xi_name info) l) -> dirs_ok p -> dir_export < nrva p <= 16 ->
  nth_error (p_sections p) i = Some s -> Forall (plain_export (s_va s + ceil_mult off 4) (export_size (xi_name info) l)) l -> ~ In 0 (xi_name info) ->
  export_names l <> [] \/ ~ (salign p | ceil_mult off 4 + export_size (xi_name info) l) ->
  exists p' where_ x l' m, rebuild_exports p info l i off true strip = Ok (p', where_) /\
    get_exports p' true = Ok (Some x, l') /\ get_exports p' false = Ok (None, l') /\ same_info l info x /\
    Permutation l m /\ StronglySorted by_ordinal m /\ Forall2 (same_export (lowest l)) m l'.
Proof.
  intros p start i info l off strip s A B C D E F G H I J K M.
  destruct (rebuild_exports_ok p start i info l off true strip A B C D E F G H) as (p' & s' & out & X1 & X2 & _ & _ & _ & _ & _ & X3).
  rewrite I in X1. injection X1 as <-. destruct (X3 eq_refl J K M) as (x & l' & names & Y1 & Y2 & Y3 & (m & Y4 & Y5 & Y6) & _).
  exists p', (s_va s + ceil_mult off 4, export_size (xi_name info) l), x, l', m. tauto.
Qed.
Print Assumptions C32_round_trip_partial.
Definition C32_info : export_info := mk_info 1 0x5f3c11aa 2 3 [97; 46; 100] 0 0 0 0 0 0.
Definition C32_l : list exported :=
  [mk_exported 9 0x1010 [98; 98] 0 []; mk_exported 4 0x1020 [] 0 []; mk_exported 7 0 [97; 200] 0 [107; 46; 102]; mk_exported 5 0x1030 [97] 0 []].
Lemma C32_l_valid : Forall valid_export C32_l. Proof. repeat constructor; cbn [e_name e_fwd e_ordinal e_rva]; unfold is_u16, is_u32; try lia. Qed.
Lemma C32_l_distinct : distinct_exports C32_l.
Proof. split; vm_compute; repeat constructor; cbn [In]; intuition congruence. Qed.
Lemma C32_l_plain : Forall (plain_export (0x2000 + 4) (export_size [97; 46; 100] C32_l)) C32_l.
Proof.
  set (n := export_size _ _). vm_compute in n. subst n.
  repeat constructor; cbn [e_name e_fwd e_ordinal e_rva In]; try (intros; intuition congruence); try (intros; lia); match goal with H : e_fwd _ = [] |- _ => discriminate H end.
Qed.
Example C32_case : 0 <= 2 /\ C32_l <> [] /\ Forall valid_export C32_l /\ valid_info C32_info /\ distinct_exports C32_l /\
  room sample_pe 0x1000 1 (ceil_mult 2 4 + export_size (xi_name C32_info) C32_l) /\ dirs_ok sample_pe /\ dir_export < nrva sample_pe <= 16 /\
  nth_error (p_sections sample_pe) 1 = Some sample_data /\ Forall (plain_export (s_va sample_data + ceil_mult 2 4) (export_size (xi_name C32_info) C32_l)) C32_l /\
  ~ In 0 (xi_name C32_info) /\ export_names C32_l <> [].
Proof.
  split; [lia|]. split; [discriminate|]. split; [exact C32_l_valid|]. split; [repeat split; cbn; try lia; repeat constructor; lia|]. split; [exact C32_l_distinct|].
  split; [apply sample_room_data; vm_compute; intuition congruence|]. split; [exact sample_dirs|]. split; [split; vm_compute; congruence|]. split; [reflexivity|].
  split; [exact C32_l_plain|]. split; [cbn; intuition congruence|discriminate].
Qed.
(** A forwarded function without a name comes back as an ordinary function whose address is that of the string. *)
Theorem C32_unnamed_forwarder_refuted : exists p start i info l off p' where_,
  0 <= off /\ l <> [] /\ Forall valid_export l /\ valid_info info /\ distinct_exports l /\
  room p start i (ceil_mult off 4 + export_size (xi_name info) l) /\ dirs_ok p /\ dir_export < nrva p <= 16 /\
  rebuild_exports p info l i off true false = Ok (p', where_) /\
  exists x g, get_exports p' true = Ok (Some x, [g]) /\ map e_fwd l = [[107; 46; 102]] /\ e_fwd g = [].
Proof.
  exists sample_pe, 0x1000, 1%nat, C32_info, [mk_exported 7 0 [] 0 [107; 46; 102]], 0.
  destruct (rebuild_exports sample_pe C32_info [mk_exported 7 0 [] 0 [107; 46; 102]] 1 0 true false) as [[p' w]| | |] eqn:E; try (vm_compute in E; discriminate).
  exists p', w. split; [lia|]. split; [discriminate|]. split; [repeat constructor; cbn; unfold is_u16, is_u32; lia|]. split; [repeat split; cbn; try lia; repeat constructor; lia|].
  split; [split; repeat constructor; cbn; intuition|]. split; [apply sample_room_data; vm_compute; intuition congruence|]. split; [exact sample_dirs|]. split; [split; vm_compute; congruence|]. split; [reflexivity|].
  vm_compute in E. injection E as <- _. eexists. eexists. split; [vm_compute; reflexivity|]. split; reflexivity.
Qed.
Print Assumptions C32_unnamed_forwarder_refuted.
(** A function at address 0 is lost. *)
Theorem C32_null_address_refuted : exists p start i info l off p' where_,
  0 <= off /\ l <> [] /\ Forall valid_export l /\ valid_info info /\ distinct_exports l /\
  room p start i (ceil_mult off 4 + export_size (xi_name info) l) /\ dirs_ok p /\ dir_export < nrva p <= 16 /\
  rebuild_exports p info l i off true false = Ok (p', where_) /\ exists x, get_exports p' true = Ok (Some x, []).
Proof.
  exists sample_pe, 0x1000, 1%nat, C32_info, [mk_exported 7 0 [97] 0 []], 0.
  destruct (rebuild_exports sample_pe C32_info [mk_exported 7 0 [97] 0 []] 1 0 true false) as [[p' w]| | |] eqn:E; try (vm_compute in E; discriminate).
  exists p', w. split; [lia|]. split; [discriminate|]. split; [repeat constructor; cbn; unfold is_u16, is_u32; lia|]. split; [repeat split; cbn; try lia; repeat constructor; lia|].
  split; [split; repeat constructor; cbn; intuition|]. split; [apply sample_room_data; vm_compute; intuition congruence|]. split; [exact sample_dirs|]. split; [split; vm_compute; congruence|]. split; [reflexivity|].
  vm_compute in E. injection E as <- _. eexists. vm_compute. reflexivity.
Qed.
Print Assumptions C32_null_address_refuted.
(** Rebuilding an empty list of functions with ordinal base 0 gives a directory with one function, whose address is
    whatever the section had there. *)
Theorem C32_empty_list_refuted : exists p start i info off p' where_ x f,
  0 <= off /\ valid_info info /\ room p start i (ceil_mult off 4 + 48) /\ dirs_ok p /\ dir_export < nrva p <= 16 /\
  rebuild_exports p info [] i off true false = Ok (p', where_) /\ get_exports p' true = Ok (Some x, [f]).
Proof.
  exists sample_pe, 0x1000, 0%nat, C32_info, 0.
  destruct (rebuild_exports sample_pe C32_info [] 0 0 true false) as [[p' w]| | |] eqn:E; try (vm_compute in E; discriminate).
  exists p', w. eexists. eexists. split; [lia|]. split; [repeat split; cbn; try lia; repeat constructor; lia|].
  split; [apply sample_room_code; vm_compute; intuition congruence|]. split; [exact sample_dirs|]. split; [split; vm_compute; congruence|]. split; [reflexivity|].
  vm_compute in E. injection E as <- _. vm_compute. reflexivity.
Qed.
Print Assumptions C32_empty_list_refuted.
(** Without names, the address of the empty name table can be the end of the section, and the reader throws. *)
Theorem C32_no_names_refuted : exists p start i info l off p' where_ e,
  0 <= off /\ l <> [] /\ Forall valid_export l /\ valid_info info /\ distinct_exports l /\
  room p start i (ceil_mult off 4 + export_size (xi_name info) l) /\ dirs_ok p /\ dir_export < nrva p <= 16 /\
  Forall (fun f => e_rva f = 0x1010) l /\ rebuild_exports p info l i off true false = Ok (p', where_) /\ get_exports p' true = Throw e.
Proof.
  set (info := mk_info 0 0 0 0 (repeat 97 (Z.to_nat 8147)) 0 0 0 0 0 0). set (l := [mk_exported 1 0x1010 [] 0 []]).
  exists sample_pe, 0x1000, 1%nat, info, l, 0.
  assert (M : match rebuild_exports sample_pe info l 1 0 true false with Ok (q, _) => match get_exports q true with Throw _ => true | _ => false end | _ => false end = true) by (vm_compute; reflexivity).
  destruct (rebuild_exports sample_pe info l 1 0 true false) as [[p' w]| | |] eqn:E; try discriminate M.
  exists p', w. destruct (get_exports p' true) as [|e| |] eqn:E2; try discriminate M. exists e.
  split; [lia|]. split; [discriminate|]. split; [repeat constructor; cbn; unfold is_u16, is_u32; lia|].
  split. { repeat split; try (cbn; lia). apply Forall_forall. intros x Hx. apply repeat_spec in Hx. lia. }
  split; [split; repeat constructor; cbn; intuition|]. split; [apply sample_room_data; vm_compute; intuition congruence|]. split; [exact sample_dirs|]. split; [split; vm_compute; congruence|].
  split; [repeat constructor|]. split; reflexivity.
Qed.
Print Assumptions C32_no_names_refuted.

(** C33: a list in which two functions share an ordinal or two named functions share a name is refused with the
    matching exception. *)
Theorem C33_duplicates : forall p info l i off save strip s, nth_error (p_sections p) i = Some s -> ~ distinct_exports l ->
  (rebuild_exports p info l i off save strip = Throw duplicate_exported_function_ordinal /\ ~ NoDup (export_ordinals l)) \/
  (rebuild_exports p info l i off save strip = Throw duplicate_exported_function_name /\ ~ NoDup (export_names l)).
Proof. exact exports_duplicates. Qed.
Print Assumptions C33_duplicates.
Example C33_duplicates_case : nth_error (p_sections sample_pe) 1 = Some sample_data /\
  ~ distinct_exports [mk_exported 3 1 [97] 0 []; mk_exported 4 1 [97] 0 []] /\ ~ distinct_exports [mk_exported 3 1 [97] 0 []; mk_exported 3 1 [98] 0 []].
Proof. split; [reflexivity|]. split; intros [A B]; vm_compute in A, B; [inversion B as [|? ? K]|inversion A as [|? ? K]]; apply K; left; reflexivity. Qed.
(** The stored name table lists every name once, in strictly ascending order, each with the ordinal of its function. *)
Theorem C33_sorted_names : forall p start i info l off strip s,
  0 <= off -> l <> [] -> Forall valid_export l -> valid_info info -> distinct_exports l ->
  room p start i (ceil_mult off 4 + export_size (xi_name info) l) -> dirs_ok p -> dir_export < nrva p <= 16 ->
  nth_error (p_sections p) i = Some s -> Forall (plain_export (s_va s + ceil_mult off 4) (export_size (xi_name info) l)) l -> ~ In 0 (xi_name info) ->
  export_names l <> [] \/ ~ (salign p | ceil_mult off 4 + export_size (xi_name info) l) ->
  exists p' where_ x l' names, rebuild_exports p info l i off true strip = Ok (p', where_) /\ get_exports p' true = Ok (Some x, l') /\
    Permutation (export_names l) names /\ StronglySorted str_before names /\ name_table p' x l names.
Proof.
  intros p start i info l off strip s A B C D E F G H I J K M.
  destruct (rebuild_exports_ok p start i info l off true strip A B C D E F G H) as (p' & s' & out & X1 & X2 & _ & _ & _ & _ & _ & X3).
  rewrite I in X1. injection X1 as <-. destruct (X3 eq_refl J K M) as (x & l' & names & Y1 & Y2 & Y3 & _ & Y4 & Y5 & Y6).
  exists p', (s_va s + ceil_mult off 4, export_size (xi_name info) l), x, l', names. tauto.
Qed.
Print Assumptions C33_sorted_names.
(** The hypotheses are those of C32, see C32_case; the order on an example: *)
Example C33_sorted_case : StronglySorted str_before [[97]; [97; 200]; [98; 98]] /\ ~ str_before [98] [97; 200].
Proof.
  split; [repeat constructor; apply str_ltb_before; reflexivity|]. rewrite <- str_ltb_before. discriminate.
Qed.

(** C34 (part): for every non-empty list that the rebuilder accepts the computed size is enough: rebuilding into a
    section with room for exactly that many bytes succeeds and leaves all other bytes as they were. *)
Theorem C34_within_partial : forall p start i info l off save strip,
  0 <= off -> l <> [] -> Forall valid_export l -> valid_info info -> distinct_exports l ->
  room p start i (ceil_mult off 4 + export_size (xi_name info) l) -> dirs_ok p -> dir_export < nrva p <= 16 ->
  exists p' s out, rebuild_exports p info l i off save strip = Ok (p', (s_va s + ceil_mult off 4, zlen out)) /\
    zlen out = export_size (xi_name info) l /\ only_section p p' i (ceil_mult off 4) out.
Proof.
  intros p start i info l off save strip A B C D E F G H.
  destruct (rebuild_exports_ok p start i info l off save strip A B C D E F G H) as (p' & s & out & _ & X2 & X3 & X4 & _).
  exists p', s, out. rewrite X3. tauto.
Qed.
Print Assumptions C34_within_partial.
(** For an empty list with an ordinal base of 2 the size wraps and the header is written past the end of the data. *)
Theorem C34_empty_list_refuted : exists p start i info off, 0 <= off /\ valid_info info /\ room p start i (ceil_mult off 4 + 45) /\ dirs_ok p /\ dir_export < nrva p <= 16 /\
  rebuild_exports p info [] i off true false = Ub OobWrite.
Proof.
  exists sample_pe, 0x1000, 1%nat, (mk_info 0 0 0 0 [97; 98; 99; 100] 2 0 0 0 0 0), 0.
  split; [lia|]. split; [repeat split; cbn; try lia; repeat constructor; lia|]. split; [apply sample_room_data; vm_compute; intuition congruence|]. split; [exact sample_dirs|]. split; [split; vm_compute; congruence|].
  vm_compute. reflexivity.
Qed.
Print Assumptions C34_empty_list_refuted.

(** C35: whatever the image contains, reading its exports ends with a list or an exception and reads no byte outside the
    image's buffers; the ordinals are strictly ascending 16-bit numbers, and no address is 0. *)
Theorem C35_reading_is_safe : forall p want, readable p -> viewable p ->
  match get_exports p want with
  | Ok (_, l) => StronglySorted by_ordinal l /\ Forall (fun f => is_u16 (e_ordinal f) /\ is_u32 (e_rva f) /\ e_rva f <> 0) l
  | Throw _ => True
  | _ => False
  end.
Proof. exact exports_safe. Qed.
Print Assumptions C35_reading_is_safe.
Definition C35_pe (d : list Z) : pe := sample_read 0 (0x2000, 40) d.
Example C35_case :
  let d := zeros 12 ++ le 4 0x2038 ++ le 4 3 ++ le 4 2 ++ le 4 1 ++ le 4 0x2028 ++ le 4 0x2030 ++ le 4 0x2034 ++ le 4 0x1000 ++ le 4 0 ++ le 4 0x2038 ++ le 4 0 ++ [97; 0] in
  readable (C35_pe d) /\ viewable (C35_pe d) /\ (exists x, get_exports (C35_pe d) true = Ok (Some x, [mk_exported 3 0x1000 [97] 0 []])) /\
  get_exports (C35_pe (zeros 16 ++ le 4 3 ++ le 4 2 ++ le 4 3)) false = Throw incorrect_export_directory.
Proof.
  cbv zeta. split; [apply sample_read_readable; try small; vm_compute; repeat constructor; intuition congruence|].
  split; [apply unmapped_viewable; repeat constructor|]. split; [eexists; vm_compute; reflexivity|]. vm_compute. reflexivity.
Qed.

(** C63: the lookup helpers. *)
Theorem C63_name_exists : forall name l, exported_name_exists name l = true <-> In name (export_names l).
Proof. exact name_exists_iff. Qed.
Print Assumptions C63_name_exists.
Theorem C63_ordinal_exists : forall o l, exported_ordinal_exists o l = true <-> In o (export_ordinals l).
Proof. exact ordinal_exists_iff. Qed.
Print Assumptions C63_ordinal_exists.
Theorem C63_ordinal_limits : forall l lo hi, l <> [] -> Forall valid_export l -> export_ordinal_limits l = (lo, hi) ->
  In lo (export_ordinals l) /\ In hi (export_ordinals l) /\ Forall (fun o => lo <= o <= hi) (export_ordinals l).
Proof. exact limits_ok. Qed.
Print Assumptions C63_ordinal_limits.
Theorem C63_no_limits : export_ordinal_limits [] = (0, 0).
Proof. reflexivity. Qed.
Print Assumptions C63_no_limits.
Example C63_case : C32_l <> [] /\ Forall valid_export C32_l /\ export_ordinal_limits C32_l = (4, 9).
Proof. split; [discriminate|]. split; [exact C32_l_valid|reflexivity]. Qed.

(** C61 for exports: rebuilding refuses sections that are not attached *)
Theorem C61_exports_not_attached : forall p info l i off save strip,
  nth_error (p_sections p) i = None -> rebuild_exports p info l i off save strip = Throw section_is_not_attached.
Proof. exact exports_detached. Qed.
Print Assumptions C61_exports_not_attached.
(** and refuses to overflow a section that is not the last one. *)
Theorem C61_exports_no_overflow : forall p info l i off save strip,
  0 <= off -> l <> [] -> Forall valid_export l -> distinct_exports l -> ceil_mult off 4 + export_size (xi_name info) l < 2^32 ->
  no_room p i (ceil_mult off 4 + export_size (xi_name info) l) -> rebuild_exports p info l i off save strip = Throw insufficient_space.
Proof. exact exports_full. Qed.
Print Assumptions C61_exports_no_overflow.
(** On success, the only bytes that differ are those of the directory, at the offset rounded up to 4
    in the chosen section, and the only directory entry that differs is that of the exports. *)
Theorem C61_exports_only : forall p start i info l off save strip,
  0 <= off -> l <> [] -> Forall valid_export l -> valid_info info -> distinct_exports l ->
  room p start i (ceil_mult off 4 + export_size (xi_name info) l) -> dirs_ok p -> dir_export < nrva p <= 16 ->
  exists p' s out, nth_error (p_sections p) i = Some s /\
    rebuild_exports p info l i off save strip = Ok (p', (s_va s + ceil_mult off 4, export_size (xi_name info) l)) /\
    zlen out = export_size (xi_name info) l /\ only_section p p' i (ceil_mult off 4) out /\ same_headers p p' /\ image_ok p' start /\
    (if save then only_directory p p' dir_export (s_va s + ceil_mult off 4, export_size (xi_name info) l) else h_dirs (p_nt p') = h_dirs (p_nt p)).
Proof.
  intros p start i info l off save strip A B C D E F G H.
  destruct (rebuild_exports_ok p start i info l off save strip A B C D E F G H) as (p' & s & out & H1 & H2 & H3 & H4 & H5 & H6 & H7 & _).
  exists p', s, out. repeat (split; [assumption|]). exact H7.
Qed.
Print Assumptions C61_exports_only.
Example C61_exports_case :
  no_room sample_pe 0 (ceil_mult 0x1f0 4 + export_size (xi_name C32_info) C32_l) /\ nth_error (p_sections sample_pe) 2 = None /\
  room sample_pe 0x1000 0 (ceil_mult 0x20 4 + export_size (xi_name C32_info) C32_l).
Proof. split; [apply sample_no_room; vm_compute; reflexivity|]. split; [reflexivity|]. apply sample_room_code; vm_compute; intuition congruence. Qed.
