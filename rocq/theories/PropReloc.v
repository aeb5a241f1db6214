(** Properties of relocations (C28-C31, C61). *)
From Verif Require Import SamplesDir RebaseFacts.

(** C28: when tables of valid entries are written into a section that has room for them,
    writing succeeds, and reading the new image back yields the same tables in the same
    order: with the entries as given, except that ABSOLUTE entries are left out unless
    they are asked for, in which case the final padding item of an odd table shows as well. *)
Theorem C28_round_trip : forall p start i tables off strip,
  0 <= off -> tables <> [] -> Forall valid_table tables ->
  room p start i (2 * ceil_mult off 4 - off + blocks_size tables) ->
  dirs_ok p -> dir_basereloc < nrva p <= 16 -> is_u16 (chars p) ->
  exists p' where_, rebuild_relocations p tables i off true strip = Ok (p', where_) /\
    get_relocations p' true = Ok (map with_padding tables) /\
    get_relocations p' false = Ok (map without_absolute tables).
Proof.
  intros p start i tables off strip A B C D E F G.
  destruct (rebuild_relocations_ok p start i tables off true strip A B C D E F) as (p' & s & _ & H & _ & _ & _ & _ & K).
  exists p', (s_va s + ceil_mult off 4, blocks_size tables). split; [exact H|]. exact (K eq_refl G).
Qed.
Print Assumptions C28_round_trip.
Definition C28_tables : list reloc_table := [(0x1000, [(0x10, 3); (0x14, 3); (4095, 10)]); (0x2000, [(0, 15)])].
Example C28_case : 0 <= 5 /\ C28_tables <> [] /\ Forall valid_table C28_tables /\
  room sample_pe 0x1000 0 (2 * ceil_mult 5 4 - 5 + blocks_size C28_tables) /\
  dirs_ok sample_pe /\ dir_basereloc < nrva sample_pe <= 16 /\ is_u16 (chars sample_pe).
Proof.
  split; [lia|]. split; [discriminate|]. split; [repeat constructor; cbn; lia|]. split; [apply sample_room_code; vm_compute; intuition congruence|].
  split; [exact sample_dirs|]. split; vm_compute; intuition congruence.
Qed.
(** The empty list is different: the directory entry then points to whatever the section holds,
    and reading can fail. *)
Definition C28_garbage : section := set_s_data [7;8;9;0;1;0;0;0] sample_data.
Definition C28_empty_pe : pe := sample_with [sample_code; C28_garbage].
Theorem C28_empty_list_refuted : exists p start i off p' w,
  room p start i off /\ dirs_ok p /\ dir_basereloc < nrva p <= 16 /\
  rebuild_relocations p [] i off true false = Ok (p', w) /\
  get_relocations p' false = Throw incorrect_relocation_directory.
Proof.
  exists C28_empty_pe, 0x1000, 1%nat, 0.
  destruct (rebuild_relocations C28_empty_pe [] 1 0 true false) as [[p' w]| | |] eqn:E; try (vm_compute in E; discriminate).
  exists p', w. split.
  - split; [|split; [lia|]].
    + split; [apply sample_with_align|]. split; [constructor; [exact sample_code_wf|constructor; [|constructor]]|].
      * apply wf_set_data; [repeat constructor; lia|reflexivity|reflexivity|exact sample_data_wf].
      * split; [exists 1; reflexivity|]. split; [lia|]. split; [split; [reflexivity|split; [reflexivity|exact I]]|reflexivity].
    + exists C28_garbage. split; [reflexivity|]. split; [reflexivity|]. split; [vm_compute; congruence|].
      split; [split; [reflexivity|vm_compute; congruence]|]. split; vm_compute; congruence.
  - split; [apply sample_with_dirs|]. split; [vm_compute; intuition congruence|]. split; [reflexivity|].
    vm_compute in E. injection E as <- _. vm_compute. reflexivity.
Qed.
Print Assumptions C28_empty_list_refuted.

(** C29: taking a 16-bit item apart and putting it together again gives the item back, *)
Theorem C29_item_round_trip : forall v, is_u16 v -> item_of_entry (entry_of_item v) = v.
Proof. exact item_round. Qed.
Print Assumptions C29_item_round_trip.
(** and an entry survives exactly when its offset fits 12 bits and its type fits 4 bits. *)
Theorem C29_entry_round_trip : forall offset type, is_u16 offset -> is_u16 type ->
  (entry_of_item (item_of_entry (offset, type)) = (offset, type) <-> offset < 4096 /\ type < 16).
Proof. exact entry_round. Qed.
Print Assumptions C29_entry_round_trip.
(** The offset goes to the low 12 bits and the type to the 4 bits above. *)
Theorem C29_item_layout : forall offset type, 0 <= offset < 4096 -> 0 <= type < 16 -> item_of_entry (offset, type) = offset + 4096 * type.
Proof. intros o t A B. apply (item_of_entry_eq (o, t)). split; assumption. Qed.
Print Assumptions C29_item_layout.
Example C29_case : is_u16 0xA123 /\ entry_of_item 0xA123 = (0x123, 10) /\ is_u16 4096 /\ is_u16 3 /\ entry_of_item (item_of_entry (4096, 3)) <> (4096, 3).
Proof. repeat split; try lia; vm_compute; congruence. Qed.

(** C30: whatever the image contains, reading its relocations ends with tables or an exception
    and reads no byte outside the image's buffers. *)
Theorem C30_reading_is_safe : forall p abs, readable p -> safe (get_relocations p abs).
Proof. exact get_relocations_safe. Qed.
Print Assumptions C30_reading_is_safe.
Definition C30_pe : pe := with_nt (set_h_chars 0x102) sample_pe.
Lemma readable_chars c p : readable p -> readable (with_nt (set_h_chars c) p).
Proof. intros H. exact H. Qed.
Example C30_case : readable C30_pe /\ get_relocations C30_pe true = Ok [] /\
  get_relocations (with_nt (set_h_dirs (upd (h_dirs (p_nt C30_pe)) 5 (0x3fff, 12))) C30_pe) true = Throw incorrect_relocation_directory.
Proof. split; [apply readable_chars, sample_readable|split; vm_compute; reflexivity]. Qed.

(** C31: rebasing adds the difference of the bases to each word that a non-ABSOLUTE entry
    names, sets the image base, and leaves every other byte alone. *)
Theorem C31_exact : forall p tables new_base,
  spec_layout p -> bytes (p_full p) -> zlen (p_full p) < 2^32 -> rebasable p (targets tables) ->
  exists p', rebase_image p tables new_base = Ok p' /\ imagebase p' = new_base mod 2 ^ (8 * word p) /\ same_but_bytes p p' /\
    (forall r v, In r (targets tables) -> 0 <= v < 2 ^ (8 * word p) -> stored_at p r (le (Z.to_nat (word p)) v) ->
       stored_at p' r (le (Z.to_nat (word p)) ((v + (new_base - imagebase p)) mod 2 ^ (8 * word p)))) /\
    (forall a bs, (forall r, In r (targets tables) -> apart a (zlen bs) r (word p)) -> stored_at p a bs -> stored_at p' a bs).
Proof. exact rebase_image_ok. Qed.
Print Assumptions C31_exact.
(** Rebasing back restores the image. *)
Theorem C31_reversible : forall p tables new_base p',
  spec_layout p -> bytes (p_full p) -> zlen (p_full p) < 2^32 -> rebasable p (targets tables) ->
  unmapped p -> 0 <= imagebase p < 2 ^ (8 * word p) ->
  rebase_image p tables new_base = Ok p' -> rebase_image p' tables (imagebase p) = Ok p.
Proof. exact rebase_back. Qed.
Print Assumptions C31_reversible.
Definition C31_tables : list reloc_table := [(0x1000, [(0x10, 3); (0x20, 0); (0x14, 10)]); (0, [(8, 3)])].
Lemma C31_stored a : a = 0x10 \/ a = 0x14 -> stored_at sample_pe (0x1000 + a) (le 4 0x90909090).
Proof.
  intros H. right. split; [change (zlen (p_full sample_pe)) with 0x400; lia|]. exists 0%nat, sample_code. split; [reflexivity|].
  split; [unfold occupies; change (send (salign sample_pe) sample_code) with 0x2000; cbn [s_va sample_code]; lia|].
  change (zlen (le 4 0x90909090)) with 4. change (s_va sample_code) with 0x1000. change (zlen (raw_view sample_code)) with 512.
  split; [lia|]. destruct H as [-> | ->]; vm_compute; reflexivity.
Qed.
Example C31_case : spec_layout sample_pe /\ bytes (p_full sample_pe) /\ zlen (p_full sample_pe) < 2^32 /\
  rebasable sample_pe (targets C31_tables) /\ unmapped sample_pe /\ 0 <= imagebase sample_pe < 2 ^ (8 * word sample_pe).
Proof.
  split; [exact sample_layout|]. split; [apply sample_readable|]. split; [reflexivity|]. split; [|split; [exact sample_unmapped|vm_compute; intuition congruence]].
  change (targets C31_tables) with [0x1000 + 0x10; 0x1000 + 0x14; 8]. split.
  - intros r [<-|[<-|[<-|[]]]].
    + exists 0x90909090. split; [vm_compute; intuition congruence|apply (C31_stored 0x10); lia].
    + exists 0x90909090. split; [vm_compute; intuition congruence|apply (C31_stored 0x14); lia].
    + exists 0. split; [vm_compute; intuition congruence|]. left. split; [lia|]. split; vm_compute; reflexivity.
  - change (word sample_pe) with 4. unfold apart. repeat (constructor; [repeat (constructor; [lia|]); constructor|]). constructor.
Qed.
(** When the words overlap, rebasing back need not restore the image. *)
Definition C31_overlap_pe : pe := sample_with [set_s_data (repeat 0xff 512) sample_code; sample_data].
Theorem C31_overlapping_refuted : exists p tables new_base p' p'',
  spec_layout p /\ bytes (p_full p) /\ unmapped p /\ 0 <= imagebase p < 2 ^ (8 * word p) /\
  rebase_image p tables new_base = Ok p' /\ rebase_image p' tables (imagebase p) = Ok p'' /\
  p'' <> p.
Proof.
  exists C31_overlap_pe, [(0x1000, [(0, 3); (1, 3)])], (imagebase C31_overlap_pe + 0x10000).
  destruct (rebase_image C31_overlap_pe [(0x1000, [(0, 3); (1, 3)])] (imagebase C31_overlap_pe + 0x10000)) as [p'| | |] eqn:E; try (vm_compute in E; discriminate).
  exists p'. destruct (rebase_image p' [(0x1000, [(0, 3); (1, 3)])] (imagebase C31_overlap_pe)) as [p''| | |] eqn:E2.
  2-4: exfalso; vm_compute in E; injection E as <-; vm_compute in E2; discriminate.
  exists p''. assert (W : wf_section (set_s_data (repeat 0xff 512) sample_code)).
  { apply wf_set_data; [|reflexivity|reflexivity|exact sample_code_wf]. apply Forall_forall. intros x Hx. apply repeat_spec in Hx. subst; lia. }
  split; [|split; [apply sample_with_full|split; [repeat constructor|split; [vm_compute; intuition congruence|split; [reflexivity|split; [reflexivity|]]]]]].
  - apply (chain_layout _ 0x1000); [apply sample_with_align|constructor; [exact W|constructor; [exact sample_data_wf|constructor]]| |reflexivity].
    split; [reflexivity|split; [reflexivity|exact I]].
  - intros Q. apply (f_equal (fun q => map (fun s => nth 4 (s_data s) 0) (p_sections q))) in Q.
    vm_compute in E. injection E as <-. vm_compute in E2. injection E2 as <-. vm_compute in Q. discriminate.
Qed.
Print Assumptions C31_overlapping_refuted.

(** C61 for relocations: rebuilding refuses sections that are not attached *)
Theorem C61_relocations_not_attached : forall p tables i off save strip,
  nth_error (p_sections p) i = None -> rebuild_relocations p tables i off save strip = Throw section_is_not_attached.
Proof. exact relocations_detached. Qed.
Print Assumptions C61_relocations_not_attached.
(** and refuses to overflow a section that is not the last one. *)
Theorem C61_relocations_no_overflow : forall p tables i off save strip,
  0 <= off -> 2 * ceil_mult off 4 - off + blocks_size tables < 2^32 -> no_room p i (2 * ceil_mult off 4 - off + blocks_size tables) ->
  rebuild_relocations p tables i off save strip = Throw insufficient_space.
Proof. exact relocations_full. Qed.
Print Assumptions C61_relocations_no_overflow.
(** On success, the only bytes that differ are those of the tables, at the offset rounded up to
    4 in the chosen section, the only directory entry that differs is that of the relocations, and
    the only header fields that differ are the relocation flags. *)
Theorem C61_relocations_only : forall p start i tables off save strip,
  0 <= off -> tables <> [] -> Forall valid_table tables ->
  room p start i (2 * ceil_mult off 4 - off + blocks_size tables) ->
  dirs_ok p -> dir_basereloc < nrva p <= 16 ->
  exists p' s, nth_error (p_sections p) i = Some s /\
    rebuild_relocations p tables i off save strip = Ok (p', (s_va s + ceil_mult off 4, blocks_size tables)) /\
    only_section p p' i (ceil_mult off 4) (concat (map block_bytes tables)) /\ same_but_relocs p p' /\ image_ok p' start /\
    (if save then only_directory p p' dir_basereloc (s_va s + ceil_mult off 4, blocks_size tables) else h_dirs (p_nt p') = h_dirs (p_nt p)).
Proof.
  intros p start i tables off save strip A B C D E F.
  destruct (rebuild_relocations_ok p start i tables off save strip A B C D E F) as (p' & s & H1 & H2 & H3 & H4 & H5 & H6 & _).
  exists p', s. repeat (split; [assumption|]). exact H6.
Qed.
Print Assumptions C61_relocations_only.
Example C61_relocations_case :
  no_room sample_pe 0 (2 * ceil_mult 0x1f0 4 - 0x1f0 + blocks_size C28_tables) /\ nth_error (p_sections sample_pe) 2 = None /\
  room sample_pe 0x1000 1 (2 * ceil_mult 2 4 - 2 + blocks_size C28_tables).
Proof. split; [apply sample_no_room; vm_compute; reflexivity|]. split; [reflexivity|]. apply sample_room_data; vm_compute; intuition congruence. Qed.
