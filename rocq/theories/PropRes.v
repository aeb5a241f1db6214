(** Property theorems: resources (C39, C40, C41, C61). *)
From Verif Require Import SamplesRead StoreFacts ResFacts ResRound.

(** A tree with two languages of an icon, and a named type. *)
Definition res_leaf (d : list Z) : rnode := RData d 1252.
Definition res_dir (l : list rentry) : rnode := RDir (mk_rhead 0 77 4 1 0 0) l.
Definition res_tree : rnode :=
  res_dir [(Ided 16, res_dir [(Ided 1, res_dir [(Ided 1033, res_leaf [1; 2; 3; 4])])]);
           (Ided 3, res_dir [(Ided 2, res_dir [(Ided 1049, res_leaf [5; 6; 7; 8; 9; 10; 11; 12]); (Ided 1033, res_leaf [13; 14; 15; 16])])]);
           (Named [77; 85; 73], res_dir [(Named [0x41f; 49], res_dir [(Ided 0, res_leaf [0; 0; 0; 1])])])].
Definition res_tree_sorted : rnode :=
  let dir a b l := RDir (mk_rhead 0 77 4 1 a b) l in
  dir 1 2 [(Named [77; 85; 73], dir 1 0 [(Named [0x41f; 49], dir 0 1 [(Ided 0, res_leaf [0; 0; 0; 1])])]);
           (Ided 3, dir 0 1 [(Ided 2, dir 0 2 [(Ided 1033, res_leaf [13; 14; 15; 16]); (Ided 1049, res_leaf [5; 6; 7; 8; 9; 10; 11; 12])])]);
           (Ided 16, dir 0 1 [(Ided 1, dir 0 1 [(Ided 1033, res_leaf [1; 2; 3; 4])])])].
Ltac smalls := repeat (first [apply conj | apply Forall_cons | apply Forall_nil | exact I]); try (vm_compute; intuition congruence).
Lemma res_tree_valid : valid_tree res_tree. Proof. cbn; unfold is_u32, is_u16, bytes; smalls. Qed.
Lemma res_tree_even : even_tree res_tree. Proof. cbn; repeat split; try (exists 1; reflexivity); exists 2; reflexivity. Qed.
Lemma res_tree_storable : storable_tree res_tree.
Proof.
  cbn; repeat split; try (vm_compute; congruence); repeat constructor; cbn; intuition congruence.
Qed.

(** C39 (part): the resources that are rebuilt into a section with room for them are read back: numbers, names, data,
    code pages and the attributes of directories, the entries of every directory in order. Missing: trees the file
    format cannot express ([storable_tree]), and trees whose data is not in order unless all lengths are multiples
    of four (see C40). *)
Theorem C39_round_trip_partial : forall p start i t off strip s, let base := ceil_mult off 4 in
  0 <= off -> valid_tree t -> storable_tree t -> full_root t -> ordered_tree t \/ even_tree t -> room p start i (resource_end off t) -> dirs_ok p -> dir_resource < nrva p <= 16 ->
  nth_error (p_sections p) i = Some s ->
  exists p' sorted t', rebuild_resources p t i off true strip = Ok (p', (s_va s + base, resource_end off t - base), sorted) /\ get_resources p' = Ok t' /\ canonical t t'.
Proof.
  intros p start i t off strip s base A B C D E F G H I. destruct (rebuild_resources_ok p start i t off true strip s A B D E F G H I) as (p' & out & X1 & _ & _ & _ & _ & _ & X2).
  exists p', (sort_tree t), (counted (sort_tree t)). split; [exact X1|]. split; [apply X2; [reflexivity|exact C]|apply canonical_sorted; assumption].
Qed.
Print Assumptions C39_round_trip_partial.
Example C39_case : valid_tree res_tree /\ storable_tree res_tree /\ full_root res_tree /\ even_tree res_tree /\ room sample_pe 0x1000 1 (resource_end 3 res_tree) /\
  dirs_ok sample_pe /\ dir_resource < nrva sample_pe <= 16 /\ nth_error (p_sections sample_pe) 1 = Some sample_data /\
  match rebuild_resources sample_pe res_tree 1 3 true false with Ok (q, _, _) => get_resources q = Ok res_tree_sorted | _ => False end.
Proof.
  split; [exact res_tree_valid|]. split; [exact res_tree_storable|]. split; [exact I|]. split; [exact res_tree_even|]. split; [apply sample_room_data; vm_compute; intuition congruence|].
  split; [exact sample_dirs|]. split; [split; vm_compute; congruence|]. split; [reflexivity|]. vm_compute. reflexivity.
Qed.
(** An ID of more than 16 bits comes back as another one; *)
Theorem C39_wide_id_refuted : exists p start i t off s p' where_ sorted t', valid_tree t /\ full_root t /\ ordered_tree t /\ room p start i (resource_end off t) /\ dirs_ok p /\ dir_resource < nrva p <= 16 /\
  nth_error (p_sections p) i = Some s /\ rebuild_resources p t i off true false = Ok (p', where_, sorted) /\ get_resources p' = Ok t' /\ ~ canonical t t'.
Proof.
  set (t := res_dir [(Ided 0x10001, res_leaf [1; 2; 3; 4])]). exists sample_pe, 0x1000, 1%nat, t, 0, sample_data.
  assert (M : match rebuild_resources sample_pe t 1 0 true false with Ok (q, _, _) => get_resources q = Ok (RDir (mk_rhead 0 77 4 1 0 1) [(Ided 1, res_leaf [1; 2; 3; 4])]) | _ => False end) by (vm_compute; reflexivity).
  destruct (rebuild_resources sample_pe t 1 0 true false) as [[[p' w] so]| | |]; try contradiction M. exists p', w, so, (RDir (mk_rhead 0 77 4 1 0 1) [(Ided 1, res_leaf [1; 2; 3; 4])]).
  split; [cbn; unfold is_u32, is_u16, bytes; smalls|]. split; [exact I|]. split; [cbn; repeat constructor|]. split; [apply sample_room_data; vm_compute; intuition congruence|]. split; [exact sample_dirs|].
  split; [split; vm_compute; congruence|]. split; [reflexivity|]. split; [reflexivity|]. split; [exact M|]. intros X. inversion X as [|h l m l' Pm Fm Om]; subst. apply Permutation_length_1_inv in Pm as ->.
  inversion Fm as [|? ? ? ? [Ne _] _]; subst. discriminate Ne.
Qed.
Print Assumptions C39_wide_id_refuted.
(** and with empty data at the end of the section the resources cannot be read any more. *)
Theorem C39_empty_data_refuted : exists p start i t off s p' where_ sorted e, valid_tree t /\ full_root t /\ ordered_tree t /\ room p start i (resource_end off t) /\ dirs_ok p /\ dir_resource < nrva p <= 16 /\
  nth_error (p_sections p) i = Some s /\ rebuild_resources p t i off true false = Ok (p', where_, sorted) /\ get_resources p' = Throw e.
Proof.
  set (t := res_dir [(Ided 1, RData (zeros (0x2000 - 64)) 0); (Ided 2, res_leaf [])]). exists sample_pe, 0x1000, 1%nat, t, 0, sample_data.
  assert (M : match rebuild_resources sample_pe t 1 0 true false with Ok (q, _, _) => match get_resources q with Throw _ => true | _ => false end | _ => false end = true) by (vm_compute; reflexivity).
  destruct (rebuild_resources sample_pe t 1 0 true false) as [[[p' w] so]| | |]; try discriminate M. destruct (get_resources p') as [|e| |] eqn:E; try discriminate M. exists p', w, so, e.
  split. { cbn [t res_dir valid_tree fold_right fst snd valid_rname res_leaf r_chars r_time r_major r_minor]. unfold is_u32, is_u16. do 4 (split; [lia|]). split; [split; [lia|split; [apply bytes_zeros|lia]]|]. split; [|exact I]. split; [lia|]. split; [constructor|lia]. }
  split; [exact I|]. split; [cbn; repeat constructor|]. split; [apply sample_room_data; vm_compute; intuition congruence|]. split; [exact sample_dirs|].
  split; [split; vm_compute; congruence|]. split; [reflexivity|]. split; [reflexivity|exact E].
Qed.
Print Assumptions C39_empty_data_refuted.

(** C40 (part): rebuilding writes no byte outside the data of the section; it ends with an image. Partial: the entries are
    in order already, or the lengths of all data are multiples of four. *)
Theorem C40_within_partial : forall p start i t off save strip, 0 <= off -> valid_tree t -> full_root t -> ordered_tree t \/ even_tree t -> room p start i (resource_end off t) -> dirs_ok p ->
  dir_resource < nrva p <= 16 -> exists r, rebuild_resources p t i off save strip = Ok r.
Proof.
  intros p start i t off save strip A B C D E F G. pose proof E as (_ & _ & s & Hs & _). destruct (rebuild_resources_ok p start i t off save strip s A B C D E F G Hs) as (p' & out & X1 & _). eauto.
Qed.
Print Assumptions C40_within_partial.
Example C40_case : valid_tree res_tree /\ full_root res_tree /\ even_tree res_tree /\ room sample_pe 0x1000 1 (resource_end 3 res_tree) /\ dirs_ok sample_pe /\ dir_resource < nrva sample_pe <= 16.
Proof. pose proof C39_case. tauto. Qed.
(** The space is computed for the entries as they come, and they are written in order: padding may be needed where there was
    none, and then bytes behind the end of the section are written. *)
Theorem C40_order_refuted : exists p start i t off, valid_tree t /\ storable_tree t /\ full_root t /\ room p start i (resource_end off t) /\ dirs_ok p /\ dir_resource < nrva p <= 16 /\
  rebuild_resources p t i off true false = Ub OobWrite.
Proof.
  set (t := res_dir [(Ided 2, res_leaf [1; 2; 3; 4]); (Ided 1, res_leaf [5])]). exists sample_pe, 0x1000, 1%nat, t, 0.
  split; [cbn; unfold is_u32, is_u16, bytes; smalls|]. split; [cbn; repeat split; try (vm_compute; congruence); repeat constructor; cbn; intuition congruence|]. split; [exact I|].
  split; [apply sample_room_data; vm_compute; intuition congruence|]. split; [exact sample_dirs|]. split; [split; vm_compute; congruence|]. vm_compute. reflexivity.
Qed.
Print Assumptions C40_order_refuted.

(** C41: whatever the image contains, also directories that contain each other, reading its resources ends. *)
Theorem C41_reading_ends : forall p, readable p -> get_resources p <> Fuel.
Proof. exact resources_end. Qed.
Print Assumptions C41_reading_ends.
(** C41 (part): it reads no byte outside the data of the image. Partial: the names of entries are inside the data. *)
Theorem C41_reading_is_safe_partial : forall p rva size, readable p -> viewable p -> dir_is p dir_resource (rva, size) -> names_inside p rva -> safe (get_resources p).
Proof. exact resources_safe. Qed.
Print Assumptions C41_reading_is_safe_partial.
(** A directory with one entry: the words of the entry, and what follows. *)
Definition C41_dir (w1 w2 : Z) (more : list Z) : list Z := enc_fields rdir_widths [0; 0; 0; 0; 0; 1] ++ le 4 w1 ++ le 4 w2 ++ more.
Definition C41_pe (d : list Z) : pe := sample_read 2 (0x2000, 0x100) d.
Lemma C41_ready d : bytes d -> zlen d < 2^31 -> readable (C41_pe d) /\ viewable (C41_pe d) /\ dir_is (C41_pe d) dir_resource (0x2000, 0x100).
Proof.
  intros B L. split; [apply sample_read_readable; try exact B; try exact L; split; vm_compute; congruence|]. split; [apply unmapped_viewable; repeat constructor|]. split; [vm_compute; congruence|reflexivity].
Qed.
(** A directory that contains itself is refused. *)
Example C41_case : let p := C41_pe (C41_dir 5 (2^31) []) in readable p /\ viewable p /\ dir_is p dir_resource (0x2000, 0x100) /\ names_inside p 0x2000 /\
  (exists e, get_resources p = Throw e) /\ (exists t, get_resources (C41_pe (C41_dir 5 24 (enc_fields [4; 4; 4; 4]%nat [0x2000; 5; 0; 0]))) = Ok t).
Proof.
  cbv zeta. pose proof (C41_ready (C41_dir 5 (2^31) []) ltac:(apply bytes_app; split; [apply bytes_enc_fields|]; repeat (apply bytes_app; split); try apply bytes_le; constructor) ltac:(vm_compute; reflexivity)) as (A & B & C).
  split; [exact A|]. split; [exact B|]. split; [exact C|]. split; [|split; eexists; vm_compute; reflexivity].
  set (p := C41_pe (C41_dir 5 (2^31) [])) in *. assert (E0 : read_rva p (0x2000 + 0) 16 VirtData true = Ok (enc_fields rdir_widths [0; 0; 0; 0; 0; 1])) by (vm_compute; reflexivity).
  assert (E1 : read_rva p (0x2000 + 0 + 16 + 8 * 0) 8 VirtData true = Ok (le 4 5 ++ le 4 (2^31))) by (vm_compute; reflexivity).
  assert (K : forall w1 w2, rentry_at p 0x2000 0 w1 w2 -> w1 = 5 /\ w2 = 2^31).
  { intros w1 w2 (e & x & i & Y1 & Y2 & Y3 & Y4 & Y5). rewrite E0 in Y1. assert (e = enc_fields rdir_widths [0; 0; 0; 0; 0; 1]) as -> by congruence.
    assert (i = 0) as -> by (change (0 <= i < 1) in Y2; lia). rewrite E1 in Y3. assert (x = le 4 5 ++ le 4 (2^31)) as -> by congruence. split; assumption. }
  assert (Rt : forall o, reached p 0x2000 o -> o = 0).
  { induction 1 as [|o w1 w2 Hr IH At Hw]; [reflexivity|]. subst o. apply K in At. lia. }
  intros o w1 w2 bs len Hr At Hw. rewrite (Rt o Hr) in At. apply K in At. lia.
Qed.
(** The number of 16-bit units of a name is compared with the number of bytes that follow: half of the name may be outside. *)
Theorem C41_name_refuted : exists p, readable p /\ viewable p /\ get_resources p = Ub OobRead.
Proof.
  set (d := C41_dir (2^31 + 0x1ff0) 24 (zeros (0x1ff0 - 24) ++ [10; 0])). exists (C41_pe d).
  destruct (C41_ready d) as (A & B & _).
  - unfold d, C41_dir. apply bytes_app; split; [apply bytes_enc_fields|]. repeat (apply bytes_app; split); try apply bytes_le; try apply bytes_zeros. repeat constructor; vm_compute; congruence.
  - vm_compute. reflexivity.
  - split; [exact A|]. split; [exact B|]. vm_compute. reflexivity.
Qed.
Print Assumptions C41_name_refuted.

(** C61 for resources: the rebuilder refuses a section that is not attached, *)
Theorem C61_resources_not_attached : forall p t i off save strip, nth_error (p_sections p) i = None -> rebuild_resources p t i off save strip = Throw section_is_not_attached.
Proof. exact resources_detached. Qed.
Print Assumptions C61_resources_not_attached.
(** refuses to overflow a section that is not the last one, *)
Theorem C61_resources_no_overflow : forall p t i off save strip, 0 <= off -> valid_tree t -> full_root t -> resource_end off t < 2^32 -> no_room p i (resource_end off t) ->
  rebuild_resources p t i off save strip = Throw insufficient_space.
Proof. exact resources_full. Qed.
Print Assumptions C61_resources_no_overflow.
(** and refuses a root without entries. *)
Theorem C61_resources_not_empty : forall p h i off save strip s, nth_error (p_sections p) i = Some s -> rebuild_resources p (RDir h []) i off save strip = Throw incorrect_resource_directory.
Proof. exact resources_empty. Qed.
Print Assumptions C61_resources_not_empty.
(** On success, the bytes that may differ are those between the aligned offset and the end of the resources; with [save], the
    directory entry. *)
Theorem C61_resources_only : forall p start i t off save strip s, let base := ceil_mult off 4 in let size := resource_end off t - base in
  0 <= off -> valid_tree t -> full_root t -> ordered_tree t \/ even_tree t -> room p start i (resource_end off t) -> dirs_ok p -> dir_resource < nrva p <= 16 -> nth_error (p_sections p) i = Some s ->
  exists p' sorted out, rebuild_resources p t i off save strip = Ok (p', (s_va s + base, size), sorted) /\ zlen out = size /\ only_section p p' i base out /\
    same_headers p p' /\ image_ok p' start /\ (if save then only_directory p p' dir_resource (s_va s + base, size) else h_dirs (p_nt p') = h_dirs (p_nt p)).
Proof.
  intros p start i t off save strip s base size A B C D E F G H. destruct (rebuild_resources_ok p start i t off save strip s A B C D E F G H) as (p' & out & X1 & X2 & X3 & X4 & X5 & X6 & _).
  exists p', (sort_tree t), out. tauto.
Qed.
Print Assumptions C61_resources_only.
Example C61_resources_case : no_room sample_pe 0 (resource_end 0x1f0 res_tree) /\ resource_end 0x1f0 res_tree < 2^32 /\ nth_error (p_sections sample_pe) 2 = None /\ room sample_pe 0x1000 0 (resource_end 3 res_tree).
Proof. split; [apply sample_no_room; vm_compute; reflexivity|]. split; [vm_compute; reflexivity|]. split; [reflexivity|]. apply sample_room_code; vm_compute; intuition congruence. Qed.
