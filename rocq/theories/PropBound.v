(** C45, C46 and the part of C61 on bound imports. *)
From Verif Require Import BoundFacts SamplesDir SamplesRead.

(** C45 (part): a list of modules with references, rebuilt into a section with room for it, is read
    back as it was. Missing: the two bytes that should be the null name offset of the closing
    descriptor have to be null already, and a section that is not the last one must not be
    stripped; both are refuted without that below, as is the round trip of larger directories. *)
Theorem C45_round_trip_partial : forall p start i imports off strip s,
  0 <= off -> Forall valid_bound imports -> room p start i (ceil_mult off 4 + bound_size imports) ->
  dirs_ok p -> dir_bound_import < nrva p <= 16 ->
  bound_size imports <= 2^16 -> strip = false \/ S i = length (p_sections p) ->
  nth_error (p_sections p) i = Some s ->
  byte_of s (ceil_mult off 4 + bound_structs imports + 4) = 0 -> byte_of s (ceil_mult off 4 + bound_structs imports + 5) = 0 ->
  exists p' where_, rebuild_bound_imports p imports i off true strip = Ok (p', where_) /\ get_bound_imports p' = Ok imports.
Proof.
  intros p start i imports off strip s A B C D E F G H I J.
  destruct (rebuild_bound_ok p start i imports off true strip A B C D E) as (p' & s' & out & K1 & K2 & _ & _ & _ & _ & _ & K).
  exists p', (s_va s' + ceil_mult off 4, bound_size imports). split; [exact K2|]. rewrite H in K1. injection K1 as <-. exact (K eq_refl G F I J).
Qed.
Print Assumptions C45_round_trip_partial.
Definition C45_l : list bound_import := [([107; 46; 100], 0x5f3c11aa, [([110; 116], 7); ([], 0)]); ([117], 0xffffffff, [])].
Lemma C45_l_valid : Forall valid_bound C45_l.
Proof.
  repeat constructor; cbn [fst snd]; unfold is_u32; try lia; intros K; cbn [In] in K; lia.
Qed.
Example C45_case : 0 <= 2 /\ Forall valid_bound C45_l /\ room sample_pe 0x1000 1 (ceil_mult 2 4 + bound_size C45_l) /\
  dirs_ok sample_pe /\ dir_bound_import < nrva sample_pe <= 16 /\ bound_size C45_l <= 2^16 /\ nth_error (p_sections sample_pe) 1 = Some sample_data /\
  byte_of sample_data (ceil_mult 2 4 + bound_structs C45_l + 4) = 0 /\ byte_of sample_data (ceil_mult 2 4 + bound_structs C45_l + 5) = 0.
Proof.
  split; [lia|]. split; [exact C45_l_valid|]. split; [apply sample_room_data; vm_compute; intuition congruence|]. split; [exact sample_dirs|].
  split; [split; vm_compute; congruence|]. split; [vm_compute; congruence|]. repeat split.
Qed.
(** The closing null descriptor is never written: over other bytes, the list does not come back. *)
Theorem C45_terminator_refuted : exists p start i imports off p' where_,
  0 <= off /\ Forall valid_bound imports /\ room p start i (ceil_mult off 4 + bound_size imports) /\
  dirs_ok p /\ dir_bound_import < nrva p <= 16 /\ bound_size imports <= 2^16 /\
  rebuild_bound_imports p imports i off true false = Ok (p', where_) /\ get_bound_imports p' <> Ok imports.
Proof.
  exists sample_pe, 0x1000, 0%nat, C45_l, 0x100. destruct (rebuild_bound_imports sample_pe C45_l 0 0x100 true false) as [[p' w]| | |] eqn:E; try (vm_compute in E; discriminate).
  exists p', w. split; [lia|]. split; [exact C45_l_valid|]. split; [apply sample_room_code; vm_compute; intuition congruence|]. split; [exact sample_dirs|].
  split; [split; vm_compute; congruence|]. split; [vm_compute; congruence|]. split; [reflexivity|]. vm_compute in E. injection E as <- _. vm_compute. discriminate.
Qed.
Print Assumptions C45_terminator_refuted.
(** Stripping a section that is not the last one cuts the directory off. *)
Theorem C45_strip_refuted : exists p start i imports off p' where_ s,
  0 <= off /\ Forall valid_bound imports /\ room p start i (ceil_mult off 4 + bound_size imports) /\
  dirs_ok p /\ dir_bound_import < nrva p <= 16 /\ bound_size imports <= 2^16 /\ nth_error (p_sections p) i = Some s /\ (forall k, byte_of s k = 0) /\
  rebuild_bound_imports p imports i off true true = Ok (p', where_) /\ get_bound_imports p' <> Ok imports.
Proof.
  exists (sample_code_with (zeros 512)), 0x1000, 0%nat, C45_l, 0x100.
  destruct (rebuild_bound_imports (sample_code_with (zeros 512)) C45_l 0 0x100 true true) as [[p' w]| | |] eqn:E; try (vm_compute in E; discriminate).
  exists p', w, (set_s_data (zeros 512) sample_code). split; [lia|]. split; [exact C45_l_valid|].
  split; [apply sample_code_with_room; [apply bytes_zeros|rewrite zlen_zeros; lia|vm_compute; intuition congruence]|]. split; [apply sample_with_dirs|].
  split; [split; vm_compute; congruence|]. split; [vm_compute; congruence|]. split; [reflexivity|].
  split; [intros k; unfold byte_of; change (raw_view (set_s_data (zeros 512) sample_code)) with (zeros 512); unfold zeros; apply nth_repeat|].
  split; [reflexivity|]. vm_compute in E. injection E as <- _. vm_compute. discriminate.
Qed.
Print Assumptions C45_strip_refuted.
(** Name offsets are stored in 16 bits without a check. *)
Theorem C45_large_refuted : exists p start i imports off p' where_ s,
  0 <= off /\ Forall valid_bound imports /\ room p start i (ceil_mult off 4 + bound_size imports) /\
  dirs_ok p /\ dir_bound_import < nrva p <= 16 /\ nth_error (p_sections p) i = Some s /\
  byte_of s (ceil_mult off 4 + bound_structs imports + 4) = 0 /\ byte_of s (ceil_mult off 4 + bound_structs imports + 5) = 0 /\
  rebuild_bound_imports p imports i off true false = Ok (p', where_) /\ get_bound_imports p' <> Ok imports.
Proof.
  set (l := [(repeat 97 (Z.to_nat 0xfff0), 1, []); ([98], 2, [])] : list bound_import).
  exists sample_pe, 0x1000, 1%nat, l, 0x100.
  assert (M : match rebuild_bound_imports sample_pe l 1 0x100 true false with Ok (q, _) => match get_bound_imports q with Ok [_; (n, _, _)] => zlen n =? 1 | _ => false end | _ => true end = false) by (vm_compute; reflexivity).
  destruct (rebuild_bound_imports sample_pe l 1 0x100 true false) as [[p' w]| | |] eqn:E; try discriminate M.
  exists p', w, sample_data. split; [lia|]. split.
  { constructor; [|constructor; [|constructor]].
    - cbn [fst snd]. split; [split; [apply Forall_forall; intros x Hx; apply repeat_spec in Hx; lia|intros Hx; apply repeat_spec in Hx; lia]|]. split; [cbn [fst snd]; unfold is_u32; lia|constructor].
    - cbn [fst snd]. split; [split; [repeat constructor; lia|intros [K|[]]; lia]|]. split; [cbn [fst snd]; unfold is_u32; lia|constructor]. }
  split; [apply sample_room_data; vm_compute; intuition congruence|]. split; [exact sample_dirs|].
  split; [split; vm_compute; congruence|]. split; [reflexivity|]. split; [vm_compute; reflexivity|]. split; [vm_compute; reflexivity|].
  split; [reflexivity|]. intros K. assert (get_bound_imports p' = Ok l) as K2 by exact K. clear K.
  rewrite K2 in M. discriminate M.
Qed.
Print Assumptions C45_large_refuted.

(** C46: whatever the image contains, reading its bound imports ends with a list or an exception and
    reads no byte outside the image's buffers. *)
Theorem C46_reading_is_safe : forall p, readable p -> safe (get_bound_imports p).
Proof. exact bound_safe. Qed.
Print Assumptions C46_reading_is_safe.
Definition C46_pe (d : list Z) : pe := sample_read 11 (0x2000, 16) d.
Example C46_case : 
  readable (C46_pe (le 4 5 ++ le 2 16 ++ le 2 0 ++ zeros 8 ++ [65; 66; 0])) /\
  get_bound_imports (C46_pe (le 4 5 ++ le 2 16 ++ le 2 0 ++ zeros 8 ++ [65; 66; 0])) = Ok [([65; 66], 5, [])] /\
  get_bound_imports (C46_pe (le 4 5 ++ le 2 16 ++ le 2 3 ++ zeros 8 ++ [65; 66; 0])) = Throw incorrect_bound_import_directory.
Proof.
  split; [apply sample_read_readable; try small; vm_compute; repeat constructor; intuition congruence|]. split; vm_compute; reflexivity.
Qed.

(** C61 for bound imports: rebuilding refuses sections that are not attached *)
Theorem C61_bound_imports_not_attached : forall p l i off save strip,
  nth_error (p_sections p) i = None -> rebuild_bound_imports p l i off save strip = Throw section_is_not_attached.
Proof. exact bound_detached. Qed.
Print Assumptions C61_bound_imports_not_attached.
(** and refuses to overflow a section that is not the last one. *)
Theorem C61_bound_imports_no_overflow : forall p l i off save strip,
  0 <= off -> ceil_mult off 4 + bound_size l < 2^32 -> no_room p i (ceil_mult off 4 + bound_size l) ->
  rebuild_bound_imports p l i off save strip = Throw insufficient_space.
Proof. exact bound_full. Qed.
Print Assumptions C61_bound_imports_no_overflow.
(** On success, the only bytes that differ are those of the directory, at the offset rounded up to 4
    in the chosen section, and the only directory entry that differs is that of the bound imports. *)
Theorem C61_bound_imports_only : forall p start i imports off save strip,
  0 <= off -> Forall valid_bound imports -> room p start i (ceil_mult off 4 + bound_size imports) ->
  dirs_ok p -> dir_bound_import < nrva p <= 16 ->
  exists p' s out, nth_error (p_sections p) i = Some s /\
    rebuild_bound_imports p imports i off save strip = Ok (p', (s_va s + ceil_mult off 4, bound_size imports)) /\
    zlen out = bound_size imports /\ only_section p p' i (ceil_mult off 4) out /\ same_headers p p' /\ image_ok p' start /\
    (if save then only_directory p p' dir_bound_import (s_va s + ceil_mult off 4, bound_size imports) else h_dirs (p_nt p') = h_dirs (p_nt p)).
Proof.
  intros p start i imports off save strip A B C D E.
  destruct (rebuild_bound_ok p start i imports off save strip A B C D E) as (p' & s & out & H1 & H2 & H3 & H4 & H5 & H6 & H7 & _).
  exists p', s, out. repeat (split; [assumption|]). exact H7.
Qed.
Print Assumptions C61_bound_imports_only.
Example C61_bound_imports_case :
  no_room sample_pe 0 (ceil_mult 0x1f0 4 + bound_size C45_l) /\ nth_error (p_sections sample_pe) 2 = None /\
  room sample_pe 0x1000 0 (ceil_mult 0x20 4 + bound_size C45_l).
Proof. split; [apply sample_no_room; vm_compute; reflexivity|]. split; [reflexivity|]. apply sample_room_code; vm_compute; intuition congruence. Qed.
