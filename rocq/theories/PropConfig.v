(** C47, and the parts of C64 and C61 on load configurations. *)
From Verif Require Import ConfigFacts SamplesDir SamplesRead.

(** C64 for load configurations: whatever the image contains, reading them ends with a result or an exception and reads
    no byte outside the image's buffers. *)
Theorem C64_reading_config_is_safe : forall p, readable p -> base_ok p -> raw_addressable p -> safe (get_config p).
Proof. exact config_safe. Qed.
Print Assumptions C64_reading_config_is_safe.
(** A configuration at address 0x2000 with the handlers 0x11, 0x22 and one lock prefix, at address 0x1234. *)
Definition C64_base : Z := imagebase sample_pe.
Definition C64_data : list Z :=
  le 4 72 ++ le 4 7 ++ le 2 4 ++ le 2 5 ++ zeros 20 ++ le 4 (C64_base + 0x2050) ++ zeros 16 ++ le 2 3 ++ le 2 0 ++ zeros 8 ++ le 4 (C64_base + 0x2048) ++ le 4 2 ++
  le 4 0x11 ++ le 4 0x22 ++ le 4 (C64_base + 0x1234) ++ le 4 0.
Definition C64_pe : pe := sample_read 10 (0x2000, 72) C64_data.
Definition C64_config : config :=
  mk_config 7 4 5 0 0 0 0 0 (C64_base + 0x2050) 0 0 0 0 3 0 0 (C64_base + 0x2048) 2 [0x11; 0x22] [0x1234].
Example C64_config_case : readable C64_pe /\ base_ok C64_pe /\ raw_addressable C64_pe /\ get_config C64_pe = Ok C64_config /\
  get_config sample_pe = Throw directory_does_not_exist.
Proof.
  split; [apply sample_read_readable; try small; vm_compute; repeat constructor; intuition congruence|].
  split; [split; vm_compute; congruence|]. split; [repeat constructor; vm_compute; reflexivity|]. split; [vm_compute; reflexivity|]. vm_compute; reflexivity.
Qed.

(** C47: what is read after rebuilding is what was given, with the handlers sorted. Partial: the section is not stripped or
    is the last one; and the lists that the caller does not have written are where the given addresses say. *)
Theorem C47_round_trip_partial : forall p start i c off handlers locks strip s,
  let n := ceil_mult off (Z.of_nat (word_size p)) + config_bytes p c handlers locks in
  0 <= off -> valid_config p c -> zlen (c_handlers c) < 2^32 -> room p start i n -> dirs_ok p -> dir_load_config < nrva p <= 16 -> base_ok p ->
  nth_error (p_sections p) i = Some s -> imagebase p + s_va s + n < base_mod p - 1 ->
  strip = false \/ S i = length (p_sections p) -> kept_lists p i c handlers locks ->
  exists p' where_ c', rebuild_config p c i off handlers locks true strip = Ok (p', where_) /\ get_config p' = Ok c' /\
    same_fields c c' /\ c_count c' = zlen (c_handlers c) /\
    same_list handlers sorted_list (c_table c) (c_table c') (c_handlers c) (c_handlers c') /\
    same_list locks eq (c_lock_table c) (c_lock_table c') (c_locks c) (c_locks c').
Proof.
  intros p start i c off handlers locks strip s n A B C D E F G H I J K.
  destruct (rebuild_config_ok p start i c off handlers locks true strip s A B C D E F G H I) as (p' & out & X & _ & _ & _ & _ & _ & Y). destruct (Y eq_refl J K) as (c' & Z1 & Z2). eauto 10.
Qed.
Print Assumptions C47_round_trip_partial.
Definition C47_config : config := mk_config 7 4 5 6 8 9 10 11 0 12 13 14 15 3 16 17 0 0 [0x22; 0x11; 0x33; 0x11] [0x1234; 0x10].
Lemma C47_valid p : p_plus p = false -> imagebase p = C64_base -> valid_config p C47_config.
Proof.
  intros A B. assert (M : base_mod p = 2^32) by (unfold base_mod; rewrite A; reflexivity). unfold valid_config, has_va. rewrite M, B.
  do 8 (split; [split; vm_compute; congruence|]). split; [repeat constructor; vm_compute; congruence|]. split; repeat constructor; vm_compute; congruence.
Qed.
(** Both lists are written *)
Example C47_case : valid_config sample_pe C47_config /\ room sample_pe 0x1000 1 (ceil_mult 5 (Z.of_nat (word_size sample_pe)) + config_bytes sample_pe C47_config true true) /\
  dirs_ok sample_pe /\ dir_load_config < nrva sample_pe <= 16 /\ base_ok sample_pe /\ nth_error (p_sections sample_pe) 1 = Some sample_data /\
  imagebase sample_pe + s_va sample_data + (ceil_mult 5 (Z.of_nat (word_size sample_pe)) + config_bytes sample_pe C47_config true true) < base_mod sample_pe - 1 /\
  kept_lists sample_pe 1 C47_config true true.
Proof.
  split; [apply C47_valid; reflexivity|]. split; [apply sample_room_data; vm_compute; intuition congruence|]. split; [exact sample_dirs|]. split; [split; vm_compute; congruence|].
  split; [split; vm_compute; congruence|]. split; [reflexivity|]. split; [vm_compute; reflexivity|]. split; discriminate.
Qed.
(** or neither: the lists are in the other section. *)
Definition C47_other : pe := sample_code_with (le 4 0x11 ++ le 4 0x22 ++ le 4 (C64_base + 0x1234) ++ le 4 0).
Definition C47_kept : config := mk_config 7 4 5 6 8 9 10 11 (C64_base + 0x1008) 12 13 14 15 3 16 17 (C64_base + 0x1000) 2 [0x11; 0x22] [0x1234].
Example C47_kept_case : kept_lists C47_other 1 C47_kept false false.
Proof.
  assert (El : forall a, 0x1000 <= a < 0x2000 -> elsewhere C47_other 1 a).
  { intros a Ha. exists 0%nat. eexists. split; [discriminate|]. split; [reflexivity|]. exact Ha. }
  split; intros _; right; [|split; [vm_compute; congruence|]].
  - exists 0x1000. repeat (split; [vm_compute; congruence|]). split; [repeat (split; [split; vm_compute; congruence|]; split; [vm_compute; reflexivity|]); exact I|].
    intros k Hk. change (zlen (c_handlers C47_kept)) with 2 in Hk. apply El. change (Z.of_nat (word_size C47_other)) with 4. change (Z.of_nat 4) with 4. lia.
  - exists 0x1008. repeat (split; [vm_compute; congruence|]). split; [repeat (split; [split; vm_compute; congruence|]; split; [vm_compute; reflexivity|]); exact I|].
    intros k Hk. change (zlen (map (Z.add (imagebase C47_other)) (c_locks C47_kept) ++ [0])) with 2 in Hk. apply El. change (Z.of_nat (word_size C47_other)) with 4. change (Z.of_nat 4) with 4. lia.
Qed.
(** Stripping a section that is not the last one cuts the end of the lists off. *)
Theorem C47_strip_refuted : exists p start i c off s p' where_,
  let n := ceil_mult off (Z.of_nat (word_size p)) + config_bytes p c true true in
  0 <= off /\ valid_config p c /\ room p start i n /\ dirs_ok p /\ dir_load_config < nrva p <= 16 /\ base_ok p /\
  nth_error (p_sections p) i = Some s /\ imagebase p + s_va s + n < base_mod p - 1 /\
  rebuild_config p c i off true true true true = Ok (p', where_) /\ exists e, get_config p' = Throw e.
Proof.
  exists (sample_code_with (zeros 512)), 0x1000, 0%nat, C47_config, 0x100, (set_s_data (zeros 512) sample_code).
  assert (M : match rebuild_config (sample_code_with (zeros 512)) C47_config 0 0x100 true true true true with Ok (q, _) => match get_config q with Throw _ => true | _ => false end | _ => false end = true) by (vm_compute; reflexivity).
  destruct (rebuild_config (sample_code_with (zeros 512)) C47_config 0 0x100 true true true true) as [[p' w]| | |] eqn:E; try discriminate M.
  exists p', w. split; [lia|]. split; [apply C47_valid; reflexivity|]. split; [apply sample_code_with_room; [apply bytes_zeros|rewrite zlen_zeros; lia|vm_compute; intuition congruence]|].
  split; [apply sample_with_dirs|]. split; [split; vm_compute; congruence|]. split; [split; vm_compute; congruence|]. split; [reflexivity|]. split; [vm_compute; reflexivity|].
  split; [reflexivity|]. destruct (get_config p') as [|e| |]; try discriminate M. exists e. reflexivity.
Qed.
Print Assumptions C47_strip_refuted.

(** C61 for load configurations: rebuilding refuses sections that are not attached *)
Theorem C61_config_not_attached : forall p c i off handlers locks save strip, nth_error (p_sections p) i = None ->
  rebuild_config p c i off handlers locks save strip = Throw section_is_not_attached.
Proof. exact config_detached. Qed.
Print Assumptions C61_config_not_attached.
(** and refuses to overflow a section that is not the last one. *)
Theorem C61_config_no_overflow : forall p c i off handlers locks save strip, let n := ceil_mult off (Z.of_nat (word_size p)) + config_bytes p c handlers locks in
  0 <= off -> zlen (c_handlers c) < 2^32 -> n < 2^32 -> no_room p i n -> rebuild_config p c i off handlers locks save strip = Throw insufficient_space.
Proof. exact config_full. Qed.
Print Assumptions C61_config_no_overflow.
(** On success, only the bytes [config_bytes] from the aligned offset on and, if asked, the directory entry differ. *)
Theorem C61_config_only : forall p start i c off handlers locks save strip s, let pos := ceil_mult off (Z.of_nat (word_size p)) in let size := config_bytes p c handlers locks in
  0 <= off -> valid_config p c -> zlen (c_handlers c) < 2^32 -> room p start i (pos + size) -> dirs_ok p -> dir_load_config < nrva p <= 16 -> base_ok p ->
  nth_error (p_sections p) i = Some s -> imagebase p + s_va s + (pos + size) < base_mod p - 1 ->
  exists p' out n, n = (if p_plus p then 112 else 72) /\ rebuild_config p c i off handlers locks save strip = Ok (p', (s_va s + pos, n)) /\ zlen out <= size /\ only_section p p' i pos out /\
    same_headers p p' /\ image_ok p' start /\ (if save then only_directory p p' dir_load_config (s_va s + pos, n) else h_dirs (p_nt p') = h_dirs (p_nt p)).
Proof.
  intros p start i c off handlers locks save strip s pos size A B C D E F G H I.
  destruct (rebuild_config_ok p start i c off handlers locks save strip s A B C D E F G H I) as (p' & out & X1 & X2 & X3 & X4 & X5 & X6 & _). exists p', out, (config_size p). split; [apply config_size_eq|]. tauto.
Qed.
Print Assumptions C61_config_only.
Example C61_config_case : no_room sample_pe 0 (0x1f0 + config_bytes sample_pe C47_config true true) /\ nth_error (p_sections sample_pe) 2 = None.
Proof. split; [apply sample_no_room; vm_compute; reflexivity|reflexivity]. Qed.
