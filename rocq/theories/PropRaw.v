(** C85: the tables that are read from the data of the file, the load configuration and bound imports, when the image is realigned and written. *)
From Verif Require Import KeepRaw SamplesRaw.

(** C85: realigning changes neither the load configuration nor the bound imports, when the data of the last section do not end with a zero byte, ... *)
Theorem C85_realign : forall p a p', editable a p -> tight_end p -> realign_file p a = Ok p' ->
  (forall c, get_config p = Ok c -> get_config p' = Ok c) /\ (forall l, get_bound_imports p = Ok l -> get_bound_imports p' = Ok l).
Proof. exact realign_raw. Qed.
Print Assumptions C85_realign.
(** ... what is found of them in the sections is found in the image opened from the file written then, ... *)
Theorem C85_written : forall p a r, editable a p -> 0 < nrva p -> tight_end p ->
  (saved p a r -> still_reads get_config p r) /\ (saved_in_place p a r -> still_reads get_bound_imports p r).
Proof. intros p a r E N T. split; [exact (config_kept a p r E N T)|exact (bound_kept a p r E N T)]. Qed.
Print Assumptions C85_written.
(** ... and so is a load configuration that is rebuilt before, ... *)
Theorem C85_config : forall p start i c off handlers locks strip s a,
  let pos := ceil_mult off (Z.of_nat (word_size p)) in let size := config_bytes p c handlers locks in editable a p ->
  0 <= off -> valid_config p c -> zlen (c_handlers c) < 2^32 -> room p start i (pos + size) -> dir_load_config < nrva p <= 16 -> base_ok p ->
  nth_error (p_sections p) i = Some s -> imagebase p + s_va s + (pos + size) < base_mod p - 1 ->
  strip = false \/ S i = length (p_sections p) -> kept_lists (sections_only p) i c handlers locks ->
  exists p' where_, rebuild_config p c i off handlers locks true strip = Ok (p', where_) /\ editable a p' /\
    forall r, tight_end p' -> saved p' a r -> exists c', get_config r = Ok c' /\ same_fields c c' /\ c_count c' = zlen (c_handlers c) /\
      same_list handlers sorted_list (c_table c) (c_table c') (c_handlers c) (c_handlers c') /\
      same_list locks eq (c_lock_table c) (c_lock_table c') (c_locks c) (c_locks c').
Proof. exact config_saved. Qed.
Print Assumptions C85_config.
(** ... and bound imports. Missing: a list over bytes that are not zero, which C45 leaves out. *)
Theorem C85_bound_imports_partial : forall p start i imports off strip a, let pos := ceil_mult off 4 in editable a p ->
  0 <= off -> Forall valid_bound imports -> room p start i (pos + bound_size imports) -> dir_bound_import < nrva p <= 16 ->
  strip = false \/ S i = length (p_sections p) -> bound_size imports <= 2^16 ->
  forall s, nth_error (p_sections p) i = Some s -> byte_of s (pos + bound_structs imports + 4) = 0 -> byte_of s (pos + bound_structs imports + 5) = 0 ->
  exists p' where_, rebuild_bound_imports p imports i off true strip = Ok (p', where_) /\ editable a p' /\
    forall r, tight_end p' -> saved_in_place p' a r -> get_bound_imports r = Ok imports.
Proof. exact bound_saved_back. Qed.
Print Assumptions C85_bound_imports_partial.
(** Both in the first section; the data of the last one end with the byte 9. *)
Example C85_config_case : editable 0x200 sample_pe /\ room sample_pe 0x1000 0 (ceil_mult 0x100 (Z.of_nat (word_size sample_pe)) + config_bytes sample_pe C47_config true true) /\
  valid_config sample_pe C47_config /\ kept_lists (sections_only sample_pe) 0 C47_config true true /\ base_ok sample_pe /\ dir_load_config < nrva sample_pe <= 16 /\ nth_error (p_sections sample_pe) 0 = Some sample_code /\
  imagebase sample_pe + s_va sample_code + (ceil_mult 0x100 (Z.of_nat (word_size sample_pe)) + config_bytes sample_pe C47_config true true) < base_mod sample_pe - 1 /\
  rmap fst (rebuild_config sample_pe C47_config 0 0x100 true true true false) = Ok (raw_config 0) /\ tight_end (raw_config 0) /\ saved (raw_config 0) 0x200 (opened_of (raw_config 0)) /\
  exists c', get_config (opened_of (raw_config 0)) = Ok c' /\ c_handlers c' = [0x11; 0x11; 0x22; 0x33] /\ c_locks c' = [0x1234; 0x10].
Proof.
  split; [exact sample_editable|]. split; [apply sample_room_code; vm_compute; intuition congruence|]. split; [apply C47_valid; reflexivity|]. split; [split; discriminate|].
  split; [split; vm_compute; congruence|]. split; [split; vm_compute; congruence|]. split; [reflexivity|]. split; [vm_compute; reflexivity|].
  split; [apply (is_ok_result sample_pe); vm_compute; reflexivity|]. split; [apply tight_calc; vm_compute; reflexivity|]. split; [apply saved_plain, saved_of; vm_compute; reflexivity|].
  eexists. split; [vm_compute; reflexivity|]. split; reflexivity.
Qed.
Example C85_bound_imports_case : editable 0x200 raw_zeros /\ Forall valid_bound C45_l /\ room raw_zeros 0x1000 0 (ceil_mult 0x100 4 + bound_size C45_l) /\ bound_size C45_l <= 2^16 /\
  (forall s, nth_error (p_sections raw_zeros) 0 = Some s -> byte_of s (ceil_mult 0x100 4 + bound_structs C45_l + 4) = 0 /\ byte_of s (ceil_mult 0x100 4 + bound_structs C45_l + 5) = 0) /\
  rmap fst (rebuild_bound_imports raw_zeros C45_l 0 0x100 true false) = Ok (raw_bound 0) /\ tight_end (raw_bound 0) /\ saved_in_place (raw_bound 0) 0x200 (opened_of (raw_bound 0)) /\
  get_bound_imports (opened_of (raw_bound 0)) = Ok C45_l.
Proof.
  split; [exact raw_zeros_editable|]. split; [exact C45_l_valid|]. split; [apply sample_code_with_room; [apply bytes_zeros|rewrite zlen_zeros; lia|vm_compute; intuition congruence]|]. split; [vm_compute; congruence|].
  split; [intros s H; injection H as <-; split; vm_compute; reflexivity|].
  split; [apply (is_ok_result sample_pe); vm_compute; reflexivity|]. split; [apply tight_calc; vm_compute; reflexivity|]. split; [apply saved_of; vm_compute; reflexivity|]. vm_compute. reflexivity.
Qed.
(** A list of lock prefixes ends with a zero. At the end of the last section it is stripped, and the configuration cannot be read from the file. *)
Theorem C85_stripped_end_refuted : exists p c p' where_ r, editable 0x200 p /\ valid_config p c /\ rebuild_config p c 1 5 true true true false = Ok (p', where_) /\
  is_ok (get_config p') = true /\ saved p' 0x200 r /\ exists e, get_config r = Throw e.
Proof.
  exists sample_pe, C47_config. destruct (rebuild_config sample_pe C47_config 1 5 true true true false) as [[p' w]| | |] eqn:E; try (vm_compute in E; discriminate E).
  exists p', w, (opened_of p'). split; [exact sample_editable|]. split; [apply C47_valid; reflexivity|]. split; [reflexivity|].
  assert (Ep : p' = result sample_pe (rmap fst (rebuild_config sample_pe C47_config 1 5 true true true false))) by (rewrite E; reflexivity). clear E. rewrite Ep. clear p' w Ep.
  split; [vm_compute; reflexivity|]. split; [apply saved_plain, saved_of; vm_compute; reflexivity|]. eexists. vm_compute. reflexivity.
Qed.
Print Assumptions C85_stripped_end_refuted.
