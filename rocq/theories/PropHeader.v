(** Theorems about header values (C76). *)
From Verif Require Import HeaderFacts SamplesLoad SamplesRebuild.

(** C76: header accessors report and change exactly the bytes at the documented offsets. After a file has been loaded, every query returns the
    little-endian value that the file has at the place that the PE format gives to it (the number of directories cut to 16). *)
Theorem C76_reported : forall plus from_mem read_debug f f' p, wf_stream f -> load plus from_mem read_debug f = (f', Ok p) ->
  let off := le_at (i_data f) (i_pos f + 60) 4 in
  p_plus p = plus /\ forall q, header_get p q = (if match q with QDirectories => true | _ => false end then Z.min (header_value (i_data f) plus off q) 16 else header_value (i_data f) plus off q).
Proof. exact load_values. Qed.
Print Assumptions C76_reported.
(** The file has a directory, is a console or a GUI program, and has its headers where its bytes say so. *)
Theorem C76_has : forall plus from_mem read_debug f f' p q, wf_stream f -> load plus from_mem read_debug f = (f', Ok p) ->
  let off := le_at (i_data f) (i_pos f + 60) 4 in
  has_query p q = Ok (directory_present (i_data f) plus off (directory_number q) &&
    match q with HasReloc => negb (Z.testbit (header_value (i_data f) plus off QCharacteristics) 0) | _ => true end).
Proof. exact load_has. Qed.
Print Assumptions C76_has.
Theorem C76_kind : forall plus from_mem read_debug f f' p, wf_stream f -> load plus from_mem read_debug f = (f', Ok p) ->
  let off := le_at (i_data f) (i_pos f + 60) 4 in let subsystem := le_at (i_data f) (off + 92) 2 in
  is_console p = (subsystem =? 3) /\ is_gui p = (subsystem =? 2) /\ pe_header_start p = off.
Proof. exact load_subsystem. Qed.
Print Assumptions C76_kind.
(** C76. In any image get_pe_header_start is the e_lfanew field taken as a signed number. *)
Theorem C76_header_start : forall p, image_wf p -> -2^31 <= pe_header_start p < 2^31 /\ pe_header_start p mod 2^32 = p_lfanew p.
Proof. exact start_signed. Qed.
Print Assumptions C76_header_start.
Example C76_reported_case : exists f' p, wf_stream (open_stream true debug_file) /\ load false false false (open_stream true debug_file) = (f', Ok p) /\
  header_get p QMachine = 0x14c /\ header_get p QImageBase = 0x400000 /\ header_get p QHeapCommit = 0x1000 /\ header_get p QDirectories = 16 /\
  has_query p HasDebug = Ok true /\ has_query p HasTls = Ok false /\ is_console p = true /\ is_gui p = false.
Proof. do 2 eexists. split; [apply debug_stream|]. split; [vm_compute; reflexivity|]. vm_compute. repeat split. Qed.

(** Every call that sets a value changes the answer to its own query to that value, and to no other query; in a 32-bit image the
    five values with the size of a pointer are cut to 32 bits. *)
Theorem C76_set : forall p c q, image_wf p -> arguments c ->
  header_get (header_set p c) q = changed_to (p_plus p) c q (header_get p q) /\ header_get_32 (header_set p c) q = changed_to (p_plus p) c q (header_get p q) mod 2^32.
Proof. exact set_values. Qed.
Print Assumptions C76_set.
(** ... and changes nothing else in the image, which stays as consistent as it was. *)
Theorem C76_set_rest : forall p c, let p' := header_set p c in
  p_plus p' = p_plus p /\ p_magic p' = p_magic p /\ p_dosmid p' = p_dosmid p /\ p_lfanew p' = p_lfanew p /\ p_stub p' = p_stub p /\ p_sections p' = p_sections p /\
  p_overlay p' = p_overlay p /\ p_full p' = p_full p /\ p_debug p' = p_debug p /\ h_dirs (p_nt p') = h_dirs (p_nt p).
Proof. exact set_rest. Qed.
Print Assumptions C76_set_rest.
Theorem C76_set_consistent : forall p c, consistent p -> arguments c -> modest c -> consistent (header_set p c).
Proof. exact consistent_set. Qed.
Print Assumptions C76_set_consistent.
(** In the file that is written, the headers start where the DOS header says, and every value is at its place: that of the image, or the number of sections, the
    sizes of the headers and of the image that belong to the file. *)
Theorem C76_written : forall p strip change_headers save_bound q out, consistent p -> data_start strip save_bound p + data_total (falign p) (p_sections p) < 2^32 ->
  no_stale_pointers (data_start strip save_bound p) p -> rebuild_pe p strip change_headers save_bound = Ok (q, out) ->
  le_at out 60 4 = nt_offset strip p /\ forall v, header_value out (p_plus p) (nt_offset strip p) v = written strip change_headers save_bound p v.
Proof. exact written_values. Qed.
Print Assumptions C76_written.
(** A value that has been set is in the file at its place, and every other value that writing does not compute is what it was. *)
Theorem C76_set_written : forall p c strip change_headers save_bound q out, let p' := header_set p c in consistent p -> arguments c -> modest c ->
  data_start strip save_bound p' + data_total (falign p') (p_sections p') < 2^32 ->
  no_stale_pointers (data_start strip save_bound p') p' -> rebuild_pe p' strip change_headers save_bound = Ok (q, out) ->
  le_at out 60 4 = nt_offset strip p /\
  forall v, match v with QSections | QOptionalSize | QImageSize | QHeadersSize | QBaseOfCode => True
            | _ => header_value out (p_plus p) (nt_offset strip p) v = changed_to (p_plus p) c v (header_get p v) end.
Proof. exact set_written. Qed.
Print Assumptions C76_set_written.
Example C76_set_case : consistent sample_pe /\ arguments (SetStackReserve 0x123456789) /\ modest (SetStackReserve 0x123456789) /\
  let p' := header_set sample_pe (SetStackReserve 0x123456789) in
  data_start false true p' + data_total (falign p') (p_sections p') < 2^32 /\ no_stale_pointers (data_start false true p') p' /\
  exists q out, rebuild_pe p' false true true = Ok (q, out) /\ header_value out false (nt_offset false sample_pe) QStackReserve = 0x23456789.
Proof.
  split; [exact sample_consistent|]. split; [vm_compute; intuition congruence|]. split; [exact Logic.I|]. split; [reflexivity|]. split; [repeat constructor; discriminate|].
  do 2 eexists. split; vm_compute; reflexivity.
Qed.
(** With the number of directories set to zero, a directory that cannot be read is still reported as present: the count minus one wraps around. *)
Theorem C76_has_none_refuted : exists p, consistent p /\ header_get p QDirectories = 0 /\ has_query p HasImports = Ok true /\ get_directory_rva p dir_import = Throw directory_does_not_exist.
Proof. exact no_directories. Qed.
Print Assumptions C76_has_none_refuted.
