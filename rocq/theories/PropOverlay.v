(** Theorems about the data behind the sections of a file (C77). *)
From Verif Require Import OverlayFacts.

(** C77: has_overlay() says whether the file goes on behind the data of its sections. Proved for files whose last section (in the section table) has data and
    in which no other section has data behind those; missing: the other files, for which it is false (below). *)
Theorem C77_overlay_partial : forall plus from_mem read_debug f f' p, wf_stream f -> load plus from_mem read_debug f = (f', Ok p) -> last_is_last (i_data f) p ->
  (p_overlay p = true <-> goes_on (i_data f) p).
Proof. exact overlay_exact. Qed.
Print Assumptions C77_overlay_partial.
Example C77_case : exists f' p, wf_stream (open_stream true (sample_file ++ [9; 9])) /\ load false false true (open_stream true (sample_file ++ [9; 9])) = (f', Ok p) /\
  last_is_last (sample_file ++ [9; 9]) p /\ p_overlay p = true.
Proof.
  do 2 eexists. split; [apply wf_open; [apply bytes_check; reflexivity|vm_compute; reflexivity]|]. split; [vm_compute; reflexivity|]. split; [|reflexivity].
  split; [discriminate|]. split; [vm_compute; discriminate|]. intros [|[|i]] Hi _; [vm_compute; discriminate|vm_compute; discriminate|cbn in Hi; lia].
Qed.
Example C77_case_none : exists f' p, wf_stream (open_stream true sample_file) /\ load false false true (open_stream true sample_file) = (f', Ok p) /\
  last_is_last sample_file p /\ p_overlay p = false.
Proof.
  do 2 eexists. split; [apply sample_stream|]. split; [vm_compute; reflexivity|]. split; [|reflexivity].
  split; [discriminate|]. split; [vm_compute; discriminate|]. intros [|[|i]] Hi _; [vm_compute; discriminate|vm_compute; discriminate|cbn in Hi; lia].
Qed.
(** A file without sections has none. *)
Theorem C77_no_sections : forall plus from_mem read_debug f f' p, wf_stream f -> load plus from_mem read_debug f = (f', Ok p) -> p_sections p = [] -> p_overlay p = false.
Proof. exact overlay_none. Qed.
Print Assumptions C77_no_sections.
(** A file that the library writes ends with the data of the last section, and reading it back finds no overlay: an overlay of the original is not written. *)
Theorem C77_written : forall p strip change_headers save_bound q out, consistent p -> data_start strip save_bound p + data_total (falign p) (p_sections p) < 2^32 ->
  no_stale_pointers (data_start strip save_bound p) p -> rebuild_pe p strip change_headers save_bound = Ok (q, out) -> forall l s, p_sections p = l ++ [s] -> s_rawsize s <> 0 ->
  zlen out = s_rawptr (last (p_sections q) s) + s_rawsize s /\ forall strict read_debug f r, load (p_plus p) false read_debug (open_stream strict out) = (f, Ok r) -> p_overlay r = false.
Proof. exact rebuilt_overlay. Qed.
Print Assumptions C77_written.
Example C77_written_case : consistent sample_pe /\ data_start false true sample_pe + data_total (falign sample_pe) (p_sections sample_pe) < 2^32 /\
  no_stale_pointers (data_start false true sample_pe) sample_pe /\ (exists q out, rebuild_pe sample_pe false true true = Ok (q, out)) /\
  exists l s, p_sections sample_pe = l ++ [s] /\ s_rawsize s <> 0.
Proof.
  split; [exact sample_consistent|]. split; [reflexivity|]. split; [repeat constructor; discriminate|]. split; [do 2 eexists; vm_compute; reflexivity|].
  eexists [_], _. split; [reflexivity|vm_compute; discriminate].
Qed.
(** A last section without data: the file ends with the data of the first section and still "has an overlay". *)
Theorem C77_trailing_empty_refuted : exists f f' p, wf_stream f /\ load false false false f = (f', Ok p) /\ p_overlay p = true /\
  zlen (i_data f) = raw_end_at (i_data f) p 0 /\ raw_size_at (i_data f) p 0 = 32 /\ raw_size_at (i_data f) p 1 = 0.
Proof. exists (open_stream true debug_file). exact trailing_empty. Qed.
Print Assumptions C77_trailing_empty_refuted.
(** The last section of the table comes first in the file: the end of the file is the end of the first section's data, and it still "has an overlay". *)
Theorem C77_swapped_refuted : exists f f' p, wf_stream f /\ load false false false f = (f', Ok p) /\ p_overlay p = true /\
  zlen (i_data f) = raw_end_at (i_data f) p 0 /\ raw_size_at (i_data f) p 0 = 8.
Proof. exists (open_stream true swapped_file). exact swapped_sections. Qed.
Print Assumptions C77_swapped_refuted.
(** Sixteen bytes behind all data that are not found, because the last section, which has no data, points elsewhere. *)
Theorem C77_hidden_refuted : exists f f' p, wf_stream f /\ load false false false f = (f', Ok p) /\ p_overlay p = false /\
  goes_on (i_data f) p /\ raw_end_at (i_data f) p 0 + 16 = zlen (i_data f).
Proof. exists (open_stream true hidden_file). exact hidden_overlay. Qed.
Print Assumptions C77_hidden_refuted.
