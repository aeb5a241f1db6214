(** C86: debug information in files that are written and opened again. *)
From Verif Require Import SamplesDebugKeep.

(** C86. A file that is opened, written and opened again gives the same debug information if its sections stay where they are in the file and the data that
    the debug directory refers to are data of sections. *)
Theorem C86_unmoved : forall p strip change_headers save_bound q out, consistent p -> unmapped p -> 0 < nrva p ->
  data_start strip save_bound p + data_total (falign p) (p_sections p) < 2^32 -> no_stale_pointers (data_start strip save_bound p) p -> rebuild_pe p strip change_headers save_bound = Ok (q, out) ->
  forall r, opened_with_debug out r -> forall l, get_debug_information (sections_only p) = Ok l ->
  forall f f', wf_stream f -> factory_create false true f = (f', Ok p) -> map s_rawptr (p_sections q) = map s_rawptr (p_sections p) -> Forall (in_section_data p) l ->
  get_debug_information r = Ok l.
Proof. exact debug_unmoved. Qed.
Print Assumptions C86_unmoved.
(** C86. For any image, edited or created: its debug information is found in the file written for it if the raw data that the image has are in that file, at the offsets
    that the entries give. *)
Theorem C86_written : forall p strip change_headers save_bound q out, consistent p -> unmapped p -> 0 < nrva p ->
  data_start strip save_bound p + data_total (falign p) (p_sections p) < 2^32 -> no_stale_pointers (data_start strip save_bound p) p -> rebuild_pe p strip change_headers save_bound = Ok (q, out) ->
  forall r, opened_with_debug out r -> forall l, get_debug_information (sections_only p) = Ok l -> Forall (raw_stored p out) l -> get_debug_information r = Ok l.
Proof. exact debug_written. Qed.
Print Assumptions C86_written.
(** C86 fails when sections move: the entries keep their file offsets, and what is there now is read (or nothing). Here by realigning the file to 0x1000. *)
Theorem C86_moved_refuted : exists f f' p a p1 q out r l l', wf_stream f /\ factory_create false true f = (f', Ok p) /\ consistent p /\ unmapped p /\ power_of_two a /\ 512 <= a <= salign p /\
  get_debug_information (sections_only p) = Ok l /\ Forall (in_section_data p) l /\ realign_file p a = Ok p1 /\ rebuild_pe p1 false true false = Ok (q, out) /\ opened_with_debug out r /\
  get_debug_information r = Ok l' /\ map d_ptr l' = map d_ptr l /\ Forall (fun e => d_adv e <> AdvNone) l /\ Forall (fun e => d_adv e = AdvNone) l'.
Proof. exact dbg_moves. Qed.
Print Assumptions C86_moved_refuted.
(** A file with PDB 7.0 data, written and opened again. *)
Example C86_case : consistent dbg_image /\ unmapped dbg_image /\ 0 < nrva dbg_image /\
  data_start false false dbg_image + data_total (falign dbg_image) (p_sections dbg_image) < 2^32 /\ no_stale_pointers (data_start false false dbg_image) dbg_image /\
  rebuild_pe dbg_image false true false = Ok (fst dbg_again, snd dbg_again) /\ opened_with_debug (snd dbg_again) dbg_reopened /\ get_debug_information (sections_only dbg_image) = Ok dbg_info /\
  wf_stream (open_stream true dbg_file) /\ (exists f', factory_create false true (open_stream true dbg_file) = (f', Ok dbg_image)) /\
  map s_rawptr (p_sections (fst dbg_again)) = map s_rawptr (p_sections dbg_image) /\ Forall (in_section_data dbg_image) dbg_info /\ Forall (raw_stored dbg_image (snd dbg_again)) dbg_info /\
  get_debug_information dbg_reopened = Ok dbg_info.
Proof.
  destruct dbg_bounds as (A & B & C & D). split; [exact dbg_consistent|]. split; [exact A|]. split; [exact B|]. split; [exact C|]. split; [exact D|]. split; [rewrite <- surjective_pairing; exact dbg_rebuilt|]. split; [exact dbg_opens|]. split; [exact dbg_reads|].
  split; [exact dbg_stream|]. split; [exact dbg_loaded|]. split; [exact dbg_places|]. split; [exact dbg_data|]. split; [exact dbg_stored|exact dbg_again_reads].
Qed.
