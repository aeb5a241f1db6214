(** Properties of loading an image from a stream: C14, C15, C16, C17. *)
From Verif Require Import SpecLoad LoadFacts SamplesLoad.

(** C14: whatever the bytes, the position and the flags of the stream, loading ends with
    an image or an exception; no step leaves its buffers and no loop runs forever. *)
Theorem C14_load_safe : forall plus from_mem read_debug f,
  wf_stream f -> safe (snd (load plus from_mem read_debug f)).
Proof. exact load_safe. Qed.
Print Assumptions C14_load_safe.
Theorem C14_factory_safe : forall from_mem read_debug f,
  wf_stream f -> safe (snd (factory_create from_mem read_debug f)).
Proof. exact factory_safe. Qed.
Print Assumptions C14_factory_safe.
Theorem C14_type_safe : forall f, wf_stream f -> safe (snd (get_pe_type f)).
Proof. exact type_safe. Qed.
Print Assumptions C14_type_safe.
Example C14_accepts : wf_stream (open_stream true sample_file) /\
  exists p, snd (factory_create false true (open_stream true sample_file)) = Ok p /\ zlen (p_sections p) = 2.
Proof. split; [apply sample_stream|]. eexists. split; vm_compute; reflexivity. Qed.
Example C14_rejects : exists e, snd (factory_create false true (open_stream true (ztake 300 sample_file))) = Throw e.
Proof. eexists. vm_compute. reflexivity. Qed.

(** C15, as far as it holds: everything in the claim, with the end of a section computed
    modulo 2^32; and the exact claim when no section ends at or beyond 2^32. *)
Theorem C15_checked_partial : forall plus from_mem read_debug f f' p,
  wf_stream f -> load plus from_mem read_debug f = (f', Ok p) ->
  zlen (p_sections p) = h_nsections (p_nt p) /\ image_checked p.
Proof.
  intros plus from_mem read_debug f f' p W E. destruct (load_ok plus from_mem read_debug f f' p W E) as (_ & _ & H & C).
  split; [unfold image_from_file in H; tauto|exact C].
Qed.
Print Assumptions C15_checked_partial.
Theorem C15_layout_partial : forall plus from_mem read_debug f f' p,
  wf_stream f -> load plus from_mem read_debug f = (f', Ok p) ->
  Forall (fun s => send (salign p) s < 2^32) (p_sections p) ->
  (forall i s t, nth_error (p_sections p) i = Some s -> nth_error (p_sections p) (S i) = Some t -> s_va t = send (salign p) s) /\
  Forall (fun s => send (salign p) s <= ceil_mult (imagesize p) (salign p)) (p_sections p) /\
  spec_layout p.
Proof.
  intros plus from_mem read_debug f f' p W E. destruct (load_ok plus from_mem read_debug f f' p W E) as (_ & H & _ & C).
  exact (checked_chain p H C).
Qed.
Print Assumptions C15_layout_partial.
Example C15_nonvacuous : exists f' p, load false false true (open_stream true sample_file) = (f', Ok p) /\
  Forall (fun s => send (salign p) s < 2^32) (p_sections p) /\ zlen (p_sections p) = 2.
Proof. do 2 eexists. split; [vm_compute; reflexivity|]. split; [|reflexivity]. repeat constructor. Qed.
(** ... and false otherwise: an image is accepted whose first section ends at 2^32, outside
    SizeOfImage, and whose second section starts at address 0. *)
Theorem C15_wrapping_section_refuted : exists f f' p s t,
  ready f /\ load false false true f = (f', Ok p) /\
  p_sections p = [s; t] /\ send (salign p) s = 2^32 /\ ceil_mult (imagesize p) (salign p) = 0x1000 /\ s_va t = 0.
Proof.
  exists (open_stream true wrap_file). do 4 eexists. split; [apply wrap_stream|]. split; [vm_compute; reflexivity|].
  split; [reflexivity|]. split; [vm_compute; reflexivity|]. split; vm_compute; reflexivity.
Qed.
Print Assumptions C15_wrapping_section_refuted.

(** C16: headers, directories, section headers and section data are those of the file. *)
Theorem C16_load_from_file : forall plus from_mem read_debug f f' p,
  wf_stream f -> load plus from_mem read_debug f = (f', Ok p) ->
  p_plus p = plus /\ image_wf p /\ image_from_file (i_data f) (i_pos f) from_mem p.
Proof.
  intros plus from_mem read_debug f f' p W E.
  destruct (load_ok plus from_mem read_debug f f' p W E) as (H1 & H2 & H3 & _). exact (conj H1 (conj H2 H3)).
Qed.
Print Assumptions C16_load_from_file.
(** The factory loads the same image and picks the class by the Magic field of the file. *)
Theorem C16_factory_from_file : forall from_mem read_debug f f' p,
  wf_stream f -> factory_create from_mem read_debug f = (f', Ok p) ->
  image_wf p /\ image_from_file (i_data f) (i_pos f) from_mem p /\ image_checked p /\
  le_at (i_data f) (p_lfanew p + 24) 2 = (if p_plus p then 0x20b else 0x10b).
Proof. exact factory_ok. Qed.
Print Assumptions C16_factory_from_file.
Example C16_nonvacuous : exists f' p, factory_create false true (open_stream true sample_file) = (f', Ok p) /\
  map s_data (p_sections p) = [[1; 2; 3; 4; 5; 6; 7; 8]; [21; 22; 23; 24]] /\ map s_va (p_sections p) = [0x188; 0x190].
Proof. do 2 eexists. split; [vm_compute; reflexivity|]. split; vm_compute; reflexivity. Qed.

(** C17, as far as it holds: the stream is left as it was (position and flags) by a
    successful load without debug data, by successful type detection, and by every
    exception other than those that report a stream that is too short; in any case its
    error flags end up cleared and its contents are untouched. *)
Theorem C17_load_partial : forall plus from_mem read_debug f,
  ready f ->
  (forall p, snd (load plus from_mem read_debug f) = Ok p -> read_debug = false -> fst (load plus from_mem read_debug f) = f) /\
  (forall e, snd (load plus from_mem read_debug f) = Throw e -> ~ In e io_errors -> fst (load plus from_mem read_debug f) = f) /\
  i_data (fst (load plus from_mem read_debug f)) = i_data f /\
  i_fail (fst (load plus from_mem read_debug f)) = false /\ i_eof (fst (load plus from_mem read_debug f)) = false.
Proof.
  intros plus from_mem read_debug f (W & Hf & He).
  destruct (load_ready f W plus from_mem read_debug Hf He) as (_ & H2 & H3 & H4 & _ & H5 & H6).
  split; [|split; [|split; [exact H4|split; assumption]]].
  - intros p E ->. apply (H2 p E). reflexivity.
  - intros e E N. destruct (H3 e E) as [H|H]; [contradiction|exact H].
Qed.
Print Assumptions C17_load_partial.
Theorem C17_type_partial : forall f,
  ready f ->
  (forall b, snd (get_pe_type f) = Ok b -> fst (get_pe_type f) = f) /\
  (forall e, snd (get_pe_type f) = Throw e -> ~ In e io_errors -> fst (get_pe_type f) = f) /\
  i_data (fst (get_pe_type f)) = i_data f /\ i_fail (fst (get_pe_type f)) = false /\ i_eof (fst (get_pe_type f)) = false.
Proof.
  intros f (W & Hf & He).
  destruct (type_ready f W Hf He) as (_ & H2 & H3 & H4 & _ & H5 & H6).
  split; [|split; [|split; [exact H4|split; assumption]]].
  - intros b E. apply (H2 b E). reflexivity.
  - intros e E N. destruct (H3 e E) as [H|H]; [contradiction|exact H].
Qed.
Print Assumptions C17_type_partial.
Example C17_nonvacuous : ready (mk_is sample_file true 0 false false) /\
  is_ok (snd (load false false false (mk_is sample_file true 0 false false))) = true /\
  snd (load true false false (mk_is sample_file true 0 false false)) = Throw pe_signature_incorrect.
Proof. split; [apply (sample_stream true)|]. split; vm_compute; reflexivity. Qed.
(** ... and false otherwise: a stream that is too short is left at its end, for the
    library calls seekg while failbit is still set. *)
Theorem C17_short_stream_refuted : exists f e,
  ready f /\ snd (load false false false f) = Throw e /\ i_pos (fst (load false false false f)) <> i_pos f /\
  snd (get_pe_type f) = Throw e /\ i_pos (fst (get_pe_type f)) <> i_pos f.
Proof.
  exists (open_stream true [77; 90; 0; 0]), bad_dos_header.
  split; [split; [apply wf_open; [apply bytes_check; reflexivity|vm_compute; reflexivity]|split; reflexivity]|].
  split; [vm_compute; reflexivity|]. split; [vm_compute; discriminate|]. split; [vm_compute; reflexivity|vm_compute; discriminate].
Qed.
Print Assumptions C17_short_stream_refuted.
(** ... and a successful load that reads debug data can move the position. *)
Theorem C17_debug_data_refuted : exists f p,
  ready f /\ snd (load false false true f) = Ok p /\ i_pos (fst (load false false true f)) <> i_pos f.
Proof.
  exists (open_stream false debug_file). eexists. split; [apply debug_stream|]. split; [vm_compute; reflexivity|vm_compute; discriminate].
Qed.
Print Assumptions C17_debug_data_refuted.
