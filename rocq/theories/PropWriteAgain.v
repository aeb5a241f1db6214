(** C89: writing again. *)
From Verif Require Import SamplesRebuild WriteAgain.

(** The file written for an image with a consistent layout is a fixed point: it can be opened, the image read from it can be written with the same options, and that gives
    the same bytes. Bound imports must be left where they are or be absent. *)
Theorem C89_write_again_partial : forall p strip change_headers save_bound q out, consistent p ->
  save_bound = false \/ nth_error (h_dirs (p_nt p)) 11 = Some (0, 0) ->
  data_start strip save_bound p + data_total (falign p) (p_sections p) < 2^32 -> no_stale_pointers (data_start strip save_bound p) p ->
  rebuild_pe p strip change_headers save_bound = Ok (q, out) ->
  forall strict read_debug, exists f r q',
    factory_create false read_debug (open_stream strict out) = (f, Ok r) /\ load (p_plus p) false read_debug (open_stream strict out) = (f, Ok r) /\
    reloaded strip change_headers save_bound p r /\ rebuild_pe r strip change_headers save_bound = Ok (q', out).
Proof. exact write_again. Qed.
Print Assumptions C89_write_again_partial.
Example C89_case : consistent sample_pe /\ nth_error (h_dirs (p_nt sample_pe)) 11 = Some (0, 0) /\
  data_start false true sample_pe + data_total (falign sample_pe) (p_sections sample_pe) < 2^32 /\
  no_stale_pointers (data_start false true sample_pe) sample_pe /\ exists q out, rebuild_pe sample_pe false true true = Ok (q, out) /\ zlen out = 0x403.
Proof.
  split; [exact sample_consistent|]. split; [vm_compute; reflexivity|]. split; [reflexivity|]. split; [repeat constructor; discriminate|].
  do 2 eexists. split; [vm_compute; reflexivity|vm_compute; reflexivity].
Qed.
(** The DOS header is stripped. *)
Example C89_stripped_case : data_start true true sample_pe + data_total (falign sample_pe) (p_sections sample_pe) < 2^32 /\
  no_stale_pointers (data_start true true sample_pe) sample_pe /\
  match rebuild_pe sample_pe true true true with Ok (_, out) => slice out 16 4 = [0x50; 0x45; 0; 0] /\ slice out 60 4 = [16; 0; 0; 0] | _ => False end.
Proof. split; [reflexivity|]. split; [repeat constructor; discriminate|]. vm_compute. split; reflexivity. Qed.

(** Bound imports at the start of the first section: the headers have grown up to it when the file is written again, so they are taken for a part of the headers and moved
    there, and the file changes. *)
Definition edge_dirs : list (Z * Z) := [(0, 0); (0, 0); (0, 0); (0, 0); (0, 0); (0x2000, 12); (0, 0); (0, 0); (0, 0); (0, 0); (0, 0); (0x1000, 8); (0, 0); (0, 0); (0, 0); (0, 0)].
Definition edge_image : pe := with_nt (fun h => set_h_dirs edge_dirs h) (set_p_stub (zeros 3400) sample_pe).
Lemma dressed_consistent p s d : consistent p -> bytes s -> zlen s < 2^30 -> length d = 16%nat -> Forall (fun e => is_u32 (fst e) /\ is_u32 (snd e)) d ->
  consistent (with_nt (fun h => set_h_dirs d h) (set_p_stub s p)).
Proof.
  intros ((A1 & A2 & A3 & A4 & _ & A6 & _ & A8 & A9 & A10 & A11) & _ & B3 & B4 & B5 & B6 & B7 & B8 & B9 & B10) Bs Ls Ld Fd. split.
  - split; [exact A1|]. split; [exact A2|]. split; [exact A3|]. split; [exact A4|]. split; [exact Bs|].
    split; [cbn [with_nt set_p_nt set_p_stub p_plus p_nt]; rewrite fields_dirs; exact A6|]. split; [split; [exact Ld|exact Fd]|]. split; [exact A8|]. split; [exact A9|]. split; [exact A10|exact A11].
  - split; [exact Ls|]. split; [exact B3|]. split; [exact B4|]. split; [exact B5|]. split; [exact B6|]. split; [exact B7|]. split; [exact B8|]. split; [exact B9|exact B10].
Qed.
Lemma edge_consistent : consistent edge_image.
Proof.
  unfold edge_image. apply dressed_consistent; [exact sample_consistent|apply bytes_zeros|rewrite zlen_zeros; lia|vm_compute; reflexivity|].
  repeat (constructor; [unfold is_u32; cbn [fst snd]; lia|]). constructor.
Qed.
Lemma apart (W : pe -> res (pe * list Z)) (O : list Z -> istream * res pe) (g : list Z -> Z) p x y :
  match W p with
  | Ok (_, out) => g out = x /\ match snd (O out) with Ok r => match W r with Ok (_, out') => g out' = y | _ => False end | _ => False end
  | _ => False
  end -> x <> y ->
  exists q out f r q' out', W p = Ok (q, out) /\ O out = (f, Ok r) /\ W r = Ok (q', out') /\ out' <> out.
Proof.
  intros H N. destruct (W p) as [[q out]| | |]; try contradiction. destruct H as [X H]. destruct (O out) as [f [r| | |]] eqn:F; cbn [snd] in H; try contradiction.
  destruct (W r) as [[q' out']| | |] eqn:G; try contradiction. exists q, out, f, r, q', out'. split; [reflexivity|]. split; [exact F|]. split; [exact G|]. intros ->. congruence.
Qed.
(** The address of the bound imports in the headers of the two files. *)
Lemma edge_apart : match rebuild_pe edge_image false true true with
  | Ok (_, out) => le_at out 3672 4 = 0x1000 /\
      match snd (factory_create false false (open_stream true out)) with
      | Ok r => match rebuild_pe r false true true with Ok (_, out') => le_at out' 3672 4 = 3792 | _ => False end
      | _ => False
      end
  | _ => False
  end.
Proof. vm_compute. split; reflexivity. Qed.
Lemma edge_places : data_start false true edge_image + data_total (falign edge_image) (p_sections edge_image) < 2^32.
Proof. vm_compute. reflexivity. Qed.
Lemma edge_pointers : no_stale_pointers (data_start false true edge_image) edge_image.
Proof. unfold no_stale_pointers. change (p_sections edge_image) with [sample_code; sample_data]. constructor; [discriminate|]. constructor; [discriminate|]. constructor. Qed.
Lemma edge_changes : exists q out f r q' out',
  rebuild_pe edge_image false true true = Ok (q, out) /\ factory_create false false (open_stream true out) = (f, Ok r) /\
  rebuild_pe r false true true = Ok (q', out') /\ out' <> out.
Proof.
  apply (apart (fun p => rebuild_pe p false true true) (fun out => factory_create false false (open_stream true out)) (fun out => le_at out 3672 4) edge_image 0x1000 3792); [exact edge_apart|discriminate].
Qed.
Theorem C89_bound_imports_refuted : exists p, consistent p /\
  data_start false true p + data_total (falign p) (p_sections p) < 2^32 /\ no_stale_pointers (data_start false true p) p /\
  exists q out f r q' out', rebuild_pe p false true true = Ok (q, out) /\ factory_create false false (open_stream true out) = (f, Ok r) /\
    rebuild_pe r false true true = Ok (q', out') /\ out' <> out.
Proof. exists edge_image. split; [exact edge_consistent|]. split; [exact edge_places|]. split; [exact edge_pointers|exact edge_changes]. Qed.
Print Assumptions C89_bound_imports_refuted.
