(** C83 for imports: what a rebuild that throws leaves behind. *)
From Verif Require Import SamplesDir FailImport2.

(** The run is the operation of the import model: it returns and throws the same. *)
Theorem C83_imports_agrees : forall libs i o p, same_result (run_rebuild_imports libs i o p) (rebuild_imports p libs i o).
Proof. exact imports_same. Qed.
Print Assumptions C83_imports_agrees.

(** A failed rebuild leaves all headers as they were; and it leaves the whole image as it was unless tables are to be written over in place. *)
Theorem C83_imports : forall libs i o p q e, good_align p -> sized p i -> 0 <= o_offset o -> o_offset o + import_size p libs o <= 2^31 ->
  entry_for p (o_headers o) dir_import -> entry_for p (o_headers o && o_zero_iat o) dir_iat ->
  run_rebuild_imports libs i o p = (q, Throw e) ->
  same_heads p q /\ (Forall (fun l => stays o l && o_rewrite o = false) libs -> q = p).
Proof. exact imports_failed. Qed.
Print Assumptions C83_imports.
Definition C83_libs (iat : Z) : list library := [mk_library [97; 46; 100] 11 iat 0 [mk_imported [102] 5 0 1; mk_imported [] 0 7 2]].
Definition C83_new : import_settings := mk_settings 0x1f0 true false false true true false true.
Definition C83_over : import_settings := mk_settings 0 true true false true true true false.
Example C83_imports_case : good_align sample_pe /\ sized sample_pe 0 /\ 0 <= o_offset C83_new /\ o_offset C83_new + import_size sample_pe (C83_libs 0) C83_new <= 2^31 /\
  entry_for sample_pe (o_headers C83_new) dir_import /\ entry_for sample_pe (o_headers C83_new && o_zero_iat C83_new) dir_iat /\
  run_rebuild_imports (C83_libs 0) 0 C83_new sample_pe = (sample_pe, Throw insufficient_space) /\ Forall (fun l => stays C83_new l && o_rewrite C83_new = false) (C83_libs 0).
Proof.
  split; [exact sample_align|]. split; [intros s H; injection H as <-; vm_compute; intuition discriminate|]. split; [vm_compute; discriminate|]. split; [vm_compute; discriminate|].
  split; [intros _; vm_compute; reflexivity|]. split; [intros _; vm_compute; reflexivity|]. split; [vm_compute; reflexivity|]. constructor; [reflexivity|constructor].
Qed.

(** A table that is written over in place is checked word by word: without room for its end, names, descriptors and the first addresses have
    been written when the exception comes. *)
Theorem C83_imports_refuted : exists libs i o p q e, good_align p /\ sized p i /\ 0 <= o_offset o /\ o_offset o + import_size p libs o <= 2^31 /\
  entry_for p (o_headers o) dir_import /\ entry_for p (o_headers o && o_zero_iat o) dir_iat /\ run_rebuild_imports libs i o p = (q, Throw e) /\
  nth_error (p_sections q) 0 <> nth_error (p_sections p) 0 /\ nth_error (p_sections q) 1 <> nth_error (p_sections p) 1.
Proof.
  exists (C83_libs 0x11f8), 1%nat, C83_over, sample_pe, (fst (run_rebuild_imports (C83_libs 0x11f8) 1 C83_over sample_pe)), insufficient_space.
  split; [exact sample_align|]. split; [intros s H; injection H as <-; vm_compute; intuition discriminate|]. split; [vm_compute; discriminate|]. split; [vm_compute; discriminate|].
  split; [intros _; vm_compute; reflexivity|]. split; [intros _; vm_compute; reflexivity|]. split; [vm_compute; reflexivity|].
  split; intros H; apply (f_equal (fun s => match s with Some s => s_data s | None => [] end)) in H; vm_compute in H; discriminate H.
Qed.
Print Assumptions C83_imports_refuted.
