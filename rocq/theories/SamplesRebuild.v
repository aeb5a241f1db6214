(** Images and lemmas used by the Examples and counterexamples of PropRebuild. *)
From Verif Require Export SpecRebuild RebuildFacts LoadFacts SamplesLoad.

Ltac calc1 := first [vm_compute; reflexivity|split; [vm_compute; congruence|vm_compute; congruence]|repeat (constructor; [vm_compute; congruence|]); constructor].
Lemma sample_range : rebuild_range sample_pe.
Proof.
  unfold rebuild_range. split; [exact sample_dirs|]. split; [calc1|]. split; [calc1|]. split; [exact sample_wf_sections|].
  split; [calc1|]. split; [calc1|]. split; [calc1|]. split; [calc1|]. calc1.
Qed.
Lemma wf_set_raw v s : 0 <= v < 2^32 -> wf_section s -> wf_section (set_s_rawsize v s).
Proof.
  intros B W. unfold wf_section in *.
  cbn [set_s_rawsize s_name s_vsize s_va s_rawsize s_rawptr s_relptr s_lineptr s_nrel s_nline s_chars s_data s_old].
  unfold is_u32 in *. tauto.
Qed.
(** The first section has no data but points to 0x400. *)
Definition stale_pe : pe := set_p_sections [set_s_data [] (set_s_rawsize 0 sample_code); sample_data] sample_pe.
Lemma stale_range : rebuild_range stale_pe.
Proof.
  unfold rebuild_range. split; [unfold dirs_ok; assert (h_dirs (p_nt stale_pe) = h_dirs (p_nt sample_pe)) as -> by (vm_compute; reflexivity); exact sample_dirs|]. split; [calc1|]. split; [calc1|]. split.
  { constructor; [|constructor; [exact sample_data_wf|constructor]].
    apply wf_set_data; [constructor|reflexivity|reflexivity|]. apply wf_set_raw; [lia|exact sample_code_wf]. }
  split; [calc1|]. split; [calc1|]. split; [calc1|]. split; [calc1|]. calc1.
Qed.
Lemma sample_image_wf : image_wf sample_pe.
Proof.
  unfold image_wf. split; [calc1|]. split; [repeat (constructor; [split; [vm_compute; congruence|vm_compute; reflexivity]|]); constructor|].
  split; [calc1|]. split; [calc1|]. split; [constructor|]. split.
  { unfold fits. vm_compute nt_widths. vm_compute nt_fields. repeat (constructor; [split; [vm_compute; congruence|vm_compute; reflexivity]|]). constructor. }
  split; [exact sample_dirs|]. split; [calc1|]. split; [exact sample_wf_sections|]. split; [|calc1].
  constructor; [lia|]. constructor; [lia|]. apply Forall_forall. intros x Hx. apply repeat_spec in Hx. subst; lia.
Qed.
Lemma sample_consistent : consistent sample_pe.
Proof.
  unfold consistent. split; [exact sample_image_wf|]. split; [calc1|]. split; [calc1|]. split; [calc1|]. split; [calc1|].
  split; [discriminate|]. split.
  { split; [exists 12; split; [lia|reflexivity]|]. split; [exists 9; split; [lia|reflexivity]|]. split; [calc1|].
    split; [vm_compute; congruence|]. right. vm_compute; congruence. }
  split; [split; [calc1|vm_compute; congruence]|]. split.
  - exists 0x1000. split; [vm_compute; congruence|]. split; [exists 1; reflexivity|]. split; [|calc1].
    cbn [sample_pe chain p_sections set_p_full set_p_sections with_nt set_p_nt]. split; [reflexivity|]. split; [reflexivity|exact I].
  - constructor; [|constructor; [|constructor]]; unfold section_loadable;
      (split; [split; [vm_compute; reflexivity|vm_compute; congruence]|]); (split; [vm_compute; reflexivity|vm_compute; congruence]).
Qed.
