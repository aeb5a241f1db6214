(** Concrete images used by the Examples beside the property theorems. *)
From Verif Require Export SpecPe.

(** A code section at 0x1000 with 512 stored bytes and a data section at 0x2000 with 3
    stored bytes and a virtual size of 0x1800. *)
Definition sample_code : section :=
  mk_section [46;116;101;120;116;0;0;0] 0x200 0x1000 0x200 0x400 0 0 0 0 0x60000020 (repeat 0x90 512) None.
Definition sample_data : section :=
  mk_section [46;100;97;116;97;0;0;0] 0x1800 0x2000 3 0x600 0 0 0 0 0xC0000040 [7;8;9] None.
Definition sample_pe : pe :=
  with_nt (fun h => set_h_nsections 2 (set_h_imagesize 0x4000 (set_h_hdrsize 0x400
             (set_h_dirs (upd (h_dirs h) 5 (0x2000, 12)) h))))
    (set_p_full (77 :: 90 :: repeat 0 0x3fe)
      (set_p_sections [sample_code; sample_data] (create_pe false 0x1000 false 3))).

Ltac small := vm_compute; intuition discriminate.
(** Splits conjunctions only (never equalities). *)
Ltac ands := repeat match goal with |- _ /\ _ => split end.
Ltac calc := vm_compute; first [reflexivity | congruence | intuition discriminate].
Lemma sample_code_wf : wf_section sample_code.
Proof.
  unfold wf_section. repeat split; try small; cbn [sample_code s_name s_data s_old];
  unfold bytes; apply Forall_forall; intros x Hx.
  - repeat (destruct Hx as [<-|Hx]; [lia|]); destruct Hx.
  - apply repeat_spec in Hx; subst; lia.
Qed.
Lemma sample_data_wf : wf_section sample_data.
Proof.
  unfold wf_section. repeat split; try small; cbn [sample_data s_name s_data s_old];
  unfold bytes; apply Forall_forall; intros x Hx;
  repeat (destruct Hx as [<-|Hx]; [lia|]); destruct Hx.
Qed.
Lemma sample_wf_sections : Forall wf_section (p_sections sample_pe).
Proof. constructor; [exact sample_code_wf|]. constructor; [exact sample_data_wf|constructor]. Qed.
Lemma sample_align : good_align sample_pe.
Proof.
  split; [exists 12; split; [lia|reflexivity]|]. split; [exists 9; split; [lia|reflexivity]|]. small.
Qed.
Lemma sample_dirs : dirs_ok sample_pe.
Proof. split; [reflexivity|]. unfold is_u32. repeat constructor; small. Qed.
Lemma sample_layout : spec_layout sample_pe.
Proof.
  split; [exact sample_align|]. split; [exact sample_wf_sections|]. split.
  - repeat constructor.
  - intros [|[|i]] [|[|j]] s t r Hs Ht; cbn in Hs, Ht; inversion Hs; inversion Ht; subst; try reflexivity;
      unfold occupies; change (send (salign sample_pe) sample_code) with 0x2000;
      change (send (salign sample_pe) sample_data) with 0x4000; cbn [s_va sample_code sample_data]; try lia;
      try (destruct i; discriminate); try (destruct j; discriminate).
Qed.
Lemma sample_unmapped : unmapped sample_pe.
Proof. repeat constructor. Qed.
Lemma sample_file_layout : file_layout sample_pe.
Proof.
  split.
  - constructor; [cbn; lia|]. constructor; [cbn; lia|constructor].
  - intros [|[|i]] [|[|j]] s t r Hs Ht; cbn in Hs, Ht; inversion Hs; inversion Ht; subst; try reflexivity;
      unfold in_file; cbn [s_rawptr s_rawsize sample_code sample_data]; try lia;
      try (destruct i; discriminate); try (destruct j; discriminate).
Qed.
Lemma good_align_eq p q : salign p = salign q -> falign p = falign q -> good_align q -> good_align p.
Proof. unfold good_align. intros -> ->; tauto. Qed.
Lemma wf_set_data d s : Forall (fun b => 0 <= b < 256) d -> zlen d < 2^63 -> s_old s = None -> wf_section s -> wf_section (set_s_data d s).
Proof.
  intros B L O W. unfold wf_section in *.
  cbn [set_s_data s_name s_vsize s_va s_rawsize s_rawptr s_relptr s_lineptr s_nrel s_nline s_chars s_data s_old].
  rewrite O in *. unfold bytes. tauto.
Qed.
Lemma wf_set_vs v s : 0 <= v < 2^32 -> wf_section s -> wf_section (set_s_vsize v s).
Proof.
  intros B W. unfold wf_section in *.
  cbn [set_s_vsize s_name s_vsize s_va s_rawsize s_rawptr s_relptr s_lineptr s_nrel s_nline s_chars s_data s_old].
  unfold is_u32 in *. tauto.
Qed.
Lemma repeat_bytes b n : 0 <= b < 256 -> Forall (fun x => 0 <= x < 256) (repeat b n).
Proof. intros H. apply Forall_forall. intros x Hx. apply repeat_spec in Hx. subst; assumption. Qed.
