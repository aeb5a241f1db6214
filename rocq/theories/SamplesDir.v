(** Room for directories in the sample image. *)
From Verif Require Export Samples DirFacts.
Lemma sample_image_ok1 : image_ok sample_pe 0x1000.
Proof.
  split; [exact sample_align|]. split; [exact sample_wf_sections|]. split; [exists 1; reflexivity|].
  split; [lia|]. split; [cbn [sample_pe chain]; split; [reflexivity|split; [reflexivity|exact I]]|reflexivity].
Qed.
Lemma sample_room_code n : 0 <= n <= 0x200 -> room sample_pe 0x1000 0 n.
Proof.
  intros H. split; [exact sample_image_ok1|]. split; [lia|]. exists sample_code. split; [reflexivity|]. split; [reflexivity|]. split; [vm_compute; congruence|].
  split; [split; [reflexivity|vm_compute; congruence]|]. split; [vm_compute; congruence|]. change (Nat.eqb 1 (length (p_sections sample_pe))) with false.
  cbv iota. split; [vm_compute; congruence|]. change (ceil_mult (s_rawsize sample_code) (falign sample_pe)) with 0x200.
  change (Z.min (2 ^ 31) (span (salign sample_pe) sample_code)) with 0x1000. lia.
Qed.
Lemma sample_room_data n : 0 <= n <= 0x10000000 -> room sample_pe 0x1000 1 n.
Proof.
  intros H. split; [exact sample_image_ok1|]. split; [lia|]. exists sample_data. split; [reflexivity|]. split; [reflexivity|]. split; [vm_compute; congruence|].
  split; [split; [reflexivity|vm_compute; congruence]|]. split; [vm_compute; congruence|]. change (Nat.eqb 2 (length (p_sections sample_pe))) with true.
  cbv iota. change (s_va sample_data) with 0x2000. change (salign sample_pe) with 0x1000.
  pose proof (ceil_mult_least n 0x1000 ltac:(lia)) as (_ & A & B & _). lia.
Qed.
Lemma sample_no_room n : 0x200 < n -> no_room sample_pe 0 n.
Proof.
  intros H. split; [exact sample_align|]. split; [vm_compute; repeat constructor|]. exists sample_code. split; [reflexivity|].
  split; [exact sample_code_wf|]. change (ceil_mult (s_rawsize sample_code) (falign sample_pe)) with 0x200. split; [lia|right; lia].
Qed.
Lemma sample_readable : readable sample_pe.
Proof.
  split; [exact sample_dirs|]. split; [vm_compute; intuition congruence|]. split; [exact sample_wf_sections|]. split; [|reflexivity].
  unfold bytes. apply Forall_forall. intros x Hx. cbn [sample_pe with_nt set_p_full p_full] in Hx.
  destruct Hx as [<-|[<-|Hx]]; try lia. apply repeat_spec in Hx. subst; lia.
Qed.
(** Other sections in the sample image. *)
Definition sample_with (l : list section) : pe := set_p_sections l sample_pe.
Lemma with_sections_nt l p : p_nt (set_p_sections l p) = p_nt p. Proof. reflexivity. Qed.
Lemma with_sections_salign l p : salign (set_p_sections l p) = salign p. Proof. reflexivity. Qed.
Lemma with_sections_falign l p : falign (set_p_sections l p) = falign p. Proof. reflexivity. Qed.
Lemma with_sections_full l p : p_full (set_p_sections l p) = p_full p. Proof. reflexivity. Qed.
Lemma sample_full_bytes : bytes (p_full sample_pe).
Proof. destruct sample_readable as (_ & _ & _ & H & _). exact H. Qed.
Lemma sample_with_align l : good_align (sample_with l).
Proof. apply (good_align_eq (set_p_sections l sample_pe) sample_pe); [apply with_sections_salign|apply with_sections_falign|exact sample_align]. Qed.
Lemma dirs_ok_nt p q : p_nt p = p_nt q -> dirs_ok q -> dirs_ok p.
Proof. unfold dirs_ok, nrva. intros ->. tauto. Qed.
Lemma sample_with_dirs l : dirs_ok (sample_with l).
Proof. apply (dirs_ok_nt (set_p_sections l sample_pe) sample_pe); [apply with_sections_nt|exact sample_dirs]. Qed.
Lemma sample_with_full l : bytes (p_full (sample_with l)).
Proof. unfold sample_with. rewrite with_sections_full. exact sample_full_bytes. Qed.
(** The sample image with other bytes in its first section, which is not the last one. *)
Definition sample_code_with (d : list Z) : pe := sample_with [set_s_data d sample_code; sample_data].
Lemma sample_code_with_wf d : bytes d -> zlen d < 2^31 -> wf_section (set_s_data d sample_code).
Proof.
  intros B L. apply wf_set_data; [exact B| |reflexivity|exact sample_code_wf]. lia.
Qed.
Lemma sample_code_with_room d n : bytes d -> 0 < zlen d <= 0x200 -> 0 <= n <= 0x200 -> room (sample_code_with d) 0x1000 0 n.
Proof.
  intros B L H. pose proof (sample_code_with_wf d B ltac:(lia)) as W.
  assert (A : salign (sample_code_with d) = 0x1000) by (unfold sample_code_with, sample_with; rewrite with_sections_salign; reflexivity).
  assert (F : falign (sample_code_with d) = 0x200) by (unfold sample_code_with, sample_with; rewrite with_sections_falign; reflexivity).
  assert (S : p_sections (sample_code_with d) = [set_s_data d sample_code; sample_data]) by reflexivity.
  split; [|split; [lia|]].
  - split; [apply sample_with_align|]. rewrite S, A. split; [constructor; [exact W|constructor; [exact sample_data_wf|constructor]]|]. split; [exists 1; reflexivity|]. split; [lia|].
    split; [cbn [chain]; split; [reflexivity|split; [reflexivity|exact I]]|reflexivity].
  - exists (set_s_data d sample_code). rewrite S, A, F. split; [reflexivity|]. split; [reflexivity|].
    split; [unfold sample_code_with, sample_with; rewrite with_sections_full; vm_compute; congruence|].
    split; [split; [reflexivity|vm_compute; congruence]|].
    assert (R : raw_view (set_s_data d sample_code) = d) by reflexivity. rewrite R.
    split; [change (span 0x1000 (set_s_data d sample_code)) with 0x1000; lia|].
    change (Nat.eqb 1 (length [set_s_data d sample_code; sample_data])) with false. cbv iota.
    split; [destruct d; [unfold zlen in L; cbn in L; lia|discriminate]|]. change (ceil_mult (s_rawsize (set_s_data d sample_code)) 0x200) with 0x200.
    change (span 0x1000 (set_s_data d sample_code)) with 0x1000. lia.
Qed.
