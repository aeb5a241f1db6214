(** The sample image with chosen bytes in its data section (at 0x2000) and a directory entry. *)
From Verif Require Export SamplesDir.
Definition sample_read (id : nat) (d : Z * Z) (data : list Z) : pe :=
  with_nt (fun h => set_h_dirs (upd (h_dirs h) id d) h) (sample_with [sample_code; set_s_data data sample_data]).
Lemma dirs_ok_upd p id d : is_u32 (fst d) -> is_u32 (snd d) -> dirs_ok p -> dirs_ok (with_nt (fun h => set_h_dirs (upd (h_dirs h) id d) h) p).
Proof.
  intros H1 H2 [L F]. unfold dirs_ok. change (h_dirs (p_nt (with_nt (fun h => set_h_dirs (upd (h_dirs h) id d) h) p))) with (upd (h_dirs (p_nt p)) id d).
  revert L F. generalize (h_dirs (p_nt p)) as l. intros l L F. rewrite upd_length. split; [exact L|].
  apply Forall_forall. intros x Hx. apply In_nth_error in Hx as [k Hk]. rewrite Forall_forall in F. destruct (Nat.eq_dec k id) as [->|N].
  - assert (G : (id < length (upd l id d))%nat) by (apply nth_error_Some; congruence). rewrite upd_length in G.
    rewrite nth_error_upd_same in Hk by exact G. assert (x = d) as -> by congruence. split; assumption.
  - rewrite nth_error_upd_other in Hk by congruence. apply F. eapply nth_error_In, Hk.
Qed.
Lemma with_nt_sections f p : p_sections (with_nt f p) = p_sections p. Proof. reflexivity. Qed.
Lemma with_nt_full f p : p_full (with_nt f p) = p_full p. Proof. reflexivity. Qed.
Lemma upd_dir_nrva id d p : nrva (with_nt (fun h => set_h_dirs (upd (h_dirs h) id d) h) p) = nrva p. Proof. reflexivity. Qed.
Lemma sample_with_nrva l : nrva (sample_with l) = 16.
Proof. unfold sample_with, nrva. rewrite with_sections_nt. vm_compute. reflexivity. Qed.
Lemma sample_with_sections l : p_sections (sample_with l) = l. Proof. reflexivity. Qed.
Lemma sample_read_sections id d data : p_sections (sample_read id d data) = [sample_code; set_s_data data sample_data].
Proof. unfold sample_read. rewrite with_nt_sections. apply sample_with_sections. Qed.
Lemma sample_read_wf id d data : Forall (fun b => 0 <= b < 256) data -> zlen data < 2^31 -> Forall wf_section (p_sections (sample_read id d data)).
Proof.
  intros B L. rewrite sample_read_sections. constructor; [exact sample_code_wf|]. constructor; [|constructor].
  apply wf_set_data; [exact B|lia|reflexivity|exact sample_data_wf].
Qed.
Lemma sample_read_readable id d data : is_u32 (fst d) -> is_u32 (snd d) -> bytes data -> zlen data < 2^31 -> readable (sample_read id d data).
Proof.
  intros H1 H2 B L. split; [apply dirs_ok_upd; [exact H1|exact H2|apply sample_with_dirs]|].
  split; [unfold sample_read; rewrite upd_dir_nrva, sample_with_nrva; lia|]. split; [apply sample_read_wf; assumption|].
  unfold sample_read. rewrite with_nt_full. split; [apply sample_with_full|]. unfold sample_with. rewrite with_sections_full. reflexivity.
Qed.
