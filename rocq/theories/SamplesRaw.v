(** Images used by the Examples of PropRaw. *)
From Verif Require Export KeepRaw SamplesKeep PropConfig PropBound.

Definition realigned_of (p : pe) : pe := result p (realign_file p 0x200).
Definition written_of (p : pe) : pe * list Z := result (p, []) (rebuild_pe (realigned_of p) false true false).
Definition opened_of (p : pe) : pe := result p (snd (factory_create false true (open_stream true (snd (written_of p))))).
Definition savable (p : pe) : bool :=
  is_ok (realign_file p 0x200) && is_ok (rebuild_pe (realigned_of p) false true false) && is_ok (snd (factory_create false true (open_stream true (snd (written_of p))))) &&
  (data_start false false (realigned_of p) + data_total (falign (realigned_of p)) (p_sections (realigned_of p)) <? 2^32) && forallb (fun s => negb (s_rawsize s =? 0)) (p_sections (realigned_of p)).
Lemma saved_of p : savable p = true -> saved_in_place p 0x200 (opened_of p).
Proof.
  unfold savable. rewrite !andb_true_iff. intros ((((A & B) & C) & D) & F). exists (realigned_of p), false, true, (fst (written_of p)), (snd (written_of p)).
  split; [exact (is_ok_result p _ A)|]. split; [apply Z.ltb_lt; exact D|].
  split. { unfold no_stale_pointers. apply Forall_forall. intros s Hs E. exfalso. rewrite forallb_forall in F. specialize (F s Hs). rewrite E in F. discriminate F. }
  split; [rewrite <- surjective_pairing; exact (is_ok_result (p, []) _ B)|]. exists true, true, (fst (factory_create false true (open_stream true (snd (written_of p))))).
  rewrite (surjective_pairing (factory_create _ _ _)) at 1. f_equal. exact (is_ok_result p _ C).
Qed.
Lemma saved_plain p a r : saved_in_place p a r -> saved p a r.
Proof. intros (p1 & strip & chg & q & out & H). exists p1, strip, chg, false, q, out. exact H. Qed.
Lemma tight_calc p : match rev (p_sections p) with [] => true | s :: _ => match rev (raw_view s) with [] => true | b :: _ => negb (b =? 0) end end = true -> tight_end p.
Proof. intros H before s d b E R. rewrite E, rev_app_distr in H. cbn [rev app] in H. rewrite R, rev_app_distr in H. cbn [rev app] in H. lia. Qed.
(** The sample image, with a code section full of zeros. *)
Definition raw_zeros : pe := sample_code_with (zeros 512).
Lemma raw_zeros_editable : editable 0x200 raw_zeros.
Proof.
  refine (ready_headers 0x200 sample_pe raw_zeros 0x1000 0 (set_s_data (zeros 512) sample_code) sample_editable (proj1 (sample_room_code 0 ltac:(lia))) _ _ (sample_with_dirs _) _ _ _ _).
  - refine (proj1 (sample_code_with_room (zeros 512) 0 _ _ _)); [apply bytes_zeros|rewrite zlen_zeros; lia|lia].
  - vm_compute. reflexivity.
  - vm_compute. reflexivity.
  - intros [|[|j]] H; [congruence| |]; vm_compute; reflexivity.
  - vm_compute. reflexivity.
  - vm_compute. intuition congruence.
Qed.
(** A load configuration, and bound imports, stored in the first section and in the last one. *)
Definition raw_config (i : nat) : pe := result sample_pe (rmap fst (rebuild_config sample_pe C47_config i 0x100 true true true false)).
Definition raw_bound (i : nat) : pe := result sample_pe (rmap fst (rebuild_bound_imports raw_zeros C45_l i 0x100 true false)).
