(** Proofs about what operations leave behind (C83). *)
From Verif Require Export FailModel SpecPe PeEditFacts ResTree.

(** ** The steps do what the functions of the other models do *)
Definition agrees {A} (m : pe * res A) (f : res (pe * A)) : Prop :=
  match f with Ok (q, a) => m = (q, Ok a) | Throw e => snd m = Throw e | Ub u => snd m = Ub u | Fuel => snd m = Fuel end.
Lemma agrees_iff {A} (m : pe * res A) f : agrees m f -> (forall q a, m = (q, Ok a) <-> f = Ok (q, a)) /\ (forall e, snd m = Throw e <-> f = Throw e).
Proof.
  unfold agrees. destruct m as [q0 r0]. cbn [snd]. destruct f as [[q a]|e|u|]; intros H; (split; [intros q' a'|intros e']); split; intros X; try discriminate X; congruence.
Qed.
Lemma pe_put_same p i s : nth_error (p_sections p) i = Some s -> put_section p i s = p.
Proof. intros H. unfold put_section. rewrite upd_nth_same by exact H. destruct p; reflexivity. Qed.
Lemma put_len p i s : length (p_sections (put_section p i s)) = length (p_sections p).
Proof. unfold put_section. cbn [set_p_sections p_sections]. apply upd_length. Qed.

Lemma run_dir_rva id rva p : run_set_directory_rva id rva p = match set_directory_rva p id rva with Ok q => (q, Ok tt) | Throw e => (p, Throw e) | Ub u => (p, Ub u) | Fuel => (p, Fuel) end.
Proof.
  unfold run_set_directory_rva, set_directory_rva, step, look, pass, change. destruct (nrva p <=? id); cbn [throw_if bind]; [reflexivity|]. destruct (nth_ub (h_dirs (p_nt p)) id); reflexivity.
Qed.
Lemma run_dir_size id size p : run_set_directory_size id size p = match set_directory_size p id size with Ok q => (q, Ok tt) | Throw e => (p, Throw e) | Ub u => (p, Ub u) | Fuel => (p, Fuel) end.
Proof.
  unfold run_set_directory_size, set_directory_size, step, look, pass, change. destruct (nrva p <=? id); cbn [throw_if bind]; [reflexivity|]. destruct (nth_ub (h_dirs (p_nt p)) id); reflexivity.
Qed.
Lemma run_falign a p : run_set_file_alignment a p = match set_file_alignment p a with Ok q => (q, Ok tt) | Throw e => (p, Throw e) | Ub u => (p, Ub u) | Fuel => (p, Fuel) end.
Proof.
  unfold run_set_file_alignment, set_file_alignment, step, look, pass, change. destruct (a <? minimum_file_alignment); cbn [throw_if bind]; [reflexivity|].
  destruct (negb (is_power_of_2 a)); cbn [throw_if bind]; [reflexivity|]. destruct (salign p <? a); reflexivity.
Qed.
Lemma run_realign i p : run_realign_section i p = match realign_section p i with Ok q => (q, Ok tt) | Throw e => (p, Throw e) | Ub u => (p, Ub u) | Fuel => (p, Fuel) end.
Proof.
  unfold run_realign_section, realign_section, step, look, pass, change. destruct (negb (Nat.ltb i (length (p_sections p)))); cbn [throw_if bind]; [reflexivity|].
  destruct (get_section p i) as [s| | |]; cbn [bind]; try reflexivity. destruct (Nat.eqb i (length (p_sections p) - 1)); rewrite put_put; reflexivity.
Qed.
Lemma run_vsize i v p : run_set_section_virtual_size i v p = match set_section_virtual_size p i v with Ok q => (q, Ok tt) | Throw e => (p, Throw e) | Ub u => (p, Ub u) | Fuel => (p, Fuel) end.
Proof.
  unfold run_set_section_virtual_size, set_section_virtual_size, step, look, pass, change. destruct (not_last p i); cbn [throw_if bind]; [reflexivity|].
  destruct (get_section p i) as [s| | |]; cbn [bind]; try reflexivity. destruct (v =? 0); [|reflexivity]. destruct (sec_empty s); reflexivity.
Qed.
(** What recalculation leaves behind: the section with other sizes, or less data when it is stripped. *)
Lemma run_recalc_agrees i strip p : agrees (run_recalculate i strip p) (q <- recalculate_section_sizes p i strip ;; Ok (q, tt)).
Proof.
  unfold run_recalculate, recalculate_section_sizes, run_prepare_section, prepare_section, step, look, pass, change. destruct (get_section p i) as [s| | |] eqn:Es; cbn [bind]; try reflexivity.
  assert (Li : (i < length (p_sections p))%nat). { unfold get_section in Es. destruct (nth_error (p_sections p) i) eqn:Q; [|discriminate Es]. apply nth_error_Some. congruence. }
  cbv zeta. set (s2 := set_s_rawsize _ (unmap_virtual s)) in *. destruct ((s_rawsize s2 =? 0) && (s_vsize s2 =? 0)); cbn [throw_if bind]; [reflexivity|].
  change (falign (put_section p i s2)) with (falign p). change (salign (put_section p i s2)) with (salign p). rewrite put_put.
  set (s3 := if s_vsize s2 =? 0 then _ else _) in *. assert (G : forall t, get_section (put_section p i t) i = Ok t) by (intros t; apply get_section_ok, put_get, Li). rewrite G. rewrite put_len.
  destruct (strip && negb (Nat.eqb i (length (p_sections p) - 1))); rewrite ?put_put, ?G.
  - match goal with |- agrees (let (_, _) := _ in _) _ => idtac | |- _ => idtac end.
    change (salign (put_section p i (set_s_rawsize (u32 (zlen (strip_keep1 (s_data s3)))) (set_s_data (strip_keep1 (s_data s3)) s3)))) with (salign p).
    change (falign (put_section p i (set_s_rawsize (u32 (zlen (strip_keep1 (s_data s3)))) (set_s_data (strip_keep1 (s_data s3)) s3)))) with (falign p).
    destruct (align_up _ (salign p) <? align_up _ (falign p)); cbn [bind]; [|reflexivity]. rewrite run_vsize. destruct (set_section_virtual_size _ i _); reflexivity.
  - change (salign (put_section p i s3)) with (salign p). change (falign (put_section p i s3)) with (falign p).
    destruct (align_up _ (salign p) <? align_up _ (falign p)); cbn [bind]; [|reflexivity]. rewrite run_vsize. destruct (set_section_virtual_size _ i _); reflexivity.
Qed.
Lemma run_finish_agrees i s0 s1 d pos size id save strip p : agrees (run_finish i s1 d pos size id save strip (put_section p i s0)) (finish_directory p i s1 d pos size id save strip).
Proof.
  unfold run_finish, finish_directory, step, pass, change. rewrite put_put. pose proof (run_recalc_agrees i strip (put_section p i (set_s_data d s1))) as R. unfold agrees in R.
  destruct (recalculate_section_sizes (put_section p i (set_s_data d s1)) i strip) as [q| | |]; cbn [bind] in *; [rewrite R| | |]; try (destruct (run_recalculate i strip _) as [q' r']; cbn [snd] in R; rewrite R; reflexivity).
  destruct save; [|reflexivity]. unfold set_directory. rewrite run_dir_rva. destruct (set_directory_rva q id _) as [q1| | |]; cbn [bind]; try reflexivity. rewrite run_dir_size. destruct (set_directory_size q1 id size); reflexivity.
Qed.
Lemma run_expand_agrees i rva n k p : agrees (run_expand_section i rva n k p) (expand_section p i rva n k).
Proof.
  unfold run_expand_section, expand_section, step, look, pass, change. destruct (not_last p i); cbn [throw_if bind]; [reflexivity|].
  destruct (get_section p i) as [s| | |] eqn:Es; cbn [bind]; try reflexivity. destruct k.
  - destruct (length_in_section p s rva RawData) as [len| | |]; cbn [bind]; try reflexivity. destruct (len <? n); [|reflexivity].
    pose proof (run_recalc_agrees i false (put_section p i (with_raw (fun d => resize d (u32 (rva - s_va s + n))) s))) as R. unfold agrees in R.
    destruct (recalculate_section_sizes _ i false) as [q| | |]; cbn [bind] in *; [rewrite R; reflexivity| | |]; (destruct (run_recalculate i false _) as [q' r']; cbn [snd] in R; rewrite R; reflexivity).
  - destruct (length_in_section p s rva VirtData) as [len| | |]; cbn [bind]; try reflexivity. destruct (len <? n); [|reflexivity].
    rewrite run_vsize. destruct (set_section_virtual_size p i _); reflexivity.
Qed.
Lemma run_add s0 auto p : run_add_section s0 auto p = match add_section p s0 auto with Ok q => (q, Ok tt) | Throw e => (p, Throw e) | Ub u => (p, Ub u) | Fuel => (p, Fuel) end.
Proof.
  unfold run_add_section, add_section, step, look, pass, change. destruct (maximum_number_of_sections <=? zlen (p_sections p)); cbn [throw_if bind]; [reflexivity|].
  destruct (prepare_section (falign p) (salign p) s0) as [s1| | |]; cbn [bind]; try reflexivity. destruct (rev (p_sections p)) as [|last rest] eqn:Er; [reflexivity|]. destruct auto; [reflexivity|].
  assert (U : upd (p_sections p) (length (p_sections p) - 1) last = p_sections p).
  { apply upd_nth_same. assert (E : p_sections p = rev rest ++ [last]) by (rewrite <- (rev_involutive (p_sections p)), Er; reflexivity). rewrite E, app_length, rev_length. cbn [length].
    rewrite nth_error_app2 by (rewrite rev_length; lia). rewrite rev_length. replace (length rest + 1 - 1 - length rest)%nat with O by lia. reflexivity. }
  rewrite U. reflexivity.
Qed.
Lemma run_open i total len p : run_open_room i total len p = match open_room p i total len with Ok s => (put_section p i s, Ok s) | Throw e => (p, Throw e) | Ub u => (p, Ub u) | Fuel => (p, Fuel) end.
Proof. unfold run_open_room, step, look, pass, change. destruct (open_room p i total len); reflexivity. Qed.

Ltac settle R := match type of R with agrees ?m ?f => unfold agrees in R; destruct f as [[? ?]| | |]; cbn [bind]; [rewrite R; reflexivity| | |]; (destruct m as [? ?]; cbn [snd] in R; rewrite R; reflexivity) end.
Lemma run_relocations_agrees tables i off save strip p : agrees (run_rebuild_relocations tables i off save strip p) (rebuild_relocations p tables i off save strip).
Proof.
  unfold run_rebuild_relocations, rebuild_relocations. cbv zeta. unfold step at 1. unfold look at 1. unfold step at 1. rewrite run_open.
  destruct (open_room p i _ _) as [s| | |]; cbn [bind]; try reflexivity. unfold step at 1. unfold pass at 1. destruct (mfold write_table tables _) as [[d k]| | |]; cbn [bind fst]; try reflexivity.
  unfold step at 1. match goal with |- context [run_finish i s d ?pos ?size ?id save strip _] => pose proof (run_finish_agrees i s s d pos size id save strip p) as R end.
  unfold finish_directory in R. unfold agrees in R. destruct (recalculate_section_sizes (put_section p i (set_s_data d s)) i strip) as [q| | |]; cbn [bind] in *; try (destruct (run_finish _ _ _ _ _ _ _ _ _) as [q' r']; cbn [snd] in R; rewrite R; reflexivity).
  destruct save; [|cbn [bind] in R; rewrite R; reflexivity]. destruct (set_directory q _ _ _) as [q1| | |]; cbn [bind] in *; try (destruct (run_finish _ _ _ _ _ _ _ _ _) as [q' r']; cbn [snd] in R; rewrite R; reflexivity).
  rewrite R. reflexivity.
Qed.
Lemma run_bound_agrees l i off save strip p : agrees (run_rebuild_bound_imports l i off save strip p) (rebuild_bound_imports p l i off save strip).
Proof.
  unfold run_rebuild_bound_imports, rebuild_bound_imports. cbv zeta. unfold step at 1. rewrite run_open.
  destruct (open_room p i _ _) as [s| | |]; cbn [bind]; try reflexivity. unfold step at 1. unfold pass at 1. destruct (mfold (write_bound_import _) l _) as [[[d k] m]| | |]; cbn [bind fst]; try reflexivity.
  apply run_finish_agrees.
Qed.
Lemma run_exports_agrees info l i off save strip p : agrees (run_rebuild_exports info l i off save strip p) (rebuild_exports p info l i off save strip).
Proof.
  unfold run_rebuild_exports, rebuild_exports. cbv zeta. unfold step at 1. unfold look at 1. unfold step at 1. unfold pass at 1. destruct (negb (section_attached p i)); cbn [throw_if bind]; [reflexivity|].
  unfold step at 1. unfold pass at 1. destruct (export_scan _ l) as [[[[[nn base] top] ns] fs]| | |]; cbn [bind]; try reflexivity. unfold step at 1. rewrite run_open.
  destruct (open_room p i _ _) as [s| | |]; cbn [bind]; try reflexivity. unfold step at 1. unfold pass at 1.
  destruct (wr (s_data s) _ _) as [d1| | |]; cbn [bind]; try reflexivity. destruct (wr d1 _ _) as [d2| | |]; cbn [bind]; try reflexivity.
  destruct (mfold (write_export s base) _ _) as [[[[[d3 ?] ?] ?] m]| | |]; cbn [bind]; try reflexivity. destruct (mfold (write_export_name s) _ _) as [[[[d4 ?] ?] ?]| | |]; cbn [bind]; try reflexivity.
  apply run_finish_agrees.
Qed.
Lemma run_resources_agrees t i off save strip p : agrees (run_rebuild_resources t i off save strip p) (r <- rebuild_resources p t i off save strip ;; Ok (fst (fst r), (snd (fst r), snd r))).
Proof.
  unfold run_rebuild_resources, rebuild_resources. cbv zeta. unfold step at 1. unfold look at 1. unfold step at 1. unfold pass at 1. destruct (negb (section_attached p i)); cbn [throw_if bind]; [reflexivity|].
  unfold step at 1. unfold pass at 1. destruct (match t with RDir _ (_ :: _) => false | _ => true end); cbn [throw_if bind]; [reflexivity|].
  unfold step at 1. unfold pass at 1. destruct (tables_space t _) as [[structs strings]| | |]; cbn [bind]; try reflexivity. unfold step at 1. unfold pass at 1. destruct (data_space t _) as [[size k]| | |]; cbn [bind fst]; try reflexivity.
  unfold step at 1. rewrite run_open. destruct (open_room p i _ _) as [s| | |]; cbn [bind]; try reflexivity. unfold step at 1. unfold pass at 1. destruct (write_rdir s _ _ _) as [w| | |]; cbn [bind]; try reflexivity.
  unfold step at 1. match goal with |- context [run_finish i s (w_data w) ?pos ?size ?id save strip _] => pose proof (run_finish_agrees i s s (w_data w) pos size id save strip p) as R end.
  unfold agrees in R. destruct (finish_directory p i s (w_data w) _ _ _ save strip) as [[q d]| | |]; cbn [bind fst snd] in *; [rewrite R; reflexivity| | |]; (destruct (run_finish _ _ _ _ _ _ _ _ _) as [q' r']; cbn [snd] in R; rewrite R; reflexivity).
Qed.
