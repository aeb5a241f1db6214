(** Proofs that a rebuilder that throws leaves the image as it was (C83). *)
From Verif Require Export FailSafe.

Lemma strong_end p i total len s1 d pos size id save strip q e : good_align p -> sized p i -> entry_for p save id -> 0 <= total < 2^32 -> len = total \/ len = align_up total (falign p) ->
  open_room p i total len = Ok s1 -> zlen d = zlen (s_data s1) -> at_most_2g q i -> run_finish i s1 d pos size id save strip (put_section p i s1) = (q, Throw e) -> False.
Proof.
  intros Ga Sz En Ht Hl Eo Hd Hw H. destruct (open_sized p i total len s1 Ga Sz ltac:(lia) Hl ltac:(lia) Eo) as (Li & Ho & Hv & Hn).
  apply (finish_no_throw p i s1 s1 d pos size id save strip q e Ga Li Ho Hv En); [intros N; rewrite Hd; exact (Hn N)|exact Hw|exact H].
Qed.
Lemma u32_in x : 0 <= u32 x < 2^32.
Proof. unfold u32. apply Z.mod_pos_bound. reflexivity. Qed.

Lemma relocations_strong tables i off save strip p q e : good_align p -> sized p i -> entry_for p save dir_basereloc -> at_most_2g q i ->
  run_rebuild_relocations tables i off save strip p = (q, Throw e) -> q = p.
Proof.
  intros Ga Sz En Hw H. unfold run_rebuild_relocations in H. cbv zeta in H. unfold step at 1 in H. unfold look at 1 in H. unfold step at 1 in H. rewrite run_open in H.
  destruct (open_room p i _ _) as [s| | |] eqn:Eo; try discriminate H; [|injection H as <- _; reflexivity]. exfalso.
  unfold step at 1 in H. unfold pass at 1 in H. pose proof (quiet_mfold (fun st => zlen (fst st)) (zlen (s_data s)) write_table tables) as Q.
  specialize (Q (fun b a Hb => ltac:(destruct b as [d k]; cbn [fst] in Hb; rewrite <- Hb; apply quiet_table)) (s_data s, align_up off 4) eq_refl).
  destruct (mfold write_table tables _) as [[d k]|x| |]; cbn [fst quiet] in *; try discriminate H; [|contradiction Q].
  unfold step at 1 in H. destruct (run_finish i s d _ _ _ save strip (put_section p i s)) as [q1 [r|x|u|]] eqn:Ef.
  - destruct save; discriminate H.
  - injection H as <- <-. refine (strong_end p i _ _ s d _ _ _ save strip _ _ Ga Sz En (u32_in _) (or_intror eq_refl) Eo Q Hw Ef).
  - discriminate H.
  - discriminate H.
Qed.
Lemma bound_strong l i off save strip p q e : good_align p -> sized p i -> entry_for p save dir_bound_import -> at_most_2g q i ->
  run_rebuild_bound_imports l i off save strip p = (q, Throw e) -> q = p.
Proof.
  intros Ga Sz En Hw H. unfold run_rebuild_bound_imports in H. cbv zeta in H. unfold step at 1 in H. rewrite run_open in H.
  destruct (open_room p i _ _) as [s| | |] eqn:Eo; try discriminate H; [|injection H as <- _; reflexivity]. exfalso.
  unfold step at 1 in H. unfold pass at 1 in H. match type of H with context [mfold ?f l ?z] => pose proof (quiet_mfold (fun st => zlen (fst (fst st))) (zlen (s_data s)) f l) as Q;
    specialize (Q (fun b a Hb => ltac:(destruct b as [[d k] n]; cbn [fst] in Hb; rewrite <- Hb; apply quiet_bound)) z eq_refl); destruct (mfold f l z) as [[[d k] n]|x| |] end; cbn [fst quiet] in *; try discriminate H; [|contradiction Q].
  refine (strong_end p i _ _ s d _ _ _ save strip _ _ Ga Sz En (u32_in _) (or_introl eq_refl) Eo Q Hw H).
Qed.
Lemma exports_strong info l i off save strip p q e : good_align p -> sized p i -> entry_for p save dir_export -> at_most_2g q i ->
  run_rebuild_exports info l i off save strip p = (q, Throw e) -> q = p.
Proof.
  intros Ga Sz En Hw H. unfold run_rebuild_exports in H. cbv zeta in H. unfold step at 1 in H. unfold look at 1 in H. unfold step at 1 in H. unfold pass at 1 in H.
  destruct (negb (section_attached p i)); cbn [throw_if] in H; [injection H as <- _; reflexivity|]. unfold step at 1 in H. unfold pass at 1 in H.
  destruct (export_scan _ l) as [[[[[nn base] top] ns] fs]|x| |]; try discriminate H; [|injection H as <- _; reflexivity]. unfold step at 1 in H. rewrite run_open in H.
  destruct (open_room p i _ _) as [s| | |] eqn:Eo; try discriminate H; [|injection H as <- _; reflexivity]. exfalso.
  unfold step at 1 in H. unfold pass at 1 in H.
  match type of H with context [match ?w with Ok _ => _ | _ => _ end] => assert (Q : quiet zlen (zlen (s_data s)) w) end.
  { apply (quiet_bind zlen); [apply quiet_wr|]. intros d1 H1. apply (quiet_bind zlen); [rewrite <- H1; apply quiet_wr|]. intros d2 H2.
    apply (quiet_bind (fun st => zlen (fst (fst (fst (fst st)))))); [apply quiet_mfold; [|exact H2]; intros b a Hb; rewrite <- Hb; apply quiet_export|]. intros [[[[d3 x1] x2] x3] m] H3. cbn [fst] in H3.
    apply (quiet_bind (fun st => zlen (fst (fst (fst st))))); [apply quiet_mfold; [|exact H3]; intros b a Hb; rewrite <- Hb; apply quiet_name|]. intros [[[d4 y1] y2] y3] H4. exact H4. }
  match type of H with context [match ?w with Ok _ => _ | _ => _ end] => destruct w as [d|x| |] end; cbn [quiet] in *; try discriminate H; [|contradiction Q].
  refine (strong_end p i _ _ s d _ _ _ save strip _ _ Ga Sz En (u32_in _) (or_introl eq_refl) Eo Q Hw H).
Qed.
Lemma resources_strong t i off save strip p q e : good_align p -> sized p i -> entry_for p save dir_resource -> at_most_2g q i ->
  run_rebuild_resources t i off save strip p = (q, Throw e) -> q = p.
Proof.
  intros Ga Sz En Hw H. unfold run_rebuild_resources in H. cbv zeta in H. unfold step at 1 in H. unfold look at 1 in H. unfold step at 1 in H. unfold pass at 1 in H.
  destruct (negb (section_attached p i)); cbn [throw_if] in H; [injection H as <- _; reflexivity|]. unfold step at 1 in H. unfold pass at 1 in H.
  destruct (match t with RDir _ (_ :: _) => false | _ => true end); cbn [throw_if] in H; [injection H as <- _; reflexivity|]. unfold step at 1 in H. unfold pass at 1 in H.
  destruct (tables_space t _) as [[structs strings]|x| |] eqn:Et; try discriminate H; [|injection H as <- _; reflexivity]. unfold step at 1 in H. unfold pass at 1 in H.
  destruct (data_space t _) as [ds|x| |] eqn:Ed; try discriminate H; [|injection H as <- _; reflexivity]. unfold step at 1 in H. rewrite run_open in H.
  destruct (open_room p i _ _) as [s| | |] eqn:Eo; try discriminate H; [|injection H as <- _; reflexivity]. exfalso.
  unfold step at 1 in H. unfold pass at 1 in H. apply space_filled in Et. apply sort_filled in Et.
  match type of H with context [write_rdir s ?b ?n ?w] => pose proof (quiet_rdir s b n w Et) as Q; destruct (write_rdir s b n w) as [w1|x| |] end; cbn [quiet w_data] in *; try discriminate H; [|contradiction Q].
  unfold step at 1 in H. destruct (run_finish i s (w_data w1) _ _ _ save strip (put_section p i s)) as [q1 [r|x|u|]] eqn:Ef; try discriminate H.
  injection H as <- <-. refine (strong_end p i _ _ s (w_data w1) _ _ _ save strip _ _ Ga Sz En (u32_in _) (or_introl eq_refl) Eo Q Hw Ef).
Qed.
