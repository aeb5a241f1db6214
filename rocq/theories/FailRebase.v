(** Proofs about what failed rebasing and failed expansion leave behind (C83). *)
From Verif Require Export FailConfig FailTls.

(** A list of steps is the fold, and what it leaves is what the steps before the failing one made. *)
Lemma each_fold {A} (f : A -> op unit) (g : pe -> A -> res pe) l :
  (forall a p, f a p = match g p a with Ok q => (q, Ok tt) | Throw e => (p, Throw e) | Ub u => (p, Ub u) | Fuel => (p, Fuel) end) ->
  forall p, match each f l p with
  | (q, Ok _) => mfold g l p = Ok q
  | (q, Throw e) => mfold g l p = Throw e /\ exists l1 a l2, l = l1 ++ a :: l2 /\ mfold g l1 p = Ok q /\ g q a = Throw e
  | (_, Ub u) => mfold g l p = Ub u
  | (_, Fuel) => mfold g l p = Fuel
  end.
Proof.
  intros F. induction l as [|a l IH]; intros p; cbn [each mfold]; [reflexivity|]. unfold step. rewrite F. destruct (g p a) as [q|e|u|] eqn:E; cbn [bind].
  - specialize (IH q). destruct (each f l q) as [q' [[]|e|u|]]; try exact IH. destruct IH as (M & l1 & b & l2 & -> & M1 & G). split; [exact M|]. exists (a :: l1), b, l2. split; [reflexivity|]. cbn [mfold]. rewrite E. split; assumption.
  - split; [reflexivity|]. exists [], a, l. split; [reflexivity|]. split; [reflexivity|exact E].
  - reflexivity.
  - reflexivity.
Qed.
Definition entry_step (delta va : Z) (p : pe) (e : reloc_entry) : res pe := if snd e =? image_rel_based_absolute then Ok p else rebase_word delta p (u32 (va + fst e)).
Lemma run_entry delta va e p : run_rebase_entry delta va e p = match entry_step delta va p e with Ok q => (q, Ok tt) | Throw x => (p, Throw x) | Ub u => (p, Ub u) | Fuel => (p, Fuel) end.
Proof. unfold run_rebase_entry, entry_step, step, look, pass, change. destruct (snd e =? image_rel_based_absolute); [reflexivity|]. destruct (rebase_word delta p _); reflexivity. Qed.
Lemma mfold_app {A B} (f : B -> A -> res B) l1 l2 : forall b, mfold f (l1 ++ l2) b = bind (mfold f l1 b) (mfold f l2).
Proof. induction l1 as [|a l IH]; intros b; cbn [app mfold bind]; [reflexivity|]. destruct (f b a); cbn [bind]; try reflexivity. apply IH. Qed.
Lemma tables_run delta tables : forall p, match each (fun t => each (run_rebase_entry delta (fst t)) (snd t)) tables p with
  | (q, Ok _) => mfold (rebase_table delta) tables p = Ok q
  | (q, Throw e) => mfold (rebase_table delta) tables p = Throw e /\ exists l1 t l2 es1 x es2, tables = l1 ++ t :: l2 /\ snd t = es1 ++ x :: es2 /\
      mfold (rebase_table delta) (l1 ++ [(fst t, es1)]) p = Ok q /\ mfold (rebase_table delta) (l1 ++ [(fst t, es1 ++ [x])]) p = Throw e
  | (_, Ub u) => mfold (rebase_table delta) tables p = Ub u
  | (_, Fuel) => mfold (rebase_table delta) tables p = Fuel
  end.
Proof.
  induction tables as [|t tables IH]; intros p; cbn [each mfold]; [reflexivity|]. unfold step.
  pose proof (each_fold (run_rebase_entry delta (fst t)) (entry_step delta (fst t)) (snd t) (fun e => run_entry delta (fst t) e) p) as E. change (mfold (entry_step delta (fst t)) (snd t) p) with (rebase_table delta p t) in E.
  destruct (each (run_rebase_entry delta (fst t)) (snd t) p) as [q [[]|e|u|]].
  - rewrite E. cbn [bind]. specialize (IH q). destruct (each _ tables q) as [q' [[]|e|u|]]; try exact IH. destruct IH as (M & l1 & t' & l2 & es1 & x & es2 & -> & X & A & B). split; [exact M|].
    exists (t :: l1), t', l2, es1, x, es2. split; [reflexivity|]. split; [exact X|]. cbn [app mfold]. rewrite E. cbn [bind]. split; assumption.
  - destruct E as (M & es1 & x & es2 & X & A & B). rewrite M. split; [reflexivity|]. exists [], t, tables, es1, x, es2. split; [reflexivity|]. split; [exact X|]. cbn [app mfold].
    change (rebase_table delta p (fst t, es1)) with (mfold (entry_step delta (fst t)) es1 p). change (rebase_table delta p (fst t, es1 ++ [x])) with (mfold (entry_step delta (fst t)) (es1 ++ [x]) p).
    rewrite mfold_app, A. cbn [bind mfold]. rewrite B. split; reflexivity.
  - rewrite E. reflexivity.
  - rewrite E. reflexivity.
Qed.
Lemma poke_nt p rva bs q : poke p rva bs = Ok q -> p_nt q = p_nt p /\ p_plus q = p_plus p.
Proof.
  unfold poke. destruct (rva <? zlen (p_full p)); intros H; [bnd H d E; injection H as <-; split; reflexivity|]. bnd H i E1. bnd H s E2. thr H E3. bnd H d E4. injection H as <-. split; reflexivity.
Qed.
Lemma mfold_keep {A B C} (f : B -> A -> res B) (k : B -> C) l : (forall b a b', f b a = Ok b' -> k b' = k b) -> forall b b', mfold f l b = Ok b' -> k b' = k b.
Proof. intros F. induction l as [|a l IH]; intros b b' H; cbn [mfold] in H; [injection H as <-; reflexivity|]. bnd H b1 E. rewrite (IH _ _ H). exact (F _ _ _ E). Qed.
Lemma tables_nt delta l p q : mfold (rebase_table delta) l p = Ok q -> p_nt q = p_nt p.
Proof.
  apply mfold_keep. intros b t b'. unfold rebase_table. apply mfold_keep. intros c e c' H. destruct (snd e =? _) in H; [injection H as <-; reflexivity|]. unfold rebase_word in H. bnd H bs Eb. exact (proj1 (poke_nt _ _ _ _ H)).
Qed.
Lemma rebase_agrees tables base p : agrees (run_rebase_image tables base p) (q <- rebase_image p tables base ;; Ok (q, tt)).
Proof.
  unfold run_rebase_image, rebase_image, agrees. cbv zeta. unfold step, look, change. pose proof (tables_run ((base - imagebase p) mod base_mod p) tables p) as R.
  match type of R with context [each ?f tables p] => destruct (each f tables p) as [q [[]|e|u|]] end; [| destruct R as [R _] | |]; rewrite R; reflexivity.
Qed.
Lemma rebase_fails tables base p q e : run_rebase_image tables base p = (q, Throw e) ->
  p_nt q = p_nt p /\ exists l1 t l2 es1 x es2, tables = l1 ++ t :: l2 /\ snd t = es1 ++ x :: es2 /\
    rebase_image p (l1 ++ [(fst t, es1)]) base = Ok (with_nt (set_h_imagebase (base mod base_mod p)) q) /\ rebase_image p (l1 ++ [(fst t, es1 ++ [x])]) base = Throw e.
Proof.
  intros H. unfold run_rebase_image, step, look in H. pose proof (tables_run ((base - imagebase p) mod base_mod p) tables p) as R. match type of R with context [each ?f tables p] => destruct (each f tables p) as [q' [[]|x|u|]] end; try discriminate H. injection H as -> ->.
  destruct R as (_ & l1 & t & l2 & es1 & x & es2 & A & B & C & D). split; [exact (tables_nt _ _ _ _ C)|]. exists l1, t, l2, es1, x, es2. split; [exact A|]. split; [exact B|]. split; [exact (f_equal (fun r => q <- r ;; Ok (with_nt (set_h_imagebase (base mod base_mod p)) q)) C)|exact (f_equal (fun r => q <- r ;; Ok (with_nt (set_h_imagebase (base mod base_mod p)) q)) D)].
Qed.
(** Expansion. *)
Lemma expand_virtual_strong i rva n p q e : run_expand_section i rva n ExpandVirtual p = (q, Throw e) -> q = p.
Proof.
  unfold run_expand_section, step, look, pass. destruct (not_last p i); cbn [throw_if]; [congruence|]. destruct (get_section p i) as [s| | |]; try congruence. destruct (length_in_section p s rva VirtData) as [len| | |]; try congruence.
  destruct (len <? n); [|congruence]. rewrite run_vsize. destruct (set_section_virtual_size p i _); congruence.
Qed.
Lemma expand_raw_strong i rva n p q e : good_align p -> sized p i -> at_most_2g q i -> run_expand_section i rva n ExpandRaw p = (q, Throw e) -> q = p.
Proof.
  intros Ga Sz Hw H. unfold run_expand_section, step, look, pass in H. destruct (not_last p i) eqn:En; cbn [throw_if] in H; [congruence|]. destruct (get_section p i) as [s| | |] eqn:Es; try congruence. destruct (length_in_section p s rva RawData) as [len| | |]; try congruence.
  destruct (len <? n); [|congruence]. exfalso. unfold change in H. set (s1 := with_raw _ s) in *. apply get_section_inv in Es. destruct (Sz s Es) as (S1 & S2 & S3). pose proof (nth_lt _ _ _ Es) as Li.
  assert (X : s_old s1 = None /\ s_vsize s1 = s_vsize s). { unfold s1, with_raw. cbn [set_s_data s_old s_vsize]. split; [apply unmap_old|]. destruct (unmap_fields s) as (_ & V & _). exact V. }
  clearbody s1. assert (N1 : nth_error (p_sections (put_section p i s1)) i = Some s1) by (apply put_get, Li).
  assert (Hl : S i = length (p_sections (put_section p i s1))). { rewrite put_len. unfold not_last in En. apply orb_false_iff in En as [_ En]. apply Nat.ltb_ge in En. lia. }
  destruct (run_recalculate i false (put_section p i s1)) as [q' [[]|x|u|]] eqn:Er; try discriminate H. injection H as -> ->.
  destruct (recalc_fail_data _ i false s1 q e N1 (proj1 X) Hl Er) as (t & Nt & Rt). pose proof (run_recalc_agrees i false (put_section p i s1)) as R. unfold agrees in R. rewrite Er in R.
  destruct (recalculate_section_sizes (put_section p i s1) i false) as [q1|x|u|] eqn:E2; cbn [bind snd] in R; try discriminate R. apply (recalc_no_throw (put_section p i s1) i false s1 x Ga N1 (proj1 X)); [rewrite (proj2 X); exact S1|rewrite <- Rt; exact (Hw t Nt)|exact E2].
Qed.
Lemma image_of (m : pe * res unit) (f : res pe) p : m = match f with Ok q => (q, Ok tt) | Throw e => (p, Throw e) | Ub u => (p, Ub u) | Fuel => (p, Fuel) end -> same_image m f.
Proof. intros ->. destruct f as [q0|e0|u|]; split; intros x; split; intros X; cbn [snd] in *; congruence. Qed.
Lemma image_agrees (m : pe * res unit) (f : res pe) : agrees m (q <- f ;; Ok (q, tt)) -> same_image m f.
Proof. intros H. apply agrees_iff in H as [A B]. split; [intros q; rewrite A|intros e; rewrite B]; destruct f as [q0|e0|u|]; cbn [bind]; split; intros X; congruence. Qed.
Lemma all_agree p :
  (forall id rva, same_image (run_set_directory_rva id rva p) (set_directory_rva p id rva)) /\ (forall id size, same_image (run_set_directory_size id size p) (set_directory_size p id size)) /\
  (forall a, same_image (run_set_file_alignment a p) (set_file_alignment p a)) /\ (forall i, same_image (run_realign_section i p) (realign_section p i)) /\
  (forall i v, same_image (run_set_section_virtual_size i v p) (set_section_virtual_size p i v)) /\ (forall s auto, same_image (run_add_section s auto p) (add_section p s auto)) /\
  (forall i strip, same_image (run_recalculate i strip p) (recalculate_section_sizes p i strip)) /\ (forall i rva n k, same_result (run_expand_section i rva n k p) (expand_section p i rva n k)) /\
  (forall tables i off save strip, same_result (run_rebuild_relocations tables i off save strip p) (rebuild_relocations p tables i off save strip)) /\
  (forall l i off save strip, same_result (run_rebuild_bound_imports l i off save strip p) (rebuild_bound_imports p l i off save strip)) /\
  (forall info l i off save strip, same_result (run_rebuild_exports info l i off save strip p) (rebuild_exports p info l i off save strip)) /\
  (forall t i off save strip, same_result (run_rebuild_resources t i off save strip p) (r <- rebuild_resources p t i off save strip ;; Ok (fst (fst r), (snd (fst r), snd r)))) /\
  (forall tables base, same_image (run_rebase_image tables base p) (rebase_image p tables base)) /\
  (forall t i off callbacks data k save strip, same_result (run_rebuild_tls t i off callbacks data k save strip p) (rebuild_tls p t i off callbacks data k save strip)) /\
  (forall c i off handlers locks save strip, (forall q d, run_rebuild_config c i off handlers locks save strip p = (q, Ok d) <-> rebuild_config p c i off handlers locks save strip = Ok (q, d)) /\
     (forall e, snd (run_rebuild_config c i off handlers locks save strip p) = Throw e -> rebuild_config p c i off handlers locks save strip = Throw e)).
Proof.
  split; [intros; eapply image_of, run_dir_rva|]. split; [intros; eapply image_of, run_dir_size|]. split; [intros; eapply image_of, run_falign|]. split; [intros; eapply image_of, run_realign|].
  split; [intros; eapply image_of, run_vsize|]. split; [intros; eapply image_of, run_add|]. split; [intros; apply image_agrees, run_recalc_agrees|]. split; [intros; apply agrees_iff, run_expand_agrees|].
  split; [intros; apply agrees_iff, run_relocations_agrees|]. split; [intros; apply agrees_iff, run_bound_agrees|]. split; [intros; apply agrees_iff, run_exports_agrees|]. split; [intros; apply agrees_iff, run_resources_agrees|].
  split; [intros; apply image_agrees, rebase_agrees|]. split; [intros; apply agrees_iff, tls_agrees|]. intros. apply leads_iff, config_leads.
Qed.
Lemma edits_strong p q e :
  (forall id rva, run_set_directory_rva id rva p = (q, Throw e) -> q = p) /\ (forall id size, run_set_directory_size id size p = (q, Throw e) -> q = p) /\
  (forall a, run_set_file_alignment a p = (q, Throw e) -> q = p) /\ (forall i, run_realign_section i p = (q, Throw e) -> q = p) /\
  (forall i v, run_set_section_virtual_size i v p = (q, Throw e) -> q = p) /\ (forall s auto, run_add_section s auto p = (q, Throw e) -> q = p) /\
  (forall i rva n, run_expand_section i rva n ExpandVirtual p = (q, Throw e) -> q = p).
Proof.
  assert (X : forall (f : res pe), match f with Ok q => (q, Ok tt) | Throw e => (p, Throw e) | Ub u => (p, Ub u) | Fuel => (p, Fuel) end = (q, Throw e) -> q = p) by (intros [q0|e0|u|] H; congruence).
  split; [intros *; rewrite run_dir_rva; apply X|]. split; [intros *; rewrite run_dir_size; apply X|]. split; [intros *; rewrite run_falign; apply X|]. split; [intros *; rewrite run_realign; apply X|].
  split; [intros *; rewrite run_vsize; apply X|]. split; [intros *; rewrite run_add; apply X|]. intros *; apply expand_virtual_strong.
Qed.
Lemma rebuilds_strong p q e i save : good_align p -> sized p i -> at_most_2g q i ->
  (forall tables off strip, entry_for p save dir_basereloc -> run_rebuild_relocations tables i off save strip p = (q, Throw e) -> q = p) /\
  (forall l off strip, entry_for p save dir_bound_import -> run_rebuild_bound_imports l i off save strip p = (q, Throw e) -> q = p) /\
  (forall info l off strip, entry_for p save dir_export -> run_rebuild_exports info l i off save strip p = (q, Throw e) -> q = p) /\
  (forall t off strip, entry_for p save dir_resource -> run_rebuild_resources t i off save strip p = (q, Throw e) -> q = p) /\
  (forall rva n, run_expand_section i rva n ExpandRaw p = (q, Throw e) -> q = p).
Proof.
  intros Ga Sz Hw. split; [intros *; intros En; apply relocations_strong; assumption|]. split; [intros *; intros En; apply bound_strong; assumption|]. split; [intros *; intros En; apply exports_strong; assumption|].
  split; [intros *; intros En; apply resources_strong; assumption|]. intros *. apply expand_raw_strong; assumption.
Qed.
