(** Proof of C78. *)
From Verif Require Export SpecKeep KeepRead OverlayFacts.

Lemma full_le h n l : full_headers_size h n l <= h_hdrsize h.
Proof. unfold full_headers_size. destruct (find _ l); lia. Qed.
Lemma load_full plus fm rd f f' p : wf_stream f -> load plus fm rd f = (f', Ok p) -> zlen (p_full p) = full_headers_size (p_nt p) (zlen (i_data f)) (p_sections p).
Proof. intros W E. destruct (load_overlay _ _ _ _ _ _ W E) as (_ & _ & H). exact H. Qed.
Lemma chain_low sa start l : 0 < sa -> Forall wf_section l -> chain sa start l -> Forall (fun s => start <= s_va s) l.
Proof.
  intros Hs. revert start. induction l as [|s l IH]; intros start W C; [constructor|]. inversion_clear W as [|? ? W1 W2]. destruct C as [C1 C2]. apply Forall_cons; [lia|].
  assert (start <= send sa s).
  { unfold send, span. destruct (wf_ranges s W1) as (H1 & _ & H3 & _). unfold is_u32 in *.
    destruct (s_vsize s =? 0); [pose proof (ceil_mult_least (s_rawsize s) sa Hs)|pose proof (ceil_mult_least (s_vsize s) sa Hs)]; lia. }
  specialize (IH _ W2 C2). eapply Forall_impl; [|exact IH]. cbn beta. intros; lia.
Qed.
Lemma same_virt sa s t : s_old s = None -> s_old t = None -> same_section s t -> seen_alike true sa s t.
Proof.
  intros Os Ot (_ & E2 & E3 & E4 & _ & _ & _ & _ & _ & E5). unfold seen_alike. split; [assumption|]. split; [unfold aligned_vsize; rewrite E2, E4; reflexivity|]. split; [intros _; assumption|]. rewrite !raw_view_unmapped in E5 by assumption.
  unfold virt_view, map_virtual, aligned_vsize. rewrite Os, Ot, E2, E4, E5. destruct (negb _ && _); cbn; rewrite ?E5; reflexivity.
Qed.
Lemma alike_self p : image_wf p -> headers_below p -> alike true (sections_only p) p.
Proof.
  intros W L. constructor; try reflexivity; try assumption.
  - change (salign (sections_only p)) with (salign p). change (p_sections (sections_only p)) with (p_sections p). induction (p_sections p); constructor; [repeat split|assumption].
  - left. split; [reflexivity|exact L].
  - unfold image_wf in W. change (p_sections (sections_only p)) with (p_sections p). split; [tauto|apply Forall_nil].
Qed.
Section Done.
Context (p r : pe) (strip chg save : bool) (C : consistent p) (U : unmapped p) (R : reloaded strip chg save p r) (Ur : unmapped r) (Fr : zlen (p_full r) <= hdrsize r) (Ck : image_checked r).
Lemma reloaded_nt : imagebase r = imagebase p /\ salign r = salign p /\ chars r = chars p /\ nrva r = nrva p.
Proof. destruct R as (_ & _ & _ & _ & _ & _ & E & _). unfold imagebase, salign, chars, nrva. rewrite E. repeat split. Qed.
Lemma low : Forall (fun s => zlen (p_full r) <= s_va s) (p_sections p).
Proof.
  destruct C as (W & _ & _ & _ & _ & _ & A & Hn & (start & H1 & _ & Ch & _) & _). destruct A as (PS & _). pose proof (pow2_pos _ PS) as Pos.
  assert (Ws : Forall wf_section (p_sections p)) by (unfold image_wf in W; tauto). pose proof (chain_low (salign p) start _ Pos Ws Ch) as Lo.
  destruct (p_sections p) as [|s l] eqn:El; [constructor|]. destruct Ch as [Es _].
  destruct R as (_ & _ & _ & _ & _ & F & _). rewrite El in F. destruct (p_sections r) as [|t m] eqn:Er; [inversion F|]. assert (Hst : same_section s t) by (inversion F; assumption). destruct Ck as (_ & _ & _ & _ & _ & _ & _ & _ & _ & First & _).
  specialize (First _ _ Er). destruct Hst as (_ & _ & V & _). eapply Forall_impl; [|exact Lo]. cbn beta. intros; lia.
Qed.
Lemma alike_reloaded : alike true (sections_only p) r.
Proof.
  destruct reloaded_nt as (E1 & E2 & E3 & E4). constructor; try assumption.
  - exact (proj1 R).
  - change (salign (sections_only p)) with (salign p). change (p_sections (sections_only p)) with (p_sections p). destruct R as (_ & _ & _ & _ & _ & F & _). clear -U Ur F.
    unfold unmapped in U, Ur. induction F as [|s t l m H F IH]; [constructor|]. inversion_clear U as [|? ? U1 U2]. inversion_clear Ur as [|? ? V1 V2]. constructor; [apply same_virt; assumption|auto].
  - left. split; [reflexivity|exact low].
  - destruct C as (W & _). unfold image_wf in W. change (p_sections (sections_only p)) with (p_sections p). split; [tauto|apply Forall_nil].
Qed.
Lemma same_dir_reloaded id : 0 < nrva p -> 0 <= id -> (id =? 11) && bound_saved save p = false -> same_dir (sections_only p) r id.
Proof.
  intros N I B. destruct reloaded_nt as (_ & _ & _ & E4). destruct R as (_ & _ & _ & _ & _ & _ & _ & _ & _ & Rd). destruct C as (W & _).
  assert (D : dirs_ok p /\ 0 <= nrva p <= 16) by (unfold image_wf in W; tauto). destruct D as ((D1 & _) & D2).
  unfold same_dir, directory_exists, get_directory_rva, get_directory_size, nth_ub. rewrite E4. change (nrva (sections_only p)) with (nrva p). change (p_nt (sections_only p)) with (p_nt p).
  assert (Eu : u32 (nrva p - 1) = nrva p - 1) by (apply u32_small; lia). rewrite Eu.
  destruct (Z.ltb_spec id (nrva p)) as [L|L].
  - replace (nrva p <=? id) with false by lia. cbn [throw_if bind].
    destruct (nth_error (h_dirs (p_nt p)) (Z.to_nat id)) as [d|] eqn:E; [|apply nth_error_None in E; lia].
    destruct (Rd id d (conj I E)) as (_ & Er). replace (id <? nrva p) with true in Er by lia. rewrite B in Er.
    assert (Lr : id < zlen (h_dirs (p_nt r))). { assert (Z.to_nat id < length (h_dirs (p_nt r)))%nat by (apply nth_error_Some; rewrite Er; discriminate). unfold zlen. lia. }
    assert (Lp : id < zlen (h_dirs (p_nt p))) by (unfold zlen; lia).
    replace ((0 <=? id) && (id <? zlen (h_dirs (p_nt r)))) with true by lia. replace ((0 <=? id) && (id <? zlen (h_dirs (p_nt p)))) with true by lia. rewrite Er. repeat split.
  - replace (id <=? nrva p - 1) with false by lia. replace (nrva p <=? id) with true by lia. repeat split.
Qed.
End Done.

(** ** The readers *)
Lemma all_kept_alike p r : alike true (sections_only p) r -> dirs_ok p -> (forall id, 0 <= id -> id <> 11 -> same_dir (sections_only p) r id) -> all_kept p r.
Proof.
  intros A D S. assert (D' : dirs_ok (sections_only p)) by exact D. unfold all_kept, still_reads.
  split; [intros info; apply (keep_exports true _ _ A D'), S; unfold dir_export; lia|]. split; [apply (keep_imports true _ _ A), S; unfold dir_import; lia|].
  split; [intros abs; apply (keep_relocations true _ _ A D'), S; unfold dir_basereloc; lia|]. split; [apply (keep_tls true _ _ A), S; unfold dir_tls; lia|].
  split; [apply (keep_config true _ _ A eq_refl), S; unfold dir_load_config; lia|]. split; [apply (keep_exceptions true _ _ A D'), S; unfold dir_exception; lia|].
  split; [apply (keep_resources true _ _ A), S; unfold dir_resource; lia|]. apply (keep_dotnet true _ _ A), S; unfold dir_com; lia.
Qed.
Lemma same_dir_refl p id : same_dir (sections_only p) p id. Proof. repeat split. Qed.
Theorem sections_seen p : image_wf p -> headers_below p -> all_kept p p /\ still_reads get_bound_imports p p.
Proof.
  intros W L. pose proof (alike_self p W L) as A. assert (D : dirs_ok p) by (unfold image_wf in W; tauto). split; [apply all_kept_alike; [exact A|exact D|intros; apply same_dir_refl]|].
  exact (keep_bound true _ _ A D eq_refl (same_dir_refl p _)).
Qed.
Section Written.
Context (p : pe) (strip chg save : bool) (q : pe) (out : list Z) (C : consistent p) (U : unmapped p) (N : 0 < nrva p).
Context (T : data_start strip save p + data_total (falign p) (p_sections p) < 2^32) (NS : no_stale_pointers (data_start strip save p) p) (E : rebuild_pe p strip chg save = Ok (q, out)).
Lemma written_facts r : loaded_from out r -> reloaded strip chg save p r /\ unmapped r /\ zlen (p_full r) <= hdrsize r /\ image_checked r.
Proof.
  intros (strict & rd & f & F). destruct (reload_thm p strip chg save q out C T NS E strict rd) as (f' & r' & F' & L & R & _). rewrite F in F'. injection F' as -> ->.
  assert (W : wf_stream (open_stream strict out)).
  { pose proof (consistent_range p C) as RR.
    assert (power_of_two (falign p) /\ falign p < 2^32) as [P Lf].
    { destruct C as (_ & _ & _ & _ & _ & _ & (A1 & A2 & A3 & A4 & _) & _). unfold falign, salign in *. split; [assumption|lia]. }
    destruct (rebuild_places p strip chg save q out RR P Lf T NS E) as (_ & B & _). apply wf_open; [exact (rebuilt_bytes p strip chg save q out C E)|lia]. }
  destruct (load_ok _ _ _ _ _ _ W L) as (_ & _ & Fr & Ck). split; [exact R|]. split; [|split; [|exact Ck]].
  - destruct Fr as (_ & _ & _ & _ & _ & _ & _ & S & _). apply Forall_forall. intros s Hs. apply In_nth_error in Hs as [i Hi]. destruct (S i s Hi) as (_ & S'). tauto.
  - rewrite (load_full _ _ _ _ _ _ W L). apply full_le.
Qed.
Theorem written_kept r : loaded_from out r -> all_kept p r.
Proof.
  intros H. destruct (written_facts r H) as (R & Ur & Fr & Ck). assert (D : dirs_ok p) by (destruct C as (W & _); unfold image_wf in W; tauto).
  apply all_kept_alike; [exact (alike_reloaded p r strip chg save C U R Ur Fr Ck)|exact D|]. intros id I X. apply (same_dir_reloaded p r strip chg save C R id N I). replace (id =? 11) with false by lia. reflexivity.
Qed.
Theorem written_bound r : bound_saved save p = false -> loaded_from out r -> still_reads get_bound_imports p r.
Proof.
  intros B H. destruct (written_facts r H) as (R & Ur & Fr & Ck). assert (D : dirs_ok p) by (destruct C as (W & _); unfold image_wf in W; tauto).
  apply (keep_bound true _ _ (alike_reloaded p r strip chg save C U R Ur Fr Ck) D eq_refl). apply (same_dir_reloaded p r strip chg save C R _ N); [unfold dir_bound_import; lia|]. rewrite B, andb_false_r. reflexivity.
Qed.
End Written.
