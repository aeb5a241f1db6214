(** Proof of C81. *)
From Verif Require Import TlsRound TlsGrow KeepTls.
From Verif Require Export SpecHistory KeepEdit PeEditFacts.

(** ** A table in a section *)
Definition shown (q : pe) (i : nat) (va pos : Z) (out : list Z) : Prop :=
  exists t, nth_error (p_sections q) i = Some t /\ s_va t = va /\ 0 <= pos /\ pos + zlen out <= span (salign q) t /\
    forall k, 0 <= k < zlen out -> byte_of t (pos + k) = nth (Z.to_nat k) out 0.
Definition clear_flag (q : pe) : Prop := check_characteristics_flag image_file_relocs_stripped q = false.
Definition like (q q' : pe) : Prop := p_plus q' = p_plus q /\ salign q' = salign q /\ nrva q' = nrva q /\ p_full q' = p_full q /\ (clear_flag q -> clear_flag q') /\ imagebase q' = imagebase q.
Lemma like_refl q : like q q. Proof. unfold like. tauto. Qed.
Lemma like_trans p q r : like p q -> like q r -> like p r.
Proof. intros (A1 & A2 & A3 & A5 & A4 & A6) (B1 & B2 & B3 & B5 & B4 & B6). unfold like. rewrite B1, B2, B3, B5, B6. tauto. Qed.
(** The image where edit [e] was made shows its table; every image like it that shows the same bytes and directory entries gives the table back. *)
Definition found (a : Z) (p q : pe) (e : edit) : Prop :=
  exists va out ds, first_byte e + zlen out <= table_stop q e /\ shown q (section_of e) va (first_byte e) out /\
    Forall (fun x => dir_is q (fst x) (snd x) /\ In (fst x) (entries e)) ds /\
    forall r, editable a r -> like q r -> shown r (section_of e) va (first_byte e) out -> Forall (fun x => dir_is r (fst x) (snd x)) ds -> reads_back p (hl r) e.
(** What an edit leaves alone. *)
Definition framed (p q : pe) (e : edit) : Prop :=
  like p q /\
  (forall j s, nth_error (p_sections p) j = Some s -> exists t, nth_error (p_sections q) j = Some t /\ s_va t = s_va s /\ span (salign p) s <= span (salign p) t /\
     forall k, 0 <= k -> ~ (j = section_of e /\ overwrites p e k) -> byte_of t k = byte_of s k) /\
  (forall id d, ~ In id (entries e) -> dir_is p id d -> dir_is q id d).

Lemma editable_image a p : editable a p -> exists start, image_ok p start.
Proof.
  intros ((W & _ & _ & _ & _ & _ & G & N & (start & H0 & Dv & Ch & Ce)) & _ & R & _). exists start.
  assert (Ws : Forall wf_section (p_sections p)) by (apply Forall_forall; intros s Hs; apply In_nth_error in Hs as (j & Hj); apply (R j s Hj)).
  assert (St : 0 <= start < 2^32).
  { destruct (p_sections p) as [|s l]; [change (zlen (@nil section)) with 0 in N; lia|]. destruct Ch as [<- _]. apply Forall_cons_iff in Ws as [Ws _]. destruct (wf_ranges _ Ws) as (_ & H & _). exact H. }
  split; [exact G|]. repeat (split; [assumption|]). exact Ce.
Qed.
Lemma span_multiple a q i t : editable a q -> nth_error (p_sections q) i = Some t -> (salign q | span (salign q) t).
Proof.
  intros ((_ & _ & _ & _ & _ & _ & (Ps & _) & _) & _ & R & _) Ht. destruct (R i t Ht) as (_ & V & _). unfold span. replace (s_vsize t =? 0) with false by lia.
  apply (ceil_mult_least (s_vsize t) (salign q) (pow2_pos _ Ps)).
Qed.
Lemma upd_id {A} (l : list A) : forall i x, nth_error l i = Some x -> upd l i x = l.
Proof. induction l as [|y l IH]; intros [|i] x H; try discriminate; cbn [nth_error upd] in *; [congruence|]. rewrite IH by exact H. reflexivity. Qed.
Lemma put_id p i t : nth_error (p_sections p) i = Some t -> put_section p i t = p.
Proof. intros H. unfold put_section. rewrite upd_id by exact H. destruct p; reflexivity. Qed.
Lemma shown_block a q i va pos out : editable a q -> shown q i va pos out ->
  exists v t, block (hl q) va v /\ holds v pos out /\ nth_error (p_sections q) i = Some t /\ s_va t = va /\ zlen v = span (salign q) t /\ pos + zlen out <= zlen v.
Proof.
  intros Ed (t & Ht & Va & Hp & Hl & Hb). destruct (editable_image a q Ed) as (start & IO). pose proof Ed as (_ & U & R & _). destruct (R i t Ht) as (W & V & _ & Z & _).
  pose proof (nth_Forall _ _ _ _ U Ht) as O. cbn beta in O.
  assert (St : stored t t (raw_view t)).
  { unfold stored. repeat (split; [first [reflexivity|exact O]|]). exists 0. rewrite app_nil_r. reflexivity. }
  assert (B : block (hl q) (s_va t) (raw_view t ++ zeros (span (salign q) t - zlen (raw_view t)))).
  { rewrite <- (put_id (hl q) i t Ht). apply (store_block (hl q) start i t t); try assumption; [rewrite (put_id (hl q) i t Ht); exact IO|apply bytes_raw_view; exact W|].
    destruct (wf_ranges _ W) as (_ & H & _). unfold is_u32 in H. change (zlen (p_full (hl q))) with 0. lia. }
  exists (raw_view t ++ zeros (span (salign q) t - zlen (raw_view t))), t. rewrite <- Va. split; [exact B|].
  assert (Lv : zlen (raw_view t ++ zeros (span (salign q) t - zlen (raw_view t))) = span (salign q) t) by (rewrite zlen_app, zlen_zeros; lia).
  split; [|split; [exact Ht|split; [reflexivity|split; [exact Lv|lia]]]].
  apply nth_holds; [exact Hp|lia|]. intros k Hk. rewrite <- Hb by exact Hk. unfold byte_of.
  destruct (Z_lt_dec (pos + k) (zlen (raw_view t))); [apply app_nth1; unfold zlen in *; lia|].
  rewrite app_nth2 by (unfold zlen in *; lia). rewrite (nth_overflow (raw_view t)) by (unfold zlen in *; lia). unfold zeros. apply nth_repeat.
Qed.
(** The section that a block is in. *)
Lemma block_span p va v i t pos out : block p va v -> holds v pos out -> 0 < zlen out -> nth_error (p_sections p) i = Some t -> s_va t = va -> 0 < span (salign p) t -> pos + zlen out <= span (salign p) t.
Proof.
  intros B H Hn Ht Va Hs. destruct (holds_range _ _ _ H) as [H1 H2]. destruct (block_sec p va v 0 B ltac:(lia)) as (j & s & E1 & E2 & E3 & E4 & E5).
  pose proof B as (Lay & _ & _ & _ & j' & s' & Hj' & Va' & Vv' & Sp').
  assert (F1 : section_from_rva p (va + 0) = Ok i) by (apply (section_from_rva_spec _ _ _ Lay); exists t; split; [exact Ht|unfold occupies, send; lia]).
  assert (F2 : section_from_rva p (va + 0) = Ok j') by (apply (section_from_rva_spec _ _ _ Lay); exists s'; split; [exact Hj'|unfold occupies, send; lia]).
  rewrite F1 in F2. injection F2 as <-. rewrite Ht in Hj'. injection Hj' as <-. lia.
Qed.
Lemma word_size_plus p q : p_plus q = p_plus p -> word_size q = word_size p. Proof. intros H. unfold word_size. rewrite H. reflexivity. Qed.
Lemma import_size_plus p q libs o : p_plus q = p_plus p -> import_size q libs o = import_size p libs o.
Proof.
  intros H. unfold import_size. rewrite (word_size_plus p q H). assert (total (library_table_size q) libs = total (library_table_size p) libs) as ->; [|reflexivity].
  apply total_same. intros l. unfold library_table_size. rewrite (word_size_plus p q H). reflexivity.
Qed.
Lemma table_stop_plus p q e : p_plus q = p_plus p -> table_stop q e = table_stop p e.
Proof. intros H. destruct e; cbn [table_stop]; try reflexivity; [rewrite (import_size_plus p q) by exact H; reflexivity|]. unfold tls_bytes. rewrite (word_size_plus p q) by exact H. rewrite H. reflexivity. Qed.
Lemma overwrites_plus p q e k : p_plus q = p_plus p -> overwrites q e k <-> overwrites p e k.
Proof. intros H. destruct e; cbn [overwrites]; try reflexivity; rewrite (table_stop_plus p q) by exact H; reflexivity. Qed.
Lemma spares_plus p q e f : p_plus q = p_plus p -> spares p e f -> spares q e f.
Proof.
  intros H [A B]. split; [exact A|]. destruct B as [B|B]; [left; exact B|right]. intros k. rewrite (table_stop_plus p q) by exact H. rewrite (overwrites_plus p q) by exact H. apply B.
Qed.
Lemma reads_back_plus p q r e : p_plus q = p_plus p -> reads_back p r e -> reads_back q r e.
Proof.
  intros H. destruct e; cbn [reads_back]; try (intros X; exact X). intros (ms & M1 & M2). exists ms. split; [exact M1|]. unfold same_library in *. rewrite (word_size_plus p q H). exact M2.
Qed.
Lemma found_plus a p q r e : p_plus q = p_plus p -> found a p r e -> found a q r e.
Proof. intros H (va & out & ds & A & B & C & D). exists va, out, ds. split; [exact A|]. split; [exact B|]. split; [exact C|]. intros x X1 X2 X3 X4. apply (reads_back_plus p); [exact H|]. apply D; assumption. Qed.
Lemma found_kept a p0 p q e f : found a p0 p e -> framed p q f -> spares p e f -> found a p0 q e.
Proof.
  intros (va & out & ds & A & B & C & D) (L & O & Di) [S1 S2]. exists va, out, ds. rewrite (table_stop_plus p q) by apply L. split; [exact A|].
  split; [|split].
  - destruct B as (x & Hx & Vx & Hp & Hl & Hb). pose proof L as (_ & La & _). unfold shown. rewrite La. destruct (O _ x Hx) as (t & Ht & Va & Sp & By).
    exists t. split; [exact Ht|]. split; [congruence|]. split; [exact Hp|]. split; [lia|].
    intros k Hk. rewrite <- Hb by exact Hk. apply By; [lia|]. intros [Es Ov]. destruct S2 as [S2|S2]; [congruence|]. apply (S2 (first_byte e + k)); [lia|exact Ov].
  - revert C. apply Forall_impl. intros x [X1 X2]. split; [|exact X2]. apply Di; [|exact X1]. intros X3. apply (S1 _ X2 X3).
  - intros r R1 R2. apply (D r R1). apply (like_trans _ q); assumption.
Qed.

(** ** One edit *)
Lemma headers_like p q : same_headers p q -> like p q.
Proof.
  intros H. pose proof (f_equal p_nt H : set_h_dirs [] (p_nt q) = set_h_dirs [] (p_nt p)) as N. unfold like, clear_flag, check_characteristics_flag, chars.
  rewrite (f_equal h_chars N : h_chars (p_nt q) = h_chars (p_nt p)). split; [exact (f_equal p_plus H)|]. split; [exact (f_equal h_salign N)|]. split; [exact (f_equal h_nrva N)|]. split; [exact (f_equal p_full H)|]. split; [tauto|exact (f_equal h_imagebase N)].
Qed.
Lemma relocs_like p q : same_but_relocs p q -> clear_flag q -> like p q.
Proof.
  intros H C. pose proof (f_equal p_nt H : set_h_chars 0 (set_h_dllchars 0 (set_h_dirs [] (p_nt q))) = set_h_chars 0 (set_h_dllchars 0 (set_h_dirs [] (p_nt p)))) as N. unfold like.
  split; [exact (f_equal p_plus H)|]. split; [exact (f_equal h_salign N)|]. split; [exact (f_equal h_nrva N)|]. split; [exact (f_equal p_full H)|]. split; [tauto|exact (f_equal h_imagebase N)].
Qed.
Lemma section_framed p q e pos out : like p q -> only_section p q (section_of e) pos out -> (forall k, 0 <= k -> ~ overwrites p e k -> k < pos \/ pos + zlen out <= k) ->
  (forall id d, ~ In id (entries e) -> dir_is p id d -> dir_is q id d) -> framed p q e.
Proof.
  intros L (_ & O & s & t & Hs & Ht & _ & Va & _ & _ & _ & Sp & B1 & _) H D. split; [exact L|]. split; [|exact D]. intros j x Hx. destruct (Nat.eq_dec j (section_of e)) as [->|Nj].
  - rewrite Hs in Hx. injection Hx as <-. exists t. do 3 (split; [assumption|]). intros k Hk N. apply B1; [exact Hk|]. apply H; tauto.
  - exists x. rewrite O by exact Nj. split; [exact Hx|]. split; [reflexivity|]. split; [lia|reflexivity].
Qed.
Lemma section_shown a p q i pos out s : editable a q -> salign q = salign p -> only_section p q i pos out -> nth_error (p_sections p) i = Some s -> 0 <= pos -> 0 < zlen out ->
  (exists v, block q (s_va s) v /\ holds v pos out) -> shown q i (s_va s) pos out.
Proof.
  intros Ed Sa (_ & _ & s' & t & Hs' & Ht & _ & Va & _ & _ & Sz & _ & _ & B) Hs Hp Hn (v & Bv & Hv). rewrite Hs in Hs'. injection Hs' as <-. exists t. split; [exact Ht|]. split; [exact Va|]. split; [exact Hp|].
  split; [|exact B]. apply (block_span q (s_va s) v i t pos out Bv Hv Hn Ht Va).
  pose proof Ed as ((_ & _ & _ & _ & _ & _ & (Ps & _) & _) & _ & R & _). destruct (R i t Ht) as (_ & V & _). unfold span. replace (s_vsize t =? 0) with false by lia.
  pose proof (ceil_mult_least (s_vsize t) (salign q) (pow2_pos _ Ps)). lia.
Qed.
Definition edit_done (a : Z) (p : pe) (e : edit) : Prop := exists q, apply_edit p e = Ok q /\ editable a q /\ framed p q e /\ found a p q e.
Lemma editable_dirs a p : editable a p -> dirs_ok p.
Proof. intros (((_ & _ & _ & _ & _ & _ & G & _) & _) & _). exact G. Qed.
Lemma exports_step a p info l i off strip : editable a p -> admissible p (Exports info l i off strip) -> edit_done a p (Exports info l i off strip).
Proof.
  intros Ed (A & B & C & D & E & (start & F) & G & (s & Hs & H) & J & K).
  destruct (exports_saved p start i info l off strip s a Ed A B C D E F G Hs H J K) as (q & w & X & Eq & _).
  destruct (rebuild_exports_strong p start i info l off true strip A B C D E F (editable_dirs _ _ Ed) G) as (q2 & s2 & out & Hs2 & X2 & Lo & Os & Sh & _ & Od & (v & Bv & Hv & _) & _ & Rd).
  rewrite Hs in Hs2. injection Hs2 as <-. rewrite X in X2. injection X2 as <- ->. specialize (Rd H J).
  pose proof (ceil_mult_least off 4 ltac:(lia)) as (_ & Q2 & _). set (pos := ceil_mult off 4) in *. set (size := export_size (xi_name info) l) in *.
  assert (Zs : 40 <= size).
  { unfold size, export_size. pose proof (zlen_nonneg (xi_name info)). pose proof (zlen_nonneg (export_names l)). pose proof (stored_nonneg (export_names l)). pose proof (stored_nonneg (export_forwards l)).
    assert (lowest l <= highest l); [|lia]. destruct l as [|f l]; [congruence|]. unfold lowest, highest, export_ordinals. cbn [map fold_right]. lia. }
  pose proof (headers_like _ _ Sh) as L. exists q. split; [cbn [apply_edit]; rewrite X; reflexivity|]. split; [exact Eq|]. split.
  - apply (section_framed p q (Exports info l i off strip) pos out L Os).
    + intros k Hk N. cbn [overwrites first_byte table_stop] in N. fold pos size in N. lia.
    + intros id d N Hd. apply Od; [|exact Hd]. intros ->. apply N. left. reflexivity.
  - exists (s_va s), out, [(dir_export, (s_va s + pos, size))]. cbn [first_byte table_stop section_of entries]. fold pos size. split; [lia|].
    split; [apply (section_shown a p q i pos out s Eq (proj1 (proj2 L)) Os Hs ltac:(lia) ltac:(lia)); exists v; split; assumption|].
    split; [apply Forall_cons; [split; [exact (proj1 Od)|left; reflexivity]|apply Forall_nil]|].
    intros r Er Lr Sr Dr. apply Forall_inv in Dr. cbn [fst snd] in Dr. destruct (shown_block a r i _ pos out Er Sr) as (v' & t & Bv' & Hv' & Ht & Va & Lv & Hl).
    pose proof (like_trans _ _ _ L Lr) as (_ & Sa & Nr & _). pose proof F as (_ & _ & s' & Hs' & Hz & _). rewrite Hs in Hs'. injection Hs' as <-.
    destruct (Rd (hl r) v' Bv' Hv') as (x & l' & nm & R1 & R2 & R3 & (m & R4 & R5 & R6) & _).
    + apply (dir_is_at (hl r) dir_export); [exact Dr|change (nrva (hl r)) with (nrva r); unfold dir_export in *; lia|change (nrva (hl r)) with (nrva r); lia|lia].
    + destruct K as [K|K]; [left; exact K|right]. pose proof (span_multiple a r i t Er Ht) as Mt. rewrite <- Lv, Sa in Mt. rewrite Lo in Hl. destruct (Z.eq_dec (pos + size) (zlen v')) as [Ee|]; [|lia]. rewrite <- Ee in Mt. contradiction.
    + exists x, l', m. repeat (split; [assumption|]). exact R6.
Qed.
Lemma relocations_step a p tables i off strip : editable a p -> admissible p (Relocations tables i off strip) -> edit_done a p (Relocations tables i off strip).
Proof.
  intros Ed (A & B & C & (start & F) & H).
  destruct (relocations_saved p start i tables off strip a Ed A B C F H) as (q & w & X & Eq & _).
  destruct (rebuild_relocations_strong p start i tables off true strip A B C F (editable_dirs _ _ Ed) H) as (q2 & s & Hs & X2 & Os & Sh & _ & Od & Bv & Fl).
  rewrite X in X2. injection X2 as <- ->. specialize (Fl eq_refl (proj1 (flags_of a p Ed))).
  pose proof (ceil_mult_least off 4 ltac:(lia)) as (_ & Q2 & _). set (pos := ceil_mult off 4) in *. set (out := concat (map block_bytes tables)) in *.
  assert (Lo : zlen out = blocks_size tables) by apply zlen_blocks.
  assert (Bz : 8 <= blocks_size tables).
  { destruct tables as [|t l]; [congruence|]. cbn [blocks_size fold_right]. fold (blocks_size l). pose proof (block_size_pos t). pose proof (blocks_size_pos l). lia. }
  pose proof (relocs_like _ _ Sh Fl) as L. exists q. split; [cbn [apply_edit]; rewrite X; reflexivity|]. split; [exact Eq|]. split.
  - apply (section_framed p q (Relocations tables i off strip) pos out L Os).
    + intros k Hk N. cbn [overwrites first_byte table_stop] in N. fold pos in N. lia.
    + intros id d N Hd. apply Od; [|exact Hd]. intros ->. apply N. left. reflexivity.
  - exists (s_va s), out, [(dir_basereloc, (s_va s + pos, blocks_size tables))]. cbn [first_byte table_stop section_of entries]. fold pos. split; [lia|].
    split; [apply (section_shown a p q i pos out s Eq (proj1 (proj2 L)) Os Hs ltac:(lia) ltac:(lia)); exact Bv|].
    split; [apply Forall_cons; [split; [exact (proj1 Od)|left; reflexivity]|apply Forall_nil]|].
    intros r Er Lr Sr Dr. apply Forall_inv in Dr. cbn [fst snd] in Dr. destruct (shown_block a r i _ pos out Er Sr) as (v' & t & Bv' & Hv' & Ht & Va & Lv & Hl).
    pose proof (like_trans _ _ _ L Lr) as (_ & Sa & Nr & _). pose proof F as (_ & T & s' & Hs' & Hz & _). rewrite Hs in Hs'. injection Hs' as <-. fold pos in T.
    pose proof Lr as (_ & _ & _ & _ & Cl & _). specialize (Cl Fl).
    destruct (dir_is_at (hl r) dir_basereloc (s_va s + pos) (blocks_size tables)) as (G1 & G2 & G3); [exact Dr|change (nrva (hl r)) with (nrva r); unfold dir_basereloc in *; lia|change (nrva (hl r)) with (nrva r); lia|lia|].
    apply (relocations_from (hl r) (s_va s) v' pos tables B C Bv' Hv' ltac:(lia)); [|exact G2|exact G3]. unfold has_reloc. rewrite G1. cbn [bind].
    change (check_characteristics_flag image_file_relocs_stripped (hl r)) with (check_characteristics_flag image_file_relocs_stripped r). rewrite Cl. reflexivity.
Qed.
Lemma resources_step a p t i off strip : editable a p -> admissible p (Resources t i off strip) -> edit_done a p (Resources t i off strip).
Proof.
  intros Ed (A & V & St & Fr & Hoe & (start & F) & H). pose proof F as (_ & T & s & Hs & Hz & _).
  destruct (resources_saved p start i t off strip s a Ed A V St Fr Hoe F H Hs) as (q & w & so & X & Eq & _).
  destruct (rebuild_resources_strong p start i t off true strip s A V Fr Hoe F (editable_dirs _ _ Ed) H Hs) as (q2 & out & X2 & Lo & Os & Sh & _ & Od & Bv & _ & Rd).
  rewrite X in X2. injection X2 as <- -> ->. specialize (Rd St).
  pose proof (ceil_mult_least off 4 ltac:(lia)) as (_ & Q2 & _). set (pos := ceil_mult off 4) in *. set (stop := resource_end off t) in *.
  assert (Zs : pos < stop).
  { destruct (sizes_ok t off V Fr A ltac:(fold stop; lia)) as (_ & _ & _ & _ & _ & _ & _ & E8). fold pos stop in E8. pose proof (ResTree.text_size_nonneg t) as Z2.
    assert (16 <= table_size t) by (destruct t as [| |h l]; try contradiction; rewrite table_dir; pose proof (tables_of_nonneg l); pose proof (zlen_nonneg l); lia). lia. }
  pose proof (headers_like _ _ Sh) as L. exists q. split; [cbn [apply_edit]; rewrite X; reflexivity|]. split; [exact Eq|]. split.
  - apply (section_framed p q (Resources t i off strip) pos out L Os).
    + intros k Hk N. cbn [overwrites first_byte table_stop] in N. fold pos stop in N. lia.
    + intros id d N Hd. apply Od; [|exact Hd]. intros ->. apply N. left. reflexivity.
  - exists (s_va s), out, [(dir_resource, (s_va s + pos, stop - pos))]. cbn [first_byte table_stop section_of entries]. fold pos stop. split; [lia|].
    split; [apply (section_shown a p q i pos out s Eq (proj1 (proj2 L)) Os Hs ltac:(lia) ltac:(lia)); exact Bv|].
    split; [apply Forall_cons; [split; [exact (proj1 Od)|left; reflexivity]|apply Forall_nil]|].
    intros r Er Lr Sr Dr. apply Forall_inv in Dr. cbn [fst snd] in Dr. destruct (shown_block a r i _ pos out Er Sr) as (v' & t' & Bv' & Hv' & Ht & Va & Lv & Hl).
    pose proof (like_trans _ _ _ L Lr) as (_ & Sa & Nr & _).
    destruct (dir_is_at (hl r) dir_resource (s_va s + pos) (stop - pos)) as (G1 & G2 & _); [exact Dr|change (nrva (hl r)) with (nrva r); unfold dir_resource in *; lia|change (nrva (hl r)) with (nrva r); lia|lia|].
    exists (counted (sort_tree t)). split; [apply (Rd (hl r) v' Bv' Hv' G2 G1)|apply canonical_sorted; assumption].
Qed.
Lemma imports_step a p libs i o : editable a p -> admissible p (Imports libs i o) -> edit_done a p (Imports libs i o).
Proof.
  intros Ed (A & Ns & V & (start & F) & H & H2 & Hh & (s & Hs & Hb) & Rc).
  assert (Nr : Forall (fun l => stays o l && o_rewrite o = false) libs) by (revert Ns; apply Forall_impl; intros l ->; reflexivity).
  assert (Rc2 : Forall (recoverable (hl p) i o) libs).
  { rewrite Forall_forall in *. intros l Hl. specialize (Rc l Hl). specialize (Ns l Hl). unfold recoverable in *. rewrite Ns in *. exact Rc. }
  destruct (imports_saved p libs i o start s a Ed A Nr V F H H2 Hh Hs Hb Rc2) as (q & w & X & Eq & _).
  destruct (rebuild_imports_strong p libs i o start A Nr V F (editable_dirs _ _ Ed) H H2) as (q2 & s2 & Hs2 & X2 & Os & Sh & _ & Id & _ & _ & (out & t0 & Lo & Ht0 & Sp0 & By & Rd)).
  rewrite Hs in Hs2. injection Hs2 as <-. rewrite X in X2. injection X2 as <- ->.
  set (pos := o_offset o) in *. set (T := total library_text_size libs) in *. set (size := import_size p libs o) in *.
  unfold import_directories in Id. rewrite Hh in Id. destruct Id as (Id1 & Id2 & Id3).
  pose proof (headers_like _ _ Sh) as L. exists q. split; [cbn [apply_edit]; rewrite X; reflexivity|]. split; [exact Eq|].
  destruct Os as (_ & Oth & s' & t & Hs' & Ht & _ & Va & _ & _ & _ & Sp & Fb). rewrite Hs in Hs'. injection Hs' as <-. rewrite Ht in Ht0. injection Ht0 as <-. split.
  - split; [exact L|]. split.
    + intros j x Hx. cbn [section_of]. destruct (Nat.eq_dec j i) as [->|Nj].
      * rewrite Hs in Hx. injection Hx as <-. exists t. do 3 (split; [assumption|]). intros k Hk N. cbn [overwrites first_byte] in N. apply Fb. fold pos in N. lia.
      * exists x. rewrite Oth by exact Nj. split; [exact Hx|]. split; [reflexivity|]. split; [lia|reflexivity].
    + intros id d N Hd. cbn [entries] in N. apply Id3; [|intros [Z1 Z2]|exact Hd].
      * intros ->. apply N. left. reflexivity.
      * apply N. right. rewrite Z1. left. congruence.
  - exists (s_va s), out, [(dir_import, (s_va s + (pos + T), size - T))]. cbn [first_byte table_stop section_of entries]. fold pos.
    rewrite (import_size_plus p q) by apply L. fold size. split; [lia|]. pose proof L as (Pl & Sa & Nv & _).
    split; [exists t; rewrite Sa; repeat (split; [assumption|]); exact By|].
    split; [apply Forall_cons; [split; [exact Id1|left; reflexivity]|apply Forall_nil]|].
    intros r Er Lr Sr Dr. apply Forall_inv in Dr. cbn [fst snd] in Dr. destruct (shown_block a r i _ pos out Er Sr) as (v' & t' & Bv' & Hv' & Ht' & Va' & Lv & Hl).
    pose proof (like_trans _ _ _ L Lr) as (Pr & _ & Nr' & _). destruct (Rd (hl r) v' Bv' Hv' Pr Ns Rc Hb) as (ms & M1 & M2). exists ms. split; [|exact M2].
    destruct (editable_views a r Er) as [Ad Vw].
    assert (Rdb : readable (hl r)). { pose proof Er as (((_ & _ & _ & _ & _ & _ & Gd & Wn & Ws & _) & _) & _). split; [exact Gd|]. split; [exact Wn|]. split; [exact Ws|]. split; [apply Forall_nil|reflexivity]. }
    apply (imports_exact (hl r) Rdb Ad Vw (s_va s + (pos + T)) (size - T)); [exact Dr|change (nrva (hl r)) with (nrva r); lia| |exact M1].
    pose proof (ImportFacts.total_nonneg library_text_size libs ltext_nonneg). pose proof F as (_ & _ & s' & Hs'' & Hz & _). rewrite Hs in Hs''. injection Hs'' as <-. fold T in H0. lia.
Qed.
Lemma fits_counts plus h n m : 0 <= n < 2^16 -> 0 <= m < 2^32 -> fits (nt_widths plus) (nt_fields plus h) -> fits (nt_widths plus) (nt_fields plus (set_h_imagesize m (set_h_nsections n h))).
Proof.
  intros A B F. destruct h. cbn [set_h_imagesize set_h_nsections]. destruct plus; cbn [nt_widths nt_fields fits] in *; match goal with K : _ /\ _ /\ _ /\ _ |- _ => revert K end; intros K; repeat (destruct K as [? K]; split; [assumption || (cbn; lia)|]); exact K.
Qed.
Lemma ceil_down n a b : power_of_two a -> power_of_two b -> a <= b -> ceil_mult (ceil_mult n a) b = ceil_mult n b.
Proof.
  intros Pa Pb H. pose proof (pow2_pos _ Pa) as A0. pose proof (pow2_pos _ Pb) as B0. destruct (ceil_mult_least n a A0) as (A1 & A2 & A3 & A4). destruct (ceil_mult_least n b B0) as (B1 & B2 & B3 & B4).
  destruct (ceil_mult_least (ceil_mult n a) b B0) as (C1 & C2 & C3 & C4). pose proof (pow2_divide _ _ Pa Pb H) as D.
  assert (ceil_mult n a <= ceil_mult n b) by (apply A4; [apply (Z.divide_trans _ b); assumption|lia]). specialize (C4 _ B1 H0). specialize (B4 _ C1 ltac:(lia)). lia.
Qed.
Lemma section_step a p s auto : editable a p -> admissible p (NewSection s auto) -> edit_done a p (NewSection s auto).
Proof.
  intros Ed (Ws & Hd & Hv & Hne & Hn & Hau & (start & IO & Hend)). pose proof IO as (G & W & Dv & S0 & C & Ce). pose proof G as (Ps & Pf & L). pose proof (pow2_pos _ Ps) as Ps0. pose proof (pow2_pos _ Pf) as Pf0.
  pose proof Ed as (((Wm & Wd & Wz & Wl & Wst & Wf & Wdi & Wn & _ & Wb & Wfl) & L1 & L2 & L3 & L4 & L5 & _ & L6 & (start0 & S1 & S2 & S3 & S4)) & U & R & Pa & Ha). pose proof (pow2_pos _ Pa) as Pa0.
  pose proof (pow2_le31 _ Ps ltac:(lia)) as Hs31.
  assert (Es : start = start0).
  { destruct (p_sections p) as [|x l]; [change (zlen (@nil section)) with 0 in L6; lia|]. destruct C as [<- _]. destruct S3 as [<- _]. reflexivity. }
  subst start0.
  destruct (proj1 (add_section_succeeds p s auto G Ws Hd) (conj Hn Hne)) as (q & E).
  assert (Ne : p_sections p <> []) by (intros K; rewrite K in L6; change (zlen (@nil section)) with 0 in L6; lia).
  assert (Hlast : forall t, nth_error (p_sections p) (length (p_sections p) - 1) = Some t -> s_vsize t <> 0 \/ (raw_view t = [] /\ s_rawsize t = 0)).
  { intros t Ht. left. destruct (R _ t Ht) as (_ & V & _). lia. }
  destruct (add_section_spec p start s auto q IO Ne Hlast Ws Hd Hv E) as (olds & snew & Q1 & Q2 & Q3 & Q4 & Q5 & Q6 & Q7 & Q8 & Q9 & Q10 & Q11 & Q12 & Q13 & Q14 & Q15 & Q16).
  assert (Len : length olds = length (p_sections p)) by (symmetry; clear -Q2; induction Q2; cbn [length]; congruence).
  (* the new image in detail *)
  unfold add_section in E. apply bind_ok in E as [u [E0 E]]. apply bind_ok in E as [s1 [E1 E]].
  destruct (prepare_section_ok _ _ _ _ Pf Ps L Ws Hd Hv Hs31 E1) as (P1 & _ & _ & P4 & P5). cbn zeta in P1, P4.
  set (raw := ceil_mult (zlen (raw_view s)) (falign p)) in *.
  destruct (rev (p_sections p)) as [|last t0] eqn:Rv; [apply rev_nil in Rv; congruence|].
  apply rev_last in Rv. set (pre := rev t0) in *.
  assert (Hnl : nth_error (p_sections p) (length (p_sections p) - 1) = Some last).
  { rewrite Rv, app_length. cbn [length]. replace (length pre + 1 - 1)%nat with (length pre) by lia. rewrite nth_error_app2, Nat.sub_diag by lia. reflexivity. }
  set (last' := if auto then _ else last) in E. set (sva := align_up _ (salign p)) in E. cbv zeta in E.
  match type of E with Ok (set_size_of_image ?x (set_number_of_sections ?y ?z)) = _ => set (isz := x) in E; set (nse := y) in E end. injection E as E.
  assert (Qs : p_sections q = upd (p_sections p) (length (p_sections p) - 1) last' ++ [set_s_va sva s1]) by (rewrite <- E; reflexivity).
  assert (Eo : olds = upd (p_sections p) (length (p_sections p) - 1) last' /\ snew = set_s_va sva s1) by (rewrite Qs in Q1; apply app_inj_tail in Q1 as [K1 K2]; split; congruence).
  destruct Eo as [Eo En].
  assert (Hq : forall j x, nth_error (p_sections q) j = Some x -> (exists y, nth_error (p_sections p) j = Some y /\ (x = y /\ S j <> length (p_sections p) \/ S j = length (p_sections p) /\ x = last' /\ y = last)) \/ (j = length (p_sections p) /\ x = snew)).
  { intros j x Hj. rewrite Q1 in Hj. destruct (Nat.lt_ge_cases j (length olds)) as [Lt|Ge].
    - rewrite nth_error_app1 in Hj by exact Lt. left. rewrite Eo in Hj. destruct (Nat.eq_dec j (length (p_sections p) - 1)) as [->|Nj].
      + rewrite nth_error_upd_same in Hj by (rewrite <- Len; lia). injection Hj as <-. exists last. split; [exact Hnl|]. right. split; [lia|]. split; reflexivity.
      + rewrite nth_error_upd_other in Hj by congruence. exists x. split; [exact Hj|]. left. split; [reflexivity|]. lia.
    - right. assert (j = length olds). { assert (nth_error (olds ++ [snew]) j <> None) as K by congruence. apply nth_error_Some in K. rewrite app_length in K. cbn [length] in K. lia. }
      subst j. rewrite nth_error_app2, Nat.sub_diag in Hj by lia. injection Hj as <-. split; [exact Len|reflexivity]. }
  assert (Ul : s_old last = None) by (exact (nth_Forall _ _ _ _ U Hnl)).
  destruct (R _ last Hnl) as (Wla & Vla & Rla & Zla & Cla & _).
  assert (Rl : raw_view last = s_data last) by (unfold raw_view, unmap_virtual; rewrite Ul; reflexivity).
  assert (Spl : span (salign p) last = ceil_mult (s_vsize last) (salign p)) by (unfold span; replace (s_vsize last =? 0) with false by lia; reflexivity).
  assert (Sp31 : span (salign p) last <= 2^31).
  { rewrite Spl. apply (ceil_mult_least (s_vsize last) (salign p) Ps0); [apply pow2_divide; [exact Ps|exists 31; split; [lia|reflexivity]|exact Hs31]|lia]. }
  assert (Ell : s_old last' = None /\ s_vsize last' = s_vsize last /\ raw_view last' = raw_view last /\ s_va last' = s_va last /\ zlen (raw_view last) <= s_rawsize last' <= 2^31 /\ ceil_mult (s_rawsize last') a <= span (salign p) last).
  { unfold last'. destruct auto.
    - assert (Um : unmap_virtual last = last) by (unfold unmap_virtual; rewrite Ul; reflexivity). rewrite Um.
      pose proof (zlen_nonneg (s_data last)) as Zd. destruct (ceil_mult_least (zlen (s_data last)) (falign p) Pf0) as (D1 & D2 & D3 & D4).
      assert (Ds : (falign p | span (salign p) last)). { rewrite Spl. apply (Z.divide_trans _ (salign p)); [apply pow2_divide; try assumption; lia|apply (ceil_mult_least (s_vsize last) (salign p) Ps0)]. }
      specialize (D4 _ Ds ltac:(rewrite <- Rl; lia)). rewrite align_up64_small by (try assumption; lia). rewrite u32_small by lia.
      split; [exact Ul|]. split; [reflexivity|]. split; [unfold raw_view, unmap_virtual; cbn [set_s_rawsize s_old s_data]; rewrite Ul; reflexivity|]. split; [reflexivity|]. cbn [set_s_rawsize s_rawsize]. rewrite Rl. split; [lia|].
      apply (ceil_mult_least _ a Pa0); [|exact D4]. rewrite Spl. apply (Z.divide_trans _ (salign p)); [apply pow2_divide; try assumption; lia|apply (ceil_mult_least (s_vsize last) (salign p) Ps0)].
    - specialize (Hau eq_refl last Hnl). repeat (split; [first [assumption|reflexivity]|]). split; [lia|exact Cla]. }
  destruct Ell as (El1 & El2 & El3 & El4 & El5 & El6).
  assert (Spl' : span (salign p) last' = span (salign p) last) by (unfold span; rewrite El2; replace (s_vsize last =? 0) with false by lia; reflexivity).
  assert (Sn : s_old snew = None /\ s_vsize snew = (if s_vsize s =? 0 then raw else Z.max raw (ceil_mult (s_vsize s) (salign p))) /\ 0 < s_vsize snew <= 2^31).
  { rewrite En. cbn [set_s_va s_old s_vsize]. split; [rewrite P1; cbn [set_s_vsize set_s_rawsize s_old]; unfold unmap_virtual; destruct (s_old s) eqn:Eso; [reflexivity|exact Eso]|]. split; [rewrite P1; reflexivity|exact P5]. }
  destruct Sn as (Sn1 & Sn2 & Sn3). destruct (wf_ranges s Ws) as (_ & _ & V0 & _). pose proof (zlen_nonneg (raw_view s)) as Z0.
  destruct (ceil_mult_least (zlen (raw_view s)) (falign p) Pf0) as (F1 & F2 & F3 & F4). fold raw in F1, F2, F3, F4.
  assert (Spn : span (salign p) snew = ceil_mult (s_vsize snew) (salign p)) by (unfold span; replace (s_vsize snew =? 0) with false by lia; reflexivity).
  assert (Spn2 : span (salign p) snew = ceil_mult (Z.max (zlen (raw_view s)) (s_vsize s)) (salign p)).
  { rewrite Spn, Sn2. set (m := Z.max (zlen (raw_view s)) (s_vsize s)). destruct (ceil_mult_least m (salign p) Ps0) as (M1 & M2 & M3 & M4).
    destruct (s_vsize s =? 0) eqn:E9; [unfold raw; rewrite ceil_down by (try assumption; lia); f_equal; unfold m; unfold is_u32 in V0; lia|].
    destruct (ceil_mult_least (s_vsize s) (salign p) Ps0) as (N1 & N2 & N3 & N4). specialize (N4 _ M1 ltac:(lia)).
    assert (raw <= ceil_mult m (salign p)) by (apply F4; [apply (Z.divide_trans _ (salign p)); [apply pow2_divide; try assumption; lia|exact M1]|lia]).
    destruct (ceil_mult_least (Z.max raw (ceil_mult (s_vsize s) (salign p))) (salign p) Ps0) as (O1 & O2 & O3 & O4). specialize (O4 _ M1 ltac:(lia)). specialize (M4 _ O1 ltac:(lia)). lia. }
  assert (Dsn : (salign p | span (salign p) snew)) by (rewrite Spn; apply (ceil_mult_least (s_vsize snew) (salign p) Ps0)).
  assert (Rn : ceil_mult (s_rawsize snew) a <= span (salign p) snew).
  { rewrite Q6. apply (ceil_mult_least _ a Pa0); [apply (Z.divide_trans _ (salign p)); [apply pow2_divide; try assumption; lia|exact Dsn]|]. apply F4; [apply (Z.divide_trans _ (salign p)); [apply pow2_divide; try assumption; lia|exact Dsn]|exact Q11]. }
  assert (Ce' : chain_end (salign p) start (p_sections q) < 2^32) by (rewrite Q1, chain_end_last; unfold send; rewrite Q9, Spn2; exact Hend).
  assert (Lq : length (p_sections q) = S (length (p_sections p))) by (rewrite Q1, app_length, Len; cbn [length]; lia).
  assert (Nt : p_nt q = set_h_imagesize isz (set_h_nsections nse (p_nt p))) by (rewrite <- E; reflexivity).
  assert (Lk : like p q). { rewrite <- E. unfold like, clear_flag, check_characteristics_flag. repeat (split; [reflexivity|]). split; [intros K; exact K|reflexivity]. }
  exists q. split; [cbn [apply_edit]; unfold add_section; rewrite E0, E1; cbn [bind]; rewrite <- E; unfold pre in Rv; clear -Rv; apply (f_equal (@rev section)) in Rv; rewrite rev_app_distr, rev_involutive in Rv; cbn [rev app] in Rv; rewrite Rv; reflexivity|].
  assert (Eq : editable a q).
  { split; [|split; [|split]].
    - split.
      { unfold image_wf. rewrite Nt. rewrite <- E. cbn [set_size_of_image set_number_of_sections with_nt set_p_nt set_p_sections p_magic p_dosmid p_lfanew p_stub p_plus p_full]. repeat (split; [assumption|]).
        split; [apply fits_counts; [unfold nse, u16; apply Z.mod_pos_bound; lia|unfold isz; apply u32_range|exact Wf]|]. split; [exact Wdi|]. split; [exact Wn|]. split; [rewrite <- E in Q13; exact Q13|]. split; assumption. }
      replace (p_stub q) with (p_stub p) by (rewrite <- E; reflexivity). replace (p_magic q) with (p_magic p) by (rewrite <- E; reflexivity). replace (p_plus q) with (p_plus p) by (rewrite <- E; reflexivity).
      rewrite Nt. repeat (split; [assumption|]). split; [rewrite <- E; exact G|]. split; [unfold zlen in *; rewrite Lq; lia|]. exists start. replace (hdrsize q) with (hdrsize p) by (rewrite <- E; reflexivity). replace (salign q) with (salign p) by (rewrite <- E; reflexivity).
      repeat (split; [assumption|]). exact Ce'.
    - apply Forall_forall. intros x Hx. apply In_nth_error in Hx as (j & Hj). destruct (Hq j x Hj) as [(y & Hy & [[-> _]|(_ & -> & ->)])|[_ ->]]; [exact (nth_Forall _ _ _ _ U Hy)|exact El1|exact Sn1].
    - intros j x Hj. replace (salign q) with (salign p) by (rewrite <- E; reflexivity). pose proof (nth_Forall _ _ _ _ Q13 Hj) as Wx. destruct (Hq j x Hj) as [(y & Hy & [[-> Nj]|(Ej & -> & ->)])|[Ej ->]].
      + destruct (R j y Hy) as (X1 & X2 & X3 & X4 & X5 & X6). repeat (split; [assumption|]). intros _. exact (X6 Nj).
      + split; [exact Wx|]. rewrite El2, El3, Spl'. repeat (split; [assumption|]). split; [lia|]. split; [exact Zla|]. split; [exact El6|]. intros _. destruct (ceil_mult_least (s_rawsize last') a Pa0) as (_ & X & _). lia.
      + split; [exact Wx|]. split; [lia|]. split; [lia|]. rewrite Q5. split; [exact Q11|]. split; [exact Rn|]. intros K. lia.
    - replace (salign q) with (salign p) by (rewrite <- E; reflexivity). split; assumption. }
  split; [exact Eq|]. split.
  - split; [exact Lk|]. split; [|intros id d _ Hdi; unfold dir_is in *; rewrite <- E; exact Hdi].
    intros j x Hx. destruct (nth_error (p_sections q) j) as [y|] eqn:Hy; [|apply nth_error_None in Hy; pose proof (nth_lt _ _ _ Hx); lia].
    destruct (Hq j y Hy) as [(z & Hz & [[-> _]|(_ & -> & ->)])|[-> _]]; [| |pose proof (nth_lt _ _ _ Hx); lia]; rewrite Hx in Hz; injection Hz as <-.
    + exists x. split; [reflexivity|]. split; [reflexivity|]. split; [lia|reflexivity].
    + exists last'. split; [reflexivity|]. split; [exact El4|]. split; [lia|]. intros k _ _. unfold byte_of. rewrite El3. reflexivity.
  - cbn [section_of]. destruct (p_sections p) as [|x l] eqn:Ep; [congruence|]. destruct (nth_error (p_sections q) 0) as [y|] eqn:Hy; [|apply nth_error_None in Hy; rewrite Lq in Hy; lia].
    exists (s_va y), [], []. split; [cbn [first_byte table_stop]; change (zlen (@nil Z)) with 0; lia|]. split; [|split; [apply Forall_nil|intros; exact Logic.I]]. exists y. split; [exact Hy|]. split; [reflexivity|]. cbn [first_byte]. split; [lia|].
    change (zlen (@nil Z)) with 0. split; [|intros k Hk; lia]. rewrite Z.add_0_r. pose proof Eq as (_ & _ & Rq & _). destruct (Rq _ _ Hy) as (_ & _ & _ & Zy & _). pose proof (zlen_nonneg (raw_view y)). lia.
Qed.
Lemma shown_part q i va pos out k e : shown q i va pos out -> 0 <= k -> k + zlen e <= zlen out -> (forall j, 0 <= j < zlen e -> nth (Z.to_nat (k + j)) out 0 = nth (Z.to_nat j) e 0) -> shown q i va (pos + k) e.
Proof.
  intros (t & Ht & Va & Hp & Hl & Hb) Hk Le He. exists t. split; [exact Ht|]. split; [exact Va|]. split; [lia|]. split; [lia|].
  intros j Hj. rewrite <- Z.add_assoc, Hb by lia. apply He. exact Hj.
Qed.
Definition bytes_from (x : section) (pos n : Z) : list Z := map (fun k => byte_of x (pos + Z.of_nat k)) (seq 0 (Z.to_nat n)).
Lemma zlen_bytes_from x pos n : 0 <= n -> zlen (bytes_from x pos n) = n.
Proof. intros H. unfold bytes_from. rewrite zlen_map. unfold zlen. rewrite seq_length. lia. Qed.
Lemma nth_bytes_from x pos n k : 0 <= k < n -> nth (Z.to_nat k) (bytes_from x pos n) 0 = byte_of x (pos + k).
Proof.
  intros H. unfold bytes_from. rewrite (nth_indep _ 0 (byte_of x (pos + Z.of_nat 0))) by (rewrite map_length, seq_length; lia).
  rewrite (map_nth (fun k => byte_of x (pos + Z.of_nat k)) (seq 0 (Z.to_nat n)) 0%nat). rewrite seq_nth by lia. f_equal. lia.
Qed.
Lemma tls_step a p t i off d c strip : editable a p -> admissible p (Tls t i off d c strip) -> edit_done a p (Tls t i off d c strip).
Proof.
  intros Ed (Ho & H8 & V & Z0 & (start & F) & Hp & H & B & HL & Hcb & (s & Hs & Hr & G & Hd & Hc)).
  pose proof H8 as (m8 & E8). assert (Hw : Z.of_nat (word_size p) = 4 \/ Z.of_nat (word_size p) = 8) by (unfold word_size; destruct (p_plus p); lia).
  assert (Ep : ceil_mult off (Z.of_nat (word_size p)) = off).
  { destruct (ceil_mult_least off (Z.of_nat (word_size p)) ltac:(lia)) as (_ & Q2 & _ & Q4). specialize (Q4 off). apply Z.le_antisymm; [apply Q4; [destruct Hw as [-> | ->]; [exists (2 * m8)|exists m8]; lia|lia]|exact Q2]. }
  pose proof (tls_grown_saved p start i t off strip s a) as T1. pose proof (rebuild_tls_grown p start i t off true strip s) as T2. cbv zeta in T1, T2. rewrite Ep in T1, T2.
  destruct (T1 Ed Ho V Z0 F Hp H B Hs HL Hr G Hcb) as (q & X & Eq & _).
  pose proof Ed as (_ & U & _).
  destruct (T2 Ho V Z0 F Hp U (editable_dirs _ _ Ed) H B Hs HL Hr G Hcb) as (q2 & X2 & Sh & _ & Od & Oth & _ & _ & x & Hx & _ & _ & Va & _ & Sp & Fr & He & Hda & Hca). clear T1 T2.
  rewrite X in X2. injection X2 as <-. set (e := enc_fields (tls_widths p) _) in *.
  assert (Le : zlen e = tls_bytes p) by (unfold e; rewrite enc_fields_length by reflexivity; symmetry; exact (eq_sym (tls_size_eq p))).
  assert (Lc : zlen (callback_table p t) = Z.of_nat (word_size p) * (zlen (t_list t) + 1)).
  { unfold callback_table. change (concat (map (le (word_size p)) ?l)) with (wordn (word_size p) l). rewrite wordn_len, zlen_app, zlen_map. reflexivity. }
  assert (Tb : 24 <= tls_bytes p) by (unfold tls_bytes; destruct (p_plus p); lia).
  pose proof V as (_ & _ & _ & _ & Vse & _ & _ & _ & _ & _ & _ & Vs1 & _). destruct G as (_ & G1 & G2 & _).
  pose proof (zlen_nonneg (t_list t)) as Nl. pose proof (zlen_nonneg (t_data t)) as Nd.
  set (E := Tls t i off d c strip) in *. set (fb := first_byte E). set (stop := table_stop p E).
  assert (Q1 : 0 <= fb <= off /\ off + tls_bytes p <= stop).
  { unfold fb, stop, E. cbn [first_byte table_stop]. destruct (Z.eqb_spec (t_start t) 0) as [Ea|Ea]; destruct (Z.eqb_spec (t_callbacks t) 0) as [Eb|Eb]; try (destruct (Hd Ea) as [Hd1 _]; destruct (G1 Ea) as [[Ga _] _]); try (specialize (Hc Eb); destruct (G2 Eb) as [[Gb _] _]); clear -Ho Hc Hd1 Ga Gb || idtac; lia. }
  assert (Q2 : t_start t <> 0 -> t_start t = s_va s + d /\ 0 < zlen (t_data t) /\ fb <= d /\ d + zlen (t_data t) <= stop /\ t_end t = s_va s + d + zlen (t_data t)).
  { intros Ea. destruct (Hd Ea) as [Hd1 Hd2]. specialize (Vs1 Ea). assert (0 < zlen (t_data t)) by (destruct (t_data t); [congruence|rewrite zlen_cons; pose proof (zlen_nonneg l); lia]).
    unfold fb, stop, E. cbn [first_byte table_stop]. replace (t_start t =? 0) with false by lia. lia. }
  assert (Q3 : t_callbacks t <> 0 -> t_callbacks t = s_va s + c /\ fb <= c /\ c + zlen (callback_table p t) <= stop).
  { intros Eb. specialize (Hc Eb). rewrite Lc. unfold fb, stop, E. cbn [first_byte table_stop]. replace (t_callbacks t =? 0) with false by lia. split; [exact Hc|]. lia. }
  assert (Q4 : stop <= zlen (raw_view x)).
  { destruct (holds_range _ _ _ He) as [_ R1]. rewrite Le in R1. unfold stop, E. cbn [table_stop].
    assert (R2 : (if t_start t =? 0 then off else d + zlen (t_data t)) <= zlen (raw_view x)).
    { destruct (Z.eqb_spec (t_start t) 0) as [Ea|Ea]; [lia|]. destruct (Q2 Ea) as (D1 & D2 & _). destruct (Hda Ea) as [Hh|Hh]; [|rewrite Hh in D2; change (zlen (@nil Z)) with 0 in D2; lia]. destruct (holds_range _ _ _ Hh) as [_ R2]. lia. }
    assert (R3 : (if t_callbacks t =? 0 then off else c + Z.of_nat (word_size p) * (zlen (t_list t) + 1)) <= zlen (raw_view x)).
    { destruct (Z.eqb_spec (t_callbacks t) 0) as [Eb|Eb]; [lia|]. destruct (Q3 Eb) as (D1 & _). destruct (holds_range _ _ _ (Hca Eb)) as [_ R3]. rewrite <- Lc. lia. }
    lia. }
  pose proof (headers_like _ _ Sh) as L. exists q. split; [unfold E; cbn [apply_edit]; rewrite X; reflexivity|]. split; [exact Eq|]. split.
  - split; [exact L|]. split.
    + intros j y Hy. unfold E. cbn [section_of]. fold E. destruct (Nat.eq_dec j i) as [->|Nj].
      * rewrite Hs in Hy. injection Hy as <-. exists x. do 3 (split; [assumption|]). intros k Hk N. change (overwrites p E k) with (fb <= k < stop) in N.
        assert (N' : k < fb \/ stop <= k) by lia. apply Fr; [exact Hk|lia| |].
        -- intros Ea. destruct (Q2 Ea) as (D1 & D2 & D3 & D4 & D5). lia.
        -- intros Eb. destruct (Q3 Eb) as (D1 & D2 & D3). lia.
      * exists y. rewrite Oth by exact Nj. split; [exact Hy|]. split; [reflexivity|]. split; [lia|reflexivity].
    + intros id dd N Hdd. apply Od; [|exact Hdd]. intros ->. apply N. left. reflexivity.
  - assert (Lo : zlen (bytes_from x fb (stop - fb)) = stop - fb) by (apply zlen_bytes_from; lia).
    exists (s_va s), (bytes_from x fb (stop - fb)), [(dir_tls, (s_va s + off, tls_bytes p))]. rewrite (table_stop_plus p q) by apply L. fold fb stop. rewrite Lo. split; [lia|].
    change (section_of E) with i. split; [|split].
    + exists x. split; [exact Hx|]. split; [exact Va|]. rewrite Lo. split; [lia|]. split.
      * pose proof Eq as (_ & _ & Rq & _). destruct (Rq _ _ Hx) as (_ & _ & _ & Zx & _). lia.
      * intros k Hk. rewrite nth_bytes_from by lia. reflexivity.
    + apply Forall_cons; [split; [exact (proj1 Od)|left; reflexivity]|apply Forall_nil].
    + intros r Er Lr Sr Dr. apply Forall_inv in Dr. cbn [fst snd] in Dr. pose proof (like_trans _ _ _ L Lr) as (Pl & _ & Nr & _ & _ & Im).
      assert (Pc : forall k w, holds (raw_view x) k w -> fb <= k -> k + zlen w <= stop -> 0 < zlen w -> TlsRound.shows (hl r) (s_va s + k) w).
      { intros k w Hw' K1 K2 K3. assert (S1 : shown r i (s_va s) (fb + (k - fb)) w).
        { apply (shown_part r i (s_va s) fb _ (k - fb) w Sr); [lia|rewrite Lo; lia|]. intros j Hj. rewrite nth_bytes_from by lia. replace (fb + (k - fb + j)) with (k + j) by lia. unfold byte_of. apply holds_nth; assumption. }
        replace (fb + (k - fb)) with k in S1 by lia. destruct (shown_block a r i _ k w Er S1) as (v & tt & Bv & Hv & _ & _ & _ & Hl). exists (s_va s), v. split; [exact Bv|]. split; [lia|]. replace (s_va s + k - s_va s) with k by lia. exact Hv. }
      unfold E. cbn [reads_back]. pose proof F as (_ & _ & s' & Hs' & Hz & _). rewrite Hs in Hs'. injection Hs' as <-.
      destruct (dir_is_at (hl r) dir_tls (s_va s + off) (tls_bytes p)) as (D1 & D2 & _); [exact Dr|change (nrva (hl r)) with (nrva r); unfold dir_tls in *; lia|change (nrva (hl r)) with (nrva r); lia|lia|].
      apply (tls_read p (hl r) t (s_va s + off) Pl Im B V D1 D2); [|intros Ea|intros Eb|exact Hcb].
      * apply (Pc off e); [exact He|apply Q1|rewrite Le; apply Q1|rewrite Le; lia].
      * destruct (Q2 Ea) as (C1 & C2 & C3 & C4 & _). rewrite C1. destruct (Hda Ea) as [Hh|Hh]; [|rewrite Hh in C2; change (zlen (@nil Z)) with 0 in C2; lia]. rewrite C1 in Hh. replace (s_va s + d - s_va s) with d in Hh by lia. apply Pc; assumption.
      * destruct (Q3 Eb) as (C1 & C2 & C3). rewrite C1. specialize (Hca Eb). rewrite C1 in Hca. replace (s_va s + c - s_va s) with c in Hca by lia. apply Pc; [exact Hca|exact C2|exact C3|rewrite Lc; lia].
Qed.
Lemma one_edit a p e : editable a p -> admissible p e -> edit_done a p e.
Proof. destruct e; [apply exports_step|apply relocations_step|apply resources_step|apply imports_step|apply section_step|apply tls_step]. Qed.

(** ** A history of edits *)
Lemma edits_ok a : forall es p p0 done, editable a p -> like p0 p -> allowed p es -> Forall (fun e => found a p0 p e /\ Forall (spares p0 e) es) done ->
  exists q, apply_edits p es = Ok q /\ editable a q /\ like p0 q /\ Forall (found a p0 q) (done ++ es).
Proof.
  induction es as [|e es IH]; intros p p0 done Ed L Al Fd.
  - exists p. split; [reflexivity|]. split; [exact Ed|]. split; [exact L|]. rewrite app_nil_r. revert Fd. apply Forall_impl. intros x [X _]. exact X.
  - destruct Al as (Ad & Sp & Nx). destruct (one_edit a p e Ed Ad) as (q & E & Eq & Fr & Fo). cbn [apply_edits]. rewrite E. cbn [bind].
    pose proof Fr as (Lq & _). pose proof L as (Pl & _).
    destruct (IH q p0 (done ++ [e]) Eq (like_trans _ _ _ L Lq) (Nx q E)) as (r & R1 & R2 & R3 & R4).
    + apply Forall_app. split.
      * revert Fd. apply Forall_impl. intros x [X1 X2]. apply Forall_cons_iff in X2 as [X2 X3]. split; [|exact X3]. apply (found_kept a p0 p q x e X1 Fr). apply (spares_plus p0 p); [exact Pl|exact X2].
      * apply Forall_cons; [|apply Forall_nil]. split; [apply (found_plus a p p0); [symmetry; exact Pl|exact Fo]|]. revert Sp. apply Forall_impl. intros x. apply spares_plus. symmetry. exact Pl.
    + exists r. rewrite <- app_assoc in R4. repeat (split; [assumption|]). exact R4.
Qed.
Lemma reads_kept p q r e : tables_kept q r -> reads_back p (hl q) e -> reads_back p r e.
Proof.
  intros (K1 & K2 & K3 & K4 & _ & K6 & _). destruct e; cbn [reads_back].
  - intros (x & l' & m & X1 & X2 & X3). exists x, l', m. split; [exact (K1 true _ X1)|]. split; [exact (K1 false _ X2)|exact X3].
  - intros [X1 X2]. split; [exact (K3 true _ X1)|exact (K3 false _ X2)].
  - intros (t' & X1 & X2). exists t'. split; [exact (K6 _ X1)|exact X2].
  - intros (ms & X1 & X2). exists ms. split; [exact (K2 _ X1)|exact X2].
  - intros _. exact Logic.I.
  - intros X. exact (K4 _ X).
Qed.
Theorem history a p es : editable a p -> 0 < nrva p -> allowed p es ->
  exists q, apply_edits p es = Ok q /\ editable a q /\ (headers_below q -> Forall (reads_back p q) es) /\ forall r, saved q a r -> Forall (reads_back p r) es.
Proof.
  intros Ed N Al. destruct (edits_ok a es p p [] Ed (like_refl p) Al (Forall_nil _)) as (q & E1 & E2 & E3 & E4). cbn [app] in E4. exists q. split; [exact E1|]. split; [exact E2|].
  assert (R : Forall (reads_back p (hl q)) es).
  { revert E4. apply Forall_impl. intros e (va & out & ds & X1 & X2 & X3 & X4). apply (X4 q E2 (like_refl q) X2). revert X3. apply Forall_impl. intros x [X _]. exact X. }
  split.
  - intros Hb. pose proof E2 as ((Wf & _) & _). destruct (sections_seen q Wf Hb) as [(S1 & S2 & S3 & S4 & _ & S5 & S6 & S7) _]. revert R. apply Forall_impl. intros e. apply reads_kept.
    repeat (split; [assumption|]). exact S7.
  - intros r Sv. revert R. apply Forall_impl. intros e. apply reads_kept. apply (saved_tables a q r E2); [|exact Sv]. destruct E3 as (_ & _ & -> & _). exact N.
Qed.
