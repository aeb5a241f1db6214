(** Rewriting import tables where they are: reading back, and the rebuilder. *)
From Verif Require Export RewriteTables.

Section Rw4.
Variables (p : pe) (start : Z) (i : nat) (s : section).
Hypothesis IO : image_ok p start.
Hypothesis Hs : nth_error (p_sections p) i = Some s.
Hypothesis U : unmapped p.
Hypothesis Hz : 0 < s_va s.
Variable o : import_settings.
Hypothesis Fill : o_fill o = false.
Hypothesis Rwt : o_rewrite o = true.
Local Notation n := (word_size p).
Local Notation sz := (Z.of_nat (word_size p)).
Lemma inv_ok P : inv p i s P -> zlen (raw_view s) < 2^31 -> image_ok P start.
Proof. intros [M _] H. apply (mid_ok p start i (zlen (raw_view s))); try assumption. pose proof (zlen_nonneg (raw_view s)). lia. Qed.
Lemma inv_views P : inv p i s P -> (addressable p -> addressable P) /\ (viewable p -> viewable P).
Proof.
  intros I. pose proof I as [M _]. destruct (mid_fields _ _ _ _ M) as (Sa & _). pose proof (mid_length _ _ _ _ M) as Ml.
  assert (K : forall j t, nth_error (p_sections P) j = Some t -> exists sj, nth_error (p_sections p) j = Some sj /\ s_va t = s_va sj /\ aligned_vsize (salign P) t = aligned_vsize (salign p) sj /\ zlen (virt_view (salign P) t) = zlen (virt_view (salign p) sj)).
  { intros j t Ht. destruct (nth_error (p_sections p) j) as [sj|] eqn:Hj; [|apply nth_error_None in Hj; pose proof (nth_lt _ _ _ Ht); lia]. exists sj. split; [reflexivity|]. destruct (inv_nth p i s Hs P j sj I Hj) as (d & Hd & _ & Ld). rewrite Ht in Hd. injection Hd as ->.
    destruct (opened_fields sj d) as (_ & F2 & F3 & _ & _ & F6 & F7 & _). split; [exact F3|]. assert (Av : aligned_vsize (salign P) (opened sj d) = aligned_vsize (salign p) sj) by (unfold aligned_vsize; rewrite Sa, F2, opened_rawsize; reflexivity).
    split; [exact Av|]. pose proof (nth_Forall _ _ _ _ U Hj) as Uj. cbn beta in Uj. rewrite !virt_view_unmapped by assumption. rewrite Av, F6. rewrite <- (raw_view_unmapped _ Uj). rewrite !zlen_app, Ld. reflexivity. }
  split; intros F; apply Forall_forall; intros t Ht; apply In_nth_error in Ht as [j Hj]; destruct (K j t Hj) as (sj & K1 & K2 & K3 & K4); pose proof (nth_Forall _ _ _ _ F K1) as Fj; cbn beta in Fj; rewrite ?K2, ?K3, K4; exact Fj.
Qed.
Lemma at_words P p' j a m l : inv p i s P -> lies p i j a m -> at_ p P j a (wordl p l) -> image_ok p' start -> nth_error (p_sections p') j = nth_error (p_sections P) j -> salign p' = salign p -> p_full p' = p_full p -> p_plus p' = p_plus p ->
  Forall (fun w => 0 <= w < 256 ^ sz) l -> words_at p p' a l.
Proof.
  intros I (sj & Nj & Hj & Va & Hf & Hr & Sp) (sj' & dj & Hj' & Hd & H) IO' Nth Sa Fu Pp F. rewrite Hj in Hj'. injection Hj' as <-. destruct (inv_nth p i s Hs P j sj I Hj) as (dj' & Hd' & Bj & Lj). rewrite (some_opened _ _ _ _ Hd Hd') in Bj, Lj. clear dj' Hd'.
  destruct (opened_fields sj dj) as (_ & _ & F3 & _ & _ & F6 & F7 & F8). rewrite Hd in Nth. pose proof IO as (_ & W & _). pose proof (nth_Forall _ _ _ _ W Hj) as Wj.
  pose proof (store_block p' start j (opened sj dj) (opened sj dj) dj) as Bk. rewrite (put_self _ _ _ Nth) in Bk. rewrite Sa, opened_span, F3 in Bk.
  assert (Bk' : block p' (s_va sj) (dj ++ zeros (span (salign p) sj - zlen dj))).
  { apply Bk; try assumption; try lia; [apply opened_wf; [exact Wj|exact Bj|pose proof (raw_len_wf _ Wj); lia]| |rewrite Fu; exact Hf]. unfold stored. rewrite F7, F8. do 5 (split; [reflexivity|]). apply padded_refl. }
  replace a with (s_va sj + (a - s_va sj)) by lia. apply (block_words p p' Pp sj _ Bk'); [apply holds_ext, H|exact F].
Qed.
Lemma words_first P t l w : words_at p P t (l ++ [w]) -> exists x, word_at P t x.
Proof. destruct l as [|y l]; cbn [app words_at]; intros H; [exists w|exists y]; apply H. Qed.
Lemma kept_back P p' v str dpos ip op l :
  inv p i s P -> image_ok p' start -> (forall j, j <> i -> nth_error (p_sections p') j = nth_error (p_sections P) j) -> salign p' = salign p -> p_full p' = p_full p -> p_plus p' = p_plus p ->
  block p' (s_va s) v -> library_written p s (no_rewrite o) v str dpos ip op l -> table_written p i s o P str l -> stays o l = true -> valid_library l -> recoverable_here p o l -> 0 <= str ->
  str + library_text_size l < zlen v -> s_va s + (str + library_text_size l) < 2^31 ->
  exists m, same_here p o l m /\ forall ls, library_table p' (s_va s + dpos + 20) ls -> library_table p' (s_va s + dpos) (m :: ls).
Proof.
  intros I IO' Nth Sa Fu Pl Bk (Wd & Wb & _ & _) Tw St (V1 & V2 & V3 & V4 & V5) (Nn & Fn & Rc) Hstr Hl Hlow. pose proof (word_size_ok p) as W. rewrite thunk_word in W.
  assert (Er : rewritten o l = true) by (unfold rewritten; rewrite St, Rwt; reflexivity). destruct (Tw Er) as [(j & Lj & Aj) Tb]. rewrite St in Rc.
  pose proof (zlen_nonneg (l_name l)) as Z1. pose proof (total_nonneg import_text_size (l_funcs l) text_size_nonneg) as T2.
  assert (Es : str + library_text_size l = str + (zlen (l_name l) + 1) + total import_text_size (l_funcs l)) by (unfold library_text_size; lia).
  unfold library_blob in Wb. apply holds_app in Wb as [Wn Wb]. assert (Ln : zlen (l_name l ++ [0]) = zlen (l_name l) + 1) by (rewrite zlen_app; reflexivity). rewrite Ln in Wb.
  assert (Tx : text p' (s_va s + str) (l_name l)) by (apply (block_text p p' Pl s v Bk); [exact Wn|exact Nn|lia]).
  set (str1 := str + (zlen (l_name l) + 1)) in *. assert (E1 : str1 = str + (zlen (l_name l) + 1)) by reflexivity. clearbody str1. rewrite Es in Hl, Hlow.
  pose proof (thunk_values_range p p' Pl s Hz (l_funcs l) str1 V5 ltac:(lia) Hlow) as Tr.
  assert (Tz : 0 < 256 ^ sz) by (apply Z.pow_pos_nonneg; lia).
  assert (Tr' : Forall (fun w => 0 <= w < 256 ^ sz) (thunk_values p s str1 (l_funcs l) ++ [0])).
  { apply Forall_app. split; [apply (Forall_impl _ (P := fun w => 0 < w < 256 ^ sz)); [intros; lia|exact Tr]|]. constructor; [lia|constructor]. }
  assert (Tn : Forall (fun w => w <> 0) (thunk_values p s str1 (l_funcs l))) by (apply (Forall_impl _ (P := fun w => 0 < w < 256 ^ sz)); [intros; lia|exact Tr]).
  assert (Im : forall k w f a, nth_error (thunk_values p s str1 (l_funcs l)) k = Some w -> nth_error (l_funcs l) k = Some f -> import_of p' w (back a f)).
  { intros k w f a K1 K2. apply (thunk_import p p' i Pl s v Bk (l_funcs l) str1 k w f a Wb V5 Fn); try assumption; lia. }
  assert (K0 : kept (no_rewrite o) l = true) by exact St.
  set (oft := if o_build o then l_oiat l else 0).
  assert (Sh : SpecReaders.shows p' (s_va s + dpos) (descriptor oft (l_time l) 0 (s_va s + str) (l_iat l))).
  { assert (Ed : oft_of s (no_rewrite o) op l = oft /\ ft_of s (no_rewrite o) ip l = l_iat l) by (unfold oft_of, ft_of; rewrite K0; cbn [no_rewrite o_build o_fill]; rewrite Fill, andb_false_r; split; reflexivity).
    destruct Ed as [-> ->] in Wd. apply (block_shows p' s v Bk); [exact Wd|rewrite descriptor_len; lia]. }
  assert (U0 : is_u32 (s_va s + str)) by (unfold is_u32; lia). assert (U00 : is_u32 0) by (unfold is_u32; lia). assert (Uo : is_u32 oft) by (unfold oft; destruct (o_build o); assumption).
  assert (Nji : forall k a m, lies p i k a m -> k <> i) by (intros k a m (x & K & _); exact K).
  unfold same_here. rewrite St. destruct (both_tables o l) eqn:Eb.
  - destruct (Tb eq_refl) as (jb & Lb & Ab). specialize (Rc eq_refl). pose proof Eb as Eb2. unfold both_tables in Eb2. apply andb_true_iff in Eb2 as [Ebu Eoi]. assert (Eoft : oft = l_oiat l) by (unfold oft; rewrite Ebu; reflexivity). rewrite Ebu, Eoft in *.
    unfold iat_values in Aj. rewrite base_mod_word in Aj.
    assert (Mr : Forall (fun w => 0 <= w < 256 ^ sz) (map (fun f => m_iat f mod 256 ^ sz) (l_funcs l) ++ [0])).
    { apply Forall_app. split; [|constructor; [lia|constructor]]. apply Forall_map, Forall_forall. intros f _. apply Z.mod_pos_bound. exact Tz. }
    pose proof (at_words P p' j _ _ _ I Lj Aj IO' (Nth j (Nji _ _ _ Lj)) Sa Fu Pl Mr) as Bi. pose proof (at_words P p' jb _ _ _ I Lb Ab IO' (Nth jb (Nji _ _ _ Lb)) Sa Fu Pl Tr') as Bw.
    destruct (words_first _ _ _ _ Bi) as (w1 & Wf). destruct (words_first _ _ _ _ Bw) as (w2 & Wg). apply (words_last p p' Pl) in Bi as [Bi Bl]. rewrite zlen_map in Bl.
    destruct (backs_same p p' Pl (map (fun f => m_iat f mod 256 ^ sz) (l_funcs l)) (l_funcs l) (zlen_map _ _)) as [S1 S2].
    exists (mk_library (l_name l) (l_time l) (l_iat l) (l_oiat l) (backs (map (fun f => m_iat f mod 256 ^ sz) (l_funcs l)) (l_funcs l))). cbn [l_name l_time l_iat l_oiat l_funcs].
    split. { split; [reflexivity|]. split; [reflexivity|]. split; [exact S1|]. split; [intros _; split; reflexivity|]. intros _. exact S2. }
    intros ls T. apply (libraries_next p' _ 0 (s_va s + str) w1 w2); cbn [l_name l_time l_iat l_oiat l_funcs]; try assumption; [lia|right; exact Wg|]. apply negb_true_iff in Eoi. rewrite Eoi.
    apply (make_table p p' i Pl (l_funcs l) (l_iat l) (l_oiat l) (map (fun f => m_iat f mod 256 ^ sz) (l_funcs l)) (thunk_values p s str1 (l_funcs l))); try assumption; [apply zlen_map|apply thunk_values_len|exists 0; exact Bl|].
    apply Forall_map. exact Rc.
  - assert (Eoft : oft = 0). { unfold oft. unfold both_tables in Eb. destruct (o_build o); [|reflexivity]. cbn [andb] in Eb. apply negb_false_iff in Eb. lia. }
    rewrite Eoft in *. unfold iat_values in Aj. pose proof (at_words P p' j _ _ _ I Lj Aj IO' (Nth j (Nji _ _ _ Lj)) Sa Fu Pl Tr') as Bw. destruct (words_first _ _ _ _ Bw) as (w1 & Wf). pose proof (words_last p p' Pl _ _ _ Bw) as [Bi Bl]. rewrite thunk_values_len in Bl.
    destruct (backs_same p p' Pl (thunk_values p s str1 (l_funcs l)) (l_funcs l) (thunk_values_len _ _ _ _)) as [S1 S2].
    exists (mk_library (l_name l) (l_time l) (l_iat l) 0 (backs (thunk_values p s str1 (l_funcs l)) (l_funcs l))). cbn [l_name l_time l_iat l_oiat l_funcs].
    split. { split; [reflexivity|]. split; [reflexivity|]. split; [exact S1|]. split; [intros _; split; [reflexivity|symmetry; exact Eoft]|]. discriminate. }
    intros ls T. apply (libraries_next p' _ 0 (s_va s + str) w1 0); cbn [l_name l_time l_iat l_oiat l_funcs]; try assumption; [lia|left; reflexivity|]. cbn [Z.eqb].
    apply (make_table p p' i Pl (l_funcs l) (l_iat l) (l_iat l) (thunk_values p s str1 (l_funcs l)) (thunk_values p s str1 (l_funcs l))); try assumption; [apply thunk_values_len|apply thunk_values_len|exists 0; exact Bl].
Qed.
Lemma libraries_here P p' v E libs : inv p i s P -> image_ok p' start -> image_ok P start -> (forall j, j <> i -> nth_error (p_sections p') j = nth_error (p_sections P) j) -> salign p' = salign p -> p_full p' = p_full p -> p_plus p' = p_plus p ->
  block p' (s_va s) v -> forall str dpos ip op, libraries_written p s (no_rewrite o) v str dpos ip op libs -> tables_written p i s o P str libs -> Forall valid_library libs -> Forall (recoverable_here p o) libs ->
  0 <= str -> 0 <= ip -> 0 <= op -> ip + total (lstep p (no_rewrite o)) libs <= E -> op + total (ostep p (no_rewrite o)) libs <= E -> s_va s + E < 2^32 ->
  str + total library_text_size libs < zlen v -> s_va s + (str + total library_text_size libs) < 2^31 -> holds v (dpos + 20 * zlen libs) (zeros 20) ->
  exists ms, Forall2 (same_here p o) libs ms /\ library_table p' (s_va s + dpos) ms.
Proof.
  intros I IO' IP Nth Sa Fu Pl Bk. pose proof I as [M _]. destruct (mid_fields _ _ _ _ M) as (X1 & X2 & X3 & X4 & X5).
  assert (Se : same_elsewhere P p' i) by (apply (elsewhere_same P p' i start start IP IO' Nth); congruence).
  induction libs as [|l libs IH]; intros str dpos ip op Wl Tl Fv Fr H1 H2 H3 H4 H5 H6 H7 H8 Hzr.
  - exists []. split; [constructor|]. change (@zlen library []) with 0 in Hzr. rewrite Z.mul_0_r, Z.add_0_r in Hzr. apply (libraries_end p' _ 0 0 0 0); try (unfold is_u32; lia). apply (block_shows p' s v Bk); [exact Hzr|]. rewrite descriptor_len; lia.
  - inversion Fv as [|? ? V1 V2]; subst. inversion Fr as [|? ? R1 R2]; subst. rewrite !total_cons in *. rewrite zlen_cons in Hzr. destruct Wl as [W1 W2]. destruct Tl as [Tl1 Tl2]. pose proof (ltext_nonneg l) as T1. pose proof (lstep_le p (no_rewrite o) l) as T3.
    pose proof (total_nonneg library_text_size libs ltext_nonneg) as T4. pose proof (total_nonneg (lstep p (no_rewrite o)) libs (fun x => proj1 (lstep_le p (no_rewrite o) x))) as T5.
    assert (On : forall x, 0 <= ostep p (no_rewrite o) x) by (intros x; unfold ostep; pose proof (table_size_nonneg p x); destruct (wo_of (no_rewrite o) x); lia).
    pose proof (On l) as T6. pose proof (total_nonneg (ostep p (no_rewrite o)) libs On) as T7.
    assert (One : exists m, same_here p o l m /\ forall ls, library_table p' (s_va s + dpos + 20) ls -> library_table p' (s_va s + dpos) (m :: ls)).
    { destruct (stays o l) eqn:St; [apply (kept_back P p' v str dpos ip op l); try assumption; lia|].
      assert (Rc : recoverable P i (no_rewrite o) l).
      { destruct R1 as (N1 & N2 & N3). rewrite St in N3. split; [exact N1|]. replace (stays (no_rewrite o) l) with false by (symmetry; exact St). split; [exact N2|]. cbn [no_rewrite o_build o_fill]. destruct (o_build o); [|split; assumption]. unfold word_size in *. rewrite X5. exact N3. }
      destruct (library_back P p' i Se ltac:(congruence) s v Bk Hz (no_rewrite o) str dpos ip op l) as (m & S1 & S2); try assumption; try lia.
      - unfold library_written, oft_of, ft_of, iat_values, thunk_values, thunk_value, wordl, snap_flag, base_mod, word_size in *. destruct M as (ls & -> & _). exact W1.
      - unfold is_u32; lia.
      - intros _; unfold is_u32; lia.
      - exists m. split; [|exact S2]. destruct S1 as (A1 & A2 & A3 & A4 & A5). unfold same_here. rewrite St. split; [exact A1|]. split; [exact A2|]. split; [exact A3|]. split; [discriminate|]. intros K. unfold word_size in *. rewrite X5 in A5. apply A5. right. exact K. }
    destruct One as (m & S1 & S2).
    destruct (IH (str + library_text_size l) (dpos + 20) (ip + lstep p (no_rewrite o) l) (op + ostep p (no_rewrite o) l) W2 Tl2 V2 R2) as (ms & S3 & S4); try lia.
    { replace (dpos + 20 + 20 * zlen libs) with (dpos + 20 * (1 + zlen libs)) by lia. exact Hzr. }
    exists (m :: ms). split; [constructor; assumption|]. apply S2. rewrite <- Z.add_assoc. exact S4.
Qed.
End Rw4.
Lemma in_other_lies p i t : in_other_section p i t -> exists j, lies p i j (fst t) (snd t).
Proof. intros (j & s & H1 & H2 & H3 & H4 & H5 & H6). exists j, s. unfold occupies in H3. repeat (split; [first [assumption|lia]|]). lia. Qed.
Lemma rewrite_ok p libs i o start s : let size := import_size p libs o in let T := total library_text_size libs in let off := o_offset o in let places := concat (map (old_places p o) libs) in
  0 <= off -> o_rewrite o = true -> o_fill o = false -> Forall valid_library libs -> room p start i (off + size) -> dirs_ok p -> dir_import < nrva p <= 16 -> (o_zero_iat o = true -> dir_iat < nrva p) ->
  unmapped p -> nth_error (p_sections p) i = Some s -> zlen (raw_view s) < 2^31 -> Forall (in_other_section p i) places -> disjoint places ->
  exists p', rebuild_imports p libs i o = Ok (p', (s_va s + (off + T), size - T)) /\
    only_tables p p' i off places /\ same_headers p p' /\ image_ok p' start /\ import_directories p p' o (s_va s + (off + T), size - T) /\
    (Forall (recoverable_here p o) libs -> s_va s + (off + T) < 2^31 -> exists ms, library_table p' (s_va s + (off + T)) ms /\ Forall2 (same_here p o) libs ms) /\
    (readable p -> addressable p -> viewable p -> readable p' /\ addressable p' /\ viewable p').
Proof.
  intros size T off places Ho Rw Fl V R D N N2 U Hs Hl Pf Dj. pose proof R as (IO & Tt & s0 & Hs0 & Hz & Hf & Hv & Hr & Hroom). rewrite Hs in Hs0. injection Hs0 as <-. pose proof (nth_Forall _ _ _ _ U Hs) as Us. cbn beta in Us.
  assert (Lt : Forall (fun t => exists j, lies p i j (fst t) (snd t)) places) by (revert Pf; apply Forall_impl; apply in_other_lies).
  destruct (rewrite_equiv p start i s IO Hs Us ltac:(lia) o Fl libs U Ho V R Lt Dj) as (P & I & Tw & O & E). rewrite E. clear E.
  pose proof (inv_ok p start i s IO o Fl Rw P I Hl) as IP. pose proof I as [M Pi]. pose proof (mid_length _ _ _ _ M) as Ml. destruct (mid_fields _ _ _ _ M) as (X1 & X2 & X3 & X4 & X5).
  assert (Sz : import_size P libs (no_rewrite o) = size) by (unfold import_size, library_table_size, word_size; rewrite X5; reflexivity).
  assert (RP : room P start i (off + size)).
  { split; [exact IP|]. split; [exact Tt|]. exists s. rewrite X1, X2, X3, Ml. do 5 (split; [assumption|]). exact Hroom. }
  assert (Np : nrva P = nrva p) by (unfold nrva; rewrite X4; reflexivity).
  destruct (rebuild_imports_full P libs i (no_rewrite o) start Ho) as (p' & s' & Hs' & E & Ob & Sh & IO' & Id & _ & Rdy & (v & ip & E0 & Bk & Wl & Hzr & Lv & Hip & He1 & He2 & He3) & _); try assumption.
  { apply Forall_forall. intros x _. apply andb_false_r. }
  { rewrite Sz. exact RP. }
  { unfold dirs_ok in *. rewrite X4. exact D. }
  { rewrite Np. exact N. }
  { rewrite Np. exact N2. }
  rewrite Pi in Hs'. injection Hs' as <-. rewrite Sz in E, Id. change (o_offset (no_rewrite o)) with off in *. fold T in E, Id, Wl, Hzr, Lv.
  exists p'. split; [exact E|]. destruct Ob as (Ob1 & Ob2 & s1 & t & Ob3 & Ob4 & Ob5 & Ob6 & Ob7 & Ob8 & Ob9 & Ob10 & Ob11). rewrite Pi in Ob3. injection Ob3 as <-.
  assert (Hd : same_headers p p') by (unfold same_headers in *; rewrite Sh; destruct M as (ls & -> & _); reflexivity).
  split.
  { split; [lia|]. split.
    - intros j sj Nj Hj. destruct (inv_nth p i s Hs P j sj I Hj) as (d & Hdj & _ & Ld). pose proof (nth_Forall _ _ _ _ U Hj) as Uj. cbn beta in Uj. exists d. split.
      + rewrite Ob2 by exact Nj. rewrite Hdj. f_equal. unfold opened, unmap_virtual. rewrite Uj. reflexivity.
      + rewrite (raw_view_unmapped _ Uj) in Ld. split; [exact Ld|]. intros k Hk Ht. assert (Hp : nth_error (p_sections p) j = Some (opened sj (raw_view sj))) by (rewrite opened_self by exact Uj; exact Hj).
        destruct (O j sj _ d Hj Hp Hdj) as [_ Nn]. rewrite (raw_view_unmapped _ Uj) in Nn. apply Nn; [lia|exact Ht].
    - exists s, t. unfold well_sized in *. rewrite X1, X2 in *. repeat (split; [assumption|]). exact Ob11. }
  split; [exact Hd|]. split; [exact IO'|]. split.
  { unfold import_directories in *. cbn [no_rewrite o_headers o_zero_iat] in Id. destruct M as (ls & -> & _). exact Id. }
  assert (Sa : salign p' = salign p /\ p_full p' = p_full p /\ p_plus p' = p_plus p) by (destruct M as (ls & -> & _); unfold same_headers in Hd; repeat split; [exact (f_equal salign Hd)|exact (f_equal p_full Hd)|exact (f_equal p_plus Hd)]).
  destruct Sa as (Sa & Fu & Pp).
  split.
  - intros Rc Hlow.
    assert (Tsz : total (library_table_size P) libs = total (library_table_size p) libs /\ total (lstep P (no_rewrite o)) libs = total (lstep p (no_rewrite o)) libs /\ total (ostep P (no_rewrite o)) libs = total (ostep p (no_rewrite o)) libs)
      by (destruct M as (ls & -> & _); split; [reflexivity|split; reflexivity]).
    destruct Tsz as (Tz1 & Tz2 & Tz3). rewrite Tz1 in *. rewrite Tz2, Tz3 in *. pose proof (total_nonneg (library_table_size p) libs (table_size_nonneg p)) as T5. pose proof (total_nonneg library_text_size libs ltext_nonneg) as T4. fold T in T4.
    assert (Wl' : libraries_written p s (no_rewrite o) v off (T + off) ip (ip + total (library_table_size p) libs) libs) by (destruct M as (ls & -> & _); exact Wl).
    destruct (libraries_here p start i s IO Hs Hz o Fl Rw P p' v E0 libs I IO' IP Ob2 Sa Fu Pp Bk off (T + off) ip (ip + total (library_table_size p) libs) Wl' Tw V Rc) as (ms & M1 & M2); try assumption; try lia.
    exists ms. split; [|exact M1]. rewrite (Z.add_comm off T). exact M2.
  - intros Rd Ad Vw. destruct (inv_views p i s Hs U o Fl Rw P I) as [Av1 Av2]. apply Rdy; [|exact (Av1 Ad)|exact (Av2 Vw)]. destruct Rd as (Q1 & Q2 & Q3 & Q4 & Q5). unfold readable, dirs_ok in *. rewrite X4, Np, X3. pose proof IP as (_ & WP & _). tauto.
Qed.
Lemma rewrite_round p libs i o start s : let off := o_offset o in let base := s_va s + (off + total library_text_size libs) in let places := concat (map (old_places p o) libs) in
  0 <= off -> o_rewrite o = true -> o_fill o = false -> Forall valid_library libs -> room p start i (off + import_size p libs o) -> dir_import < nrva p <= 16 -> (o_zero_iat o = true -> dir_iat < nrva p) -> o_headers o = true ->
  unmapped p -> nth_error (p_sections p) i = Some s -> zlen (raw_view s) < 2^31 -> Forall (in_other_section p i) places -> disjoint places -> readable p -> addressable p -> viewable p -> base < 2^31 -> Forall (recoverable_here p o) libs ->
  exists p' where_ ms, rebuild_imports p libs i o = Ok (p', where_) /\ get_imports p' = Ok ms /\ Forall2 (same_here p o) libs ms.
Proof.
  intros off base places Ho Rw Fl V R N N2 Hh U Hs Hl Pf Dj Rd Ad Vw Hb Rc. pose proof R as (_ & _ & s' & Hs' & Hz & _). rewrite Hs in Hs'. injection Hs' as <-.
  destruct (rewrite_ok p libs i o start s Ho Rw Fl V R (proj1 Rd) N N2 U Hs Hl Pf Dj) as (p' & E & _ & Sh & _ & Id & Bk & Rdy). fold off base in E, Id, Bk.
  destruct (Bk Rc Hb) as (ms & M1 & M2). destruct (Rdy Rd Ad Vw) as (R' & A' & V'). unfold import_directories in Id. rewrite Hh in Id. destruct Id as [Id _].
  exists p', (base, import_size p libs o - total library_text_size libs), ms. split; [exact E|]. split; [|exact M2].
  apply (imports_exact p' R' A' V' base (import_size p libs o - total library_text_size libs)); try assumption.
  - assert (nrva p' = nrva p) by (exact (f_equal nrva Sh)). lia.
  - pose proof (total_nonneg library_text_size libs ltext_nonneg). unfold base. lia.
Qed.
