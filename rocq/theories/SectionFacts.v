(** Lemmas about SectionModel.v. *)
From Verif Require Export UtilsFacts SectionModel SpecSection.

(** ** names *)
Lemma until0_app0 l : until0 (l ++ [0]) = until0 l.
Proof. induction l as [|b t IH]; cbn [app until0]; [reflexivity|]. rewrite IH; reflexivity. Qed.
Lemma until0_zeros l n : until0 (l ++ zeros n) = until0 l.
Proof.
  induction l as [|b t IH]; cbn [app until0].
  - unfold zeros; destruct (Z.to_nat n); reflexivity.
  - rewrite IH; reflexivity.
Qed.
Lemma splice_zeros_prefix n bs : 0 <= n -> zlen bs <= n -> splice (zeros n) 0 bs = bs ++ zeros (n - zlen bs).
Proof.
  intros Hn Hl. pose proof (zlen_nonneg bs). unfold splice. rewrite ztake_0 by lia. cbn [app]. f_equal.
  rewrite Z.add_0_l. unfold zdrop, zeros, zlen in *.
  replace (Z.to_nat n) with (Z.to_nat (Z.of_nat (length bs)) + Z.to_nat (n - Z.of_nat (length bs)))%nat by lia.
  rewrite repeat_app, skipn_app, repeat_length, Nat.sub_diag.
  rewrite skipn_all2 by (rewrite repeat_length; lia). reflexivity.
Qed.
Lemma set_name_bytes n s : s_name (set_name n s) = ztake 8 n ++ zeros (8 - Z.min (zlen n) 8).
Proof.
  pose proof (zlen_nonneg n).
  unfold set_name; cbn [set_s_name s_name].
  assert (E : ztake (Z.min (zlen n) 8) n = ztake 8 n).
  { destruct (Z.le_ge_cases (zlen n) 8).
    - rewrite Z.min_l by lia. rewrite !ztake_all by lia; reflexivity.
    - rewrite Z.min_r by lia; reflexivity. }
  rewrite E.
  assert (L : zlen (ztake 8 n) = Z.min (zlen n) 8) by (rewrite zlen_ztake_min by lia; lia).
  rewrite splice_zeros_prefix by lia. rewrite L; reflexivity.
Qed.
Lemma get_set_name n s : get_name (set_name n s) = until0 (ztake 8 n).
Proof.
  pose proof (zlen_nonneg n).
  unfold get_name. rewrite until0_app0, set_name_bytes.
  rewrite ztake_all. 2: { rewrite zlen_app, zlen_zeros_max, zlen_ztake_min by lia; lia. }
  apply until0_zeros.
Qed.
Lemma until0_cut n : cut_at_nul n (until0 n).
Proof.
  unfold cut_at_nul. induction n as [|b t [IH1 IH2]]; cbn [until0].
  - split; [intros []|left; reflexivity].
  - destruct (Z.eqb_spec b 0) as [->|N].
    + split; [intros []|right; exists t; reflexivity].
    + split; [intros [E|E]; [congruence|contradiction]|].
      destruct IH2 as [IH2|[u IH2]]; [left; congruence|right; exists u; cbn [app]; congruence].
Qed.
Lemma set_get_name_cut n s :
  cut_at_nul (ztake 8 n) (get_name (set_name n s)) /\ same_but_name (set_name n s) s.
Proof. rewrite get_set_name. split; [apply until0_cut|repeat split]. Qed.
Lemma set_name_frame n s : same_but_name (set_name n s) s.
Proof. repeat split. Qed.
Lemma set_name_wf n s : bytes n -> wf_section s -> wf_section (set_name n s).
Proof.
  intros Hn (H1 & H2 & H3). unfold wf_section. rewrite set_name_bytes.
  pose proof (zlen_nonneg n).
  split; [apply bytes_app; split; [apply bytes_ztake; assumption|apply bytes_zeros]|].
  split; [rewrite zlen_app, zlen_zeros_max, zlen_ztake_min by lia; lia|exact H3].
Qed.

(** ** flags *)
Definition attr_bit (a : attr) : Z :=
  match a with Readable => 30 | Writeable => 31 | Executable => 29 | Shared => 28 | Discardable => 25 end.
Lemma attr_flag_bit a : attr_flag a = 2 ^ attr_bit a.
Proof. destruct a; reflexivity. Qed.
Lemma attr_bit_range a : 0 <= attr_bit a < 32.
Proof. destruct a; cbn; lia. Qed.
Lemma attr_bit_inj a b : attr_bit a = attr_bit b -> a = b.
Proof. destruct a, b; cbn; intros; congruence || lia. Qed.
Lemma land_pow2_testbit x k : 0 <= k -> negb (Z.land x (2^k) =? 0) = Z.testbit x k.
Proof.
  intros Hk. destruct (Z.testbit x k) eqn:E.
  - destruct (Z.eqb_spec (Z.land x (2^k)) 0) as [E2|]; [|reflexivity].
    assert (Z.testbit (Z.land x (2^k)) k = true) by (rewrite Z.land_spec, E, Z.pow2_bits_true by lia; reflexivity).
    rewrite E2, Z.testbit_0_l in H; discriminate.
  - destruct (Z.eqb_spec (Z.land x (2^k)) 0) as [|N]; [reflexivity|exfalso]. apply N.
    apply Z.bits_inj'; intros n Hn. rewrite Z.land_spec, Z.testbit_0_l.
    destruct (Z.eq_dec n k) as [->|]; [rewrite E; reflexivity|].
    rewrite Z.pow2_bits_false by lia. apply andb_false_r.
Qed.
Lemma get_attr_testbit a s : get_attr a s = Z.testbit (s_chars s) (attr_bit a).
Proof.
  unfold get_attr. rewrite attr_flag_bit. apply land_pow2_testbit. pose proof (attr_bit_range a); lia.
Qed.
Lemma set_flag_bits k b s n :
  0 <= k < 32 -> is_u32 (s_chars s) -> 0 <= n ->
  Z.testbit (s_chars (set_flag (2^k) b s)) n = if n =? k then b else Z.testbit (s_chars s) n.
Proof.
  intros Hk Hc Hn. unfold set_flag. destruct b; cbn [set_s_chars s_chars].
  - rewrite Z.lor_spec. destruct (Z.eqb_spec n k) as [->|].
    + rewrite Z.pow2_bits_true by lia. apply orb_true_r.
    + rewrite Z.pow2_bits_false by lia. apply orb_false_r.
  - unfold is_u32 in Hc. unfold u32. rewrite land_mod_r by lia.
    rewrite Z.land_spec, Z.lnot_spec by lia. destruct (Z.eqb_spec n k) as [->|].
    + rewrite Z.pow2_bits_true by lia. apply andb_false_r.
    + rewrite Z.pow2_bits_false by lia. apply andb_true_r.
Qed.
Lemma set_attr_bits a b s n :
  is_u32 (s_chars s) -> 0 <= n ->
  Z.testbit (s_chars (set_attr a b s)) n = if n =? attr_bit a then b else Z.testbit (s_chars s) n.
Proof. intros; unfold set_attr; rewrite attr_flag_bit; apply set_flag_bits; auto. apply attr_bit_range. Qed.
Lemma set_attr_same a b s : is_u32 (s_chars s) -> get_attr a (set_attr a b s) = b.
Proof.
  intros. rewrite get_attr_testbit, set_attr_bits by (auto; pose proof (attr_bit_range a); lia).
  rewrite Z.eqb_refl; reflexivity.
Qed.
Lemma set_attr_other a a' b s : is_u32 (s_chars s) -> a <> a' -> get_attr a' (set_attr a b s) = get_attr a' s.
Proof.
  intros Hc Hne. rewrite !get_attr_testbit, set_attr_bits by (auto; pose proof (attr_bit_range a'); lia).
  destruct (Z.eqb_spec (attr_bit a') (attr_bit a)) as [E|]; [|reflexivity].
  apply attr_bit_inj in E; congruence.
Qed.
Lemma set_attr_all a b s :
  is_u32 (s_chars s) ->
  get_attr a (set_attr a b s) = b /\
  (forall a', a' <> a -> get_attr a' (set_attr a b s) = get_attr a' s) /\
  (forall n, 0 <= n -> 2^n <> attr_flag a ->
     Z.testbit (s_chars (set_attr a b s)) n = Z.testbit (s_chars s) n) /\
  same_but_chars (set_attr a b s) s.
Proof.
  intros Hc. split; [apply set_attr_same; assumption|].
  split; [intros; apply set_attr_other; [assumption|congruence]|].
  split.
  - intros n Hn Hf. rewrite set_attr_bits by assumption.
    destruct (Z.eqb_spec n (attr_bit a)) as [->|]; [|reflexivity].
    rewrite attr_flag_bit in Hf; congruence.
  - unfold set_attr, set_flag; destruct b; repeat split.
Qed.
Lemma set_attr_frame a b s : same_but_chars (set_attr a b s) s.
Proof. unfold set_attr, set_flag; destruct b; repeat split. Qed.
Lemma lor_u32 x y : is_u32 x -> is_u32 y -> is_u32 (Z.lor x y).
Proof.
  unfold is_u32; intros Hx Hy. split; [apply Z.lor_nonneg; lia|].
  destruct (Z.eq_dec (Z.lor x y) 0) as [->|]; [lia|].
  apply Z.log2_lt_pow2; [assert (0 <= Z.lor x y) by (apply Z.lor_nonneg; lia); lia|].
  rewrite Z.log2_lor by lia.
  apply Z.max_lub_lt.
  - destruct (Z.eq_dec x 0) as [->|]; [cbn; lia|apply Z.log2_lt_pow2; lia].
  - destruct (Z.eq_dec y 0) as [->|]; [cbn; lia|apply Z.log2_lt_pow2; lia].
Qed.
Lemma land_u32 x y : is_u32 x -> is_u32 (Z.land x (u32 y)).
Proof.
  unfold is_u32; intros Hx. unfold u32. rewrite land_mod_r by lia.
  split; [apply Z.land_nonneg; lia|].
  rewrite <- (Z.mod_small x (2^32)) by lia.
  rewrite <- Z.land_ones by lia.
  rewrite <- Z.land_assoc, (Z.land_comm _ y), Z.land_assoc, Z.land_ones by lia.
  apply Z.mod_pos_bound; lia.
Qed.
Lemma set_attr_wf a b s : wf_section s -> wf_section (set_attr a b s).
Proof.
  intros (H1 & H2 & H3 & H4 & H5 & H6 & H7 & H8 & H9 & H10 & H11 & H12).
  unfold wf_section, set_attr, set_flag. destruct b; cbn -[Z.pow]; intuition.
  - apply lor_u32; [assumption|]. destruct a; unfold is_u32; vm_compute; intuition discriminate.
  - apply land_u32; assumption.
Qed.

(** ** views *)
Definition old_ok (s : section) : Prop :=
  match s_old s with None => True | Some n => 0 <= n <= zlen (s_data s) end.
Lemma raw_view_unmapped s : s_old s = None -> raw_view s = s_data s.
Proof. unfold raw_view, unmap_virtual; intros ->; reflexivity. Qed.
Lemma ztake_resize_id d v : zlen d <= v -> resize (resize d v) (zlen d) = d.
Proof.
  intros H. pose proof (zlen_nonneg d).
  unfold resize at 1. rewrite zlen_resize by lia.
  destruct (Z.leb_spec (zlen d) v); [|lia].
  unfold resize. destruct (Z.leb_spec v (zlen d)).
  - rewrite (ztake_all v) by lia. apply ztake_all; lia.
  - apply ztake_exact.
Qed.
Lemma raw_view_map sa s : raw_view (map_virtual sa s) = raw_view s.
Proof.
  unfold raw_view, map_virtual, unmap_virtual. destruct (s_old s) as [n|] eqn:E.
  - rewrite E; reflexivity.
  - destruct (negb (aligned_vsize sa s =? 0) && (zlen (s_data s) <? aligned_vsize sa s)) eqn:C.
    + cbn [set_s_old set_s_data s_old s_data]. apply ztake_resize_id; lia.
    + rewrite E; reflexivity.
Qed.
Lemma raw_view_unmap s : raw_view (unmap_virtual s) = raw_view s.
Proof.
  unfold raw_view, unmap_virtual. destruct (s_old s) as [n|] eqn:E.
  - reflexivity.
  - rewrite E; reflexivity.
Qed.
Lemma map_virtual_mapped sa s n : s_old s = Some n -> map_virtual sa s = s.
Proof. unfold map_virtual; intros ->; reflexivity. Qed.
Lemma old_ok_map sa s : old_ok s -> old_ok (map_virtual sa s).
Proof.
  unfold old_ok, map_virtual. destruct (s_old s) as [n|] eqn:E; intros H.
  - rewrite E; exact H.
  - destruct (_ && _) eqn:C; cbn [set_s_old set_s_data s_old s_data].
    + pose proof (zlen_nonneg (s_data s)). rewrite zlen_resize; lia.
    + rewrite E; exact I.
Qed.
Lemma unmap_old s : s_old (unmap_virtual s) = None.
Proof. unfold unmap_virtual; destruct (s_old s) eqn:E; [reflexivity|exact E]. Qed.
Lemma zlen_raw_view_le s : old_ok s -> zlen (raw_view s) <= zlen (s_data s).
Proof.
  unfold old_ok, raw_view, unmap_virtual. destruct (s_old s) as [n|] eqn:E; intros H; cbn [set_s_old set_s_data s_data].
  - rewrite zlen_resize; lia.
  - lia.
Qed.
Lemma raw_view_prefix s : old_ok s -> raw_view s = ztake (zlen (raw_view s)) (s_data s).
Proof.
  intros H. pose proof (zlen_raw_view_le s H) as L.
  unfold old_ok, raw_view, unmap_virtual in *. destruct (s_old s) as [n|] eqn:E; cbn [set_s_old set_s_data s_data] in *.
  - rewrite zlen_resize by lia. unfold resize. destruct (Z.leb_spec n (zlen (s_data s))); [reflexivity|lia].
  - symmetry; apply ztake_all; lia.
Qed.
Lemma raw_view_set_data s d :
  old_ok s -> zlen d = zlen (s_data s) ->
  raw_view (set_s_data d s) = ztake (zlen (raw_view s)) d.
Proof.
  intros H L. unfold old_ok, raw_view, unmap_virtual in *. cbn [set_s_data s_old].
  destruct (s_old s) as [n|] eqn:E; cbn [set_s_old set_s_data s_data] in *.
  - rewrite zlen_resize by lia. unfold resize. destruct (Z.leb_spec n (zlen d)); [reflexivity|lia].
  - symmetry; apply ztake_all; lia.
Qed.
Lemma overwrite_ztake n d off bs :
  0 <= n <= zlen d -> 0 <= off -> off + zlen bs <= zlen d ->
  ztake n (splice d off bs) = overwrite (ztake n d) off bs.
Proof.
  intros Hn Ho Hb. pose proof (zlen_nonneg bs). unfold overwrite, splice.
  rewrite zlen_ztake by lia.
  destruct (Z.le_ge_cases n off) as [C|C].
  - rewrite (ztake_app_l n (ztake off d)) by (rewrite zlen_ztake; lia).
    rewrite (ztake_ztake off n), (Z.min_r off n) by lia.
    rewrite (ztake_app_l n (ztake n d)) by (rewrite zlen_ztake; lia).
    rewrite !ztake_ztake. f_equal; lia.
  - rewrite (ztake_app_r n) by (rewrite zlen_ztake; lia).
    rewrite (ztake_ztake off n), (Z.min_l off n) by lia.
    rewrite (ztake_app_r n (ztake off d)) by (rewrite zlen_ztake; lia).
    rewrite zlen_ztake by lia. f_equal.
    destruct (Z.le_ge_cases (n - off) (zlen bs)) as [C2|C2].
    + rewrite !ztake_app_l by lia; reflexivity.
    + rewrite !ztake_app_r by lia. f_equal.
      rewrite zdrop_ztake by lia. rewrite ztake_ztake. f_equal; lia.
Qed.
Lemma view_step_raw s o s' :
  old_ok s -> view_step s o = Ok s' ->
  old_ok s' /\ raw_view s' = spec_view_step (raw_view s) o.
Proof.
  intros H E. destruct o as [|sa|d|off bs|sa off bs]; cbn [view_step spec_view_step] in *.
  - inversion E; subst. split; [unfold old_ok; rewrite unmap_old; exact I|apply raw_view_unmap].
  - inversion E; subst. split; [apply old_ok_map; assumption|apply raw_view_map].
  - inversion E; subst. split; [exact I|reflexivity].
  - apply bind_ok in E as [d [E1 E2]]. apply wr_inv in E1 as (W1 & W2 & ->). inversion E2; subst; clear E2.
    split; [unfold old_ok; cbn [set_s_data s_old]; rewrite unmap_old; exact I|].
    rewrite raw_view_unmapped by (cbn [set_s_data s_old]; apply unmap_old).
    cbn [set_s_data s_data]. fold (raw_view s) in *.
    assert (L : zlen (splice (raw_view s) off bs) = zlen (raw_view s)) by (apply zlen_splice; lia).
    rewrite <- (ztake_all (zlen (raw_view s)) (splice _ _ _)) by lia.
    rewrite overwrite_ztake by (pose proof (zlen_nonneg (raw_view s)); lia).
    rewrite ztake_all by lia; reflexivity.
  - apply bind_ok in E as [d [E1 E2]]. apply wr_inv in E1 as (W1 & W2 & ->). inversion E2; subst; clear E2.
    assert (H' := old_ok_map sa s H).
    assert (L : zlen (splice (s_data (map_virtual sa s)) off bs) = zlen (s_data (map_virtual sa s))) by (apply zlen_splice; lia).
    split.
    + unfold old_ok in *; cbn [set_s_data s_old s_data]. destruct (s_old (map_virtual sa s)); [lia|exact I].
    + rewrite raw_view_set_data by assumption.
      rewrite overwrite_ztake; [|pose proof (zlen_raw_view_le _ H'); pose proof (zlen_nonneg (raw_view (map_virtual sa s))); lia|lia|lia].
      rewrite <- raw_view_prefix by assumption. rewrite raw_view_map. reflexivity.
Qed.
Lemma view_history_raw ops s s' :
  old_ok s -> mfold view_step ops s = Ok s' ->
  old_ok s' /\ raw_view s' = fold_left spec_view_step ops (raw_view s).
Proof.
  revert s; induction ops as [|o ops IH]; intros s H E; cbn [mfold fold_left] in *.
  - inversion E; subst; split; [assumption|reflexivity].
  - apply bind_ok in E as [s1 [E1 E2]]. destruct (view_step_raw _ _ _ H E1) as [H1 R1].
    destruct (IH _ H1 E2) as [H2 R2]. split; [assumption|]. rewrite R2, R1; reflexivity.
Qed.
Lemma view_step_header s o s' : view_step s o = Ok s' -> same_header s' s.
Proof.
  destruct o as [|sa|d|off bs|sa off bs]; cbn [view_step]; intros E.
  - inversion E; subst. unfold unmap_virtual; destruct (s_old s); repeat split.
  - inversion E; subst. unfold map_virtual; destruct (s_old s); [repeat split|]. destruct (_ && _); repeat split.
  - inversion E; subst. repeat split.
  - apply bind_ok in E as [d [_ E2]]; inversion E2; subst. unfold unmap_virtual; destruct (s_old s); repeat split.
  - apply bind_ok in E as [d [_ E2]]; inversion E2; subst. unfold map_virtual; destruct (s_old s); [repeat split|]. destruct (_ && _); repeat split.
Qed.
Lemma view_history_header ops s s' : mfold view_step ops s = Ok s' -> same_header s' s.
Proof.
  revert s; induction ops as [|o ops IH]; intros s E; cbn [mfold] in *.
  - inversion E; repeat split.
  - apply bind_ok in E as [s1 [E1 E2]]. apply view_step_header in E1. apply IH in E2.
    unfold same_header in *; intuition congruence.
Qed.

Lemma virt_view_unmapped sa s :
  s_old s = None ->
  virt_view sa s = s_data s ++ zeros (aligned_vsize sa s - zlen (s_data s)).
Proof.
  intros E. unfold virt_view, map_virtual. rewrite E.
  pose proof (zlen_nonneg (s_data s)).
  destruct (negb (aligned_vsize sa s =? 0) && (zlen (s_data s) <? aligned_vsize sa s)) eqn:C.
  - cbn [set_s_old set_s_data s_data]. unfold resize.
    destruct (Z.leb_spec (aligned_vsize sa s) (zlen (s_data s))); [lia|reflexivity].
  - assert (aligned_vsize sa s - zlen (s_data s) <= 0) by lia.
    unfold zeros. replace (Z.to_nat _) with O by lia. cbn [repeat]. rewrite app_nil_r; reflexivity.
Qed.
Lemma virt_view_prefix sa s : old_ok s -> exists t, virt_view sa s = raw_view s ++ t.
Proof.
  intros H. unfold virt_view. exists (zdrop (zlen (raw_view s)) (s_data (map_virtual sa s))).
  rewrite <- (raw_view_map sa s) at 1.
  rewrite (raw_view_prefix (map_virtual sa s)) at 1 by (apply old_ok_map; assumption).
  rewrite raw_view_map. symmetry; apply ztake_zdrop.
Qed.
(** Readers toggle the cached representation; no view notices. *)
Lemma virt_view_map sa s : virt_view sa (map_virtual sa s) = virt_view sa s.
Proof.
  unfold virt_view. destruct (s_old s) as [n|] eqn:E.
  - rewrite !(map_virtual_mapped sa s n) by assumption; reflexivity.
  - unfold map_virtual at 2 3. rewrite E.
    destruct (_ && _) eqn:C.
    + erewrite map_virtual_mapped by reflexivity. reflexivity.
    + unfold map_virtual; rewrite E, C; reflexivity.
Qed.
Lemma unmap_map sa s : s_old s = None -> unmap_virtual (map_virtual sa s) = s.
Proof.
  intros E. unfold map_virtual. rewrite E. destruct (_ && _) eqn:C.
  - unfold unmap_virtual. cbn [set_s_old set_s_data s_old s_data].
    rewrite ztake_resize_id by lia. destruct s; cbn in *; subst; reflexivity.
  - unfold unmap_virtual. rewrite E; reflexivity.
Qed.
Lemma virt_view_toggle sa s : s_old s = None -> virt_view sa (unmap_virtual (map_virtual sa s)) = virt_view sa s.
Proof. intros; rewrite unmap_map by assumption; reflexivity. Qed.
Lemma wf_old s : wf_section s -> old_ok s.
Proof. intros H; unfold wf_section in H; unfold old_ok; tauto. Qed.
Lemma bytes_raw_view s : wf_section s -> bytes (raw_view s).
Proof.
  unfold wf_section; intros H. unfold raw_view, unmap_virtual.
  destruct (s_old s); cbn [set_s_old set_s_data s_data]; [apply bytes_resize|]; tauto.
Qed.
Lemma bytes_virt_view sa s : wf_section s -> bytes (virt_view sa s).
Proof.
  unfold wf_section; intros H. unfold virt_view, map_virtual.
  destruct (s_old s); [tauto|]. destruct (_ && _); cbn [set_s_old set_s_data s_data]; [apply bytes_resize|]; tauto.
Qed.

Lemma overwrite_inside r off bs :
  0 <= off -> off + zlen bs <= zlen r -> overwrite r off bs = ztake off r ++ bs ++ zdrop (off + zlen bs) r.
Proof.
  intros. pose proof (zlen_nonneg bs). unfold overwrite. apply ztake_all.
  rewrite !zlen_app, zlen_ztake, zlen_zdrop by lia; lia.
Qed.
Lemma overwrite_beyond r off bs : zlen r <= off -> overwrite r off bs = r.
Proof.
  intros. unfold overwrite. rewrite (ztake_all off r) by assumption. apply ztake_exact.
Qed.
Lemma view_history ops s s' :
  wf_section s -> mfold view_step ops s = Ok s' ->
  raw_view s' = fold_left spec_view_step ops (raw_view s) /\ same_header s' s.
Proof.
  intros W E. split; [apply (view_history_raw ops s s' (wf_old s W) E)|eapply view_history_header; eassumption].
Qed.
Lemma aligned_vsize_unmap sa s : aligned_vsize sa (unmap_virtual s) = aligned_vsize sa s.
Proof. unfold unmap_virtual; destruct (s_old s); reflexivity. Qed.
Lemma virt_view_spec sa s :
  wf_section s ->
  (exists t, virt_view sa s = raw_view s ++ t) /\
  virt_view sa (unmap_virtual s) = raw_view s ++ zeros (aligned_vsize sa s - zlen (raw_view s)).
Proof.
  intros W. split; [apply virt_view_prefix, wf_old; assumption|].
  rewrite virt_view_unmapped by apply unmap_old. rewrite aligned_vsize_unmap. reflexivity.
Qed.
