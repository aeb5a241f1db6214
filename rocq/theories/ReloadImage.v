(** Loading the bytes that rebuild_pe wrote (C25). *)
From Verif Require Export ReloadMain.

Lemma dirs_bytes_take l n : ztake (8 * Z.of_nat n) (dirs_bytes l) = dirs_bytes (firstn n l).
Proof.
  revert n. induction l as [|d l IH]; intros n.
  - rewrite firstn_nil. unfold dirs_bytes, ztake. cbn [map concat]. apply firstn_nil.
  - destruct n as [|n]; [reflexivity|]. cbn [firstn]. unfold dirs_bytes in *. cbn [map concat].
    rewrite ztake_app_r by (rewrite zlen_app, !zlen_le; lia). f_equal.
    rewrite <- IH. f_equal. rewrite zlen_app, !zlen_le. lia.
Qed.
Lemma slice_mid {A} (a b c : list A) : slice (a ++ b ++ c) (zlen a) (zlen b) = b.
Proof.
  rewrite slice_app_r by lia. rewrite Z.sub_diag. rewrite slice_app_l by (pose proof (zlen_nonneg b); lia).
  apply slice_all; lia.
Qed.
Lemma slice_mid' {A} (a b c : list A) n m : n = zlen a -> m = zlen b -> slice (a ++ b ++ c) n m = b.
Proof. intros -> ->. apply slice_mid. Qed.
Lemma section_slice l : forall i s, Forall wf_section l -> nth_error l i = Some s ->
  slice (concat (map section_bytes l)) (40 * Z.of_nat i) 40 = section_bytes s.
Proof.
  induction l as [|a l IH]; intros i s W H; [destruct i; discriminate|]. apply Forall_cons_iff in W as [Wa W].
  assert (zlen (section_bytes a) = 40) as La by (apply section_bytes_length; apply Wa).
  cbn [map concat]. destruct i as [|i]; cbn [nth_error] in H.
  - inversion H; subst a. rewrite slice_app_l by lia. apply slice_all; lia.
  - rewrite slice_app_r by lia. rewrite La. rewrite <- (IH i s W H). f_equal. lia.
Qed.
Lemma fits_rebuilt p strip chg hb :
  fits (nt_widths (p_plus p)) (nt_fields (p_plus p) (p_nt p)) ->
  is_u32 (h_hdrsize (rebuilt_nt p strip chg hb)) -> is_u32 (h_imagesize (rebuilt_nt p strip chg hb)) ->
  fits (nt_widths (p_plus p)) (nt_fields (p_plus p) (rebuilt_nt p strip chg hb)).
Proof.
  intros F Z1 Z2. unfold is_u32 in *.
  assert (is_u16 (h_nsections (rebuilt_nt p strip chg hb))) as Z3 by apply u16_range.
  assert (is_u16 (h_optsize (rebuilt_nt p strip chg hb))) as Z4 by apply u16_range.
  unfold is_u16 in *.
  assert (0 <= h_basecode (rebuilt_nt p strip chg hb) < 2^32) as Z5.
  { destruct (p_plus p); cbn [nt_widths nt_fields fits] in F; change (256 ^ Z.of_nat 4) with (2^32) in F; decompose [and] F;
    change (h_basecode (rebuilt_nt p strip chg hb)) with (if strip then 16 else h_basecode (p_nt p)); destruct strip; lia. }
  set (r := rebuilt_nt p strip chg hb) in *.
  destruct (p_plus p); cbn [nt_widths nt_fields fits] in *;
  change (256 ^ Z.of_nat 4) with (2^32) in *; change (256 ^ Z.of_nat 2) with (2^16) in *;
  decompose [and] F; clear F; repeat match goal with |- _ /\ (_ /\ _) => split end; try (split; assumption);
  try assumption; (split; [split; assumption|exact I]).
Qed.

Lemma widths_prefix ws i : (fold_right Nat.add O (firstn i ws) + nth i ws O <= fold_right Nat.add O ws)%nat.
Proof.
  revert i. induction ws as [|w ws IH]; intros i; [destruct i; cbn; lia|]. destruct i as [|i]; cbn [firstn fold_right nth]; [lia|].
  specialize (IH i). lia.
Qed.
Lemma consistent_range p : consistent p -> rebuild_range p.
Proof.
  intros (W & HS & _ & _ & _ & _ & HA & HN & (start & S1 & S2 & S3 & S4) & HL).
  destruct W as (_ & _ & W3 & _ & _ & W6 & W7 & W8 & W9 & _ & W11).
  unfold rebuild_range. split; [assumption|]. split; [assumption|]. split; [assumption|]. split; [assumption|].
  split; [unfold hdrsize; destruct (fits_ranges _ _ W6); tauto|].
  split; [eapply Forall_impl; [|exact HL]; intros s (_ & E & _); lia|].
  split; [assumption|]. split.
  - apply Forall_forall. intros s Hs. pose proof (chain_first_le (salign p) start (p_sections p) s) as X.
    assert (0 < salign p) by (apply pow2_pos; apply HA). specialize (X ltac:(assumption) W9 S3 Hs). lia.
  - lia.
Qed.

Definition reload_nt (p : pe) (strip chg hb : bool) : nt_headers :=
  let r := rebuilt_nt p strip chg hb in
  set_h_dirs (firstn (Z.to_nat (nrva p)) (h_dirs r) ++ repeat (0, 0) (16 - Z.to_nat (nrva p))) r.

Section Reload2.
  Variables (p : pe) (strip chg save : bool).
  Hypothesis HC : consistent p.
  Hypothesis Ht : data_start strip save p + data_total (falign p) (p_sections p) < 2^32.
  Hypothesis Hst : no_stale_pointers (data_start strip save p) p.
  Hypothesis HB : bound_readable p save.
  Let hb := saves_bound p save.
  Hypothesis Hlong : headers_too_long p strip chg hb = false.
  Let q := rebuilt p strip chg hb.
  Let out := body (p_sections q) (headers_written p strip chg hb (bound_bytes p hb)).
  Let h := reload_nt p strip chg hb.
  Let N := nrva p.
  Let off := nt_offset strip p.
  Let fixed := sizeof_nt_nodirs (p_plus p).

  Lemma reb_ok : rebuild_pe p strip chg save = Ok (q, out).
  Proof.
    destruct (rebuild_eq p strip chg save (consistent_range p HC) HB) as [E _]. fold hb in E. rewrite E, Hlong. reflexivity.
  Qed.
  Lemma n_range : 0 <= N <= 16.
  Proof. apply (consistent_range p HC). Qed.
  Lemma r_dirs : length (h_dirs (rebuilt_nt p strip chg hb)) = 16%nat /\
    Forall (fun d => is_u32 (fst d) /\ is_u32 (snd d)) (h_dirs (rebuilt_nt p strip chg hb)).
  Proof.
    destruct (consistent_range p HC) as ([D1 D2] & N0 & _ & _ & _ & _ & _ & _ & HS).
    split; [apply (rebuilt_dirs_length p strip chg hb); exact D1|].
    change (h_dirs (rebuilt_nt p strip chg hb)) with
      (if hb then upd (h_dirs (p_nt p)) 11 (u32 (ptr_headers p strip), snd (dir_bound p)) else h_dirs (p_nt p)).
    destruct hb; [|assumption]. apply Forall_forall. intros d Hd. apply In_nth_error in Hd as [i Hi].
    destruct (dir_bound_ok p (conj D1 D2)) as (_ & _ & R).
    destruct (Nat.eq_dec 11 i) as [<-|Hne].
    - rewrite nth_error_upd_same in Hi by lia. inversion Hi. cbn [fst snd]. split; [apply u32_range|assumption].
    - rewrite nth_error_upd_other in Hi by assumption. apply nth_error_In in Hi. rewrite Forall_forall in D2. apply D2; assumption.
  Qed.
  Lemma sections_q : p_sections q = place_sections (falign p) (data_start strip save p) (p_sections p).
  Proof.
    assert (power_of_two (falign p) /\ falign p < 2^32) as [P L].
    { destruct HC as (_ & _ & _ & _ & _ & _ & (A1 & A2 & A3 & A4 & _) & _). unfold falign, salign in *. split; [assumption|lia]. }
    destruct (ptr_data_eq p strip save (consistent_range p HC) P L) as (E & _ & _). unfold q.
    change (p_sections (rebuilt p strip chg hb)) with (place_sections (falign p) (ptr_data p strip hb) (p_sections p)).
    unfold hb. rewrite E. reflexivity.
  Qed.
  Lemma r_image l s : p_sections p = l ++ [s] -> h_imagesize h = send (salign p) s /\ 0 < send (salign p) s < 2^32 /\ (salign p | send (salign p) s) /\
    Forall (fun t => send (salign p) t <= send (salign p) s) (p_sections p).
  Proof.
    intros E. destruct HC as (W & _ & _ & _ & _ & _ & (A1 & A2 & A3 & A4 & _) & _ & (start & S1 & S2 & S3 & S4) & HL).
    destruct W as (_ & _ & _ & _ & _ & W6 & _ & _ & W9 & _). destruct (fits_ranges _ _ W6) as (_ & _ & _ & _ & _ & _ & [z0 z1] & _).
    assert (0 < salign p) as P0 by (apply pow2_pos; assumption).
    pose proof (chain_upper _ _ _ P0 W9 S3) as CU.
    pose proof (chain_end_div _ _ _ P0 S2 S3) as CD.
    rewrite E, chain_end_last in *.
    rewrite Forall_app in HL, W9. destruct HL as [_ HL]. destruct W9 as [_ W9].
    apply Forall_cons_iff in HL as [(V1 & V2 & V3) _]. apply Forall_cons_iff in W9 as [Ws _].
    destruct (wf_ranges s Ws) as (R1 & R2 & R3 & _). unfold is_u32 in *.
    assert (span (salign p) s = ceil_mult (s_vsize s) (salign p)) as ES.
    { unfold span. replace (s_vsize s =? 0) with false by lia. reflexivity. }
    assert (s_vsize s <= ceil_mult (s_vsize s) (salign p)) by (apply ceil_mult_least; assumption).
    assert (ceil_mult (s_vsize s) (salign p) <= 2^31) by (apply ceil_le_2_31; try assumption; lia).
    assert (0 < send (salign p) s < 2^32) as HSE by (unfold send in *; lia).
    split; [|split; [assumption|split; [assumption|exact CU]]].
    change (h_imagesize h) with (match rev (p_sections p) with [] => h_hdrsize (rebuilt_nt p strip chg hb) | s :: _ => u32 (s_va s + aligned_vsize (h_salign (p_nt p)) s) end).
    rewrite E, rev_app_distr. cbn [rev app].
    fold (salign p). rewrite aligned_vsize_span; try assumption; [|lia]. fold (send (salign p) s). apply u32_small; lia.
  Qed.
  Lemma r_last : exists l s, p_sections p = l ++ [s].
  Proof.
    destruct HC as (_ & _ & _ & _ & _ & _ & _ & [HN _] & _). destruct (p_sections p) as [|a t] eqn:E; [change (zlen []) with 0 in HN; lia|].
    destruct (exists_last (l := a :: t)) as (l & s & E2); [discriminate|]. exists l, s. assumption.
  Qed.
  Lemma r_hdrsize : h_hdrsize h = (if chg then data_start strip save p else hdrsize p) /\ 0 <= h_hdrsize h < 2^32 /\
    forall s t, p_sections p = s :: t -> h_hdrsize h <= s_va s.
  Proof.
    assert (power_of_two (falign p) /\ falign p < 2^32) as [P L].
    { destruct HC as (_ & _ & _ & _ & _ & _ & (A1 & A2 & A3 & A4 & _) & _). unfold falign, salign in *. split; [assumption|lia]. }
    pose proof (consistent_range p HC) as RR.
    destruct (ptr_data_eq p strip save RR P L) as (E & E2 & _).
    destruct RR as (_ & _ & _ & W & Hh & _ & _ & HV & _). unfold is_u32 in Hh.
    pose proof (data_total_nonneg (falign p) (p_sections p) (pow2_pos _ P) W).
    change (h_hdrsize h) with (if chg then u32 (ptr_data p strip hb) else hdrsize p).
    unfold headers_too_long in Hlong. unfold hb in *. rewrite E in *.
    rewrite u32_small in * by lia.
    split; [reflexivity|]. split; [destruct chg; lia|]. intros s t Es. rewrite Es in *.
    apply Forall_cons_iff in HV as [HV _].
    destruct chg; cbn [andb] in Hlong; lia.
  Qed.

  Lemma file_shape : exists A T,
    out = A ++ enc_fields (nt_widths (p_plus p)) (nt_fields (p_plus p) h) ++ dirs_bytes (firstn (Z.to_nat N) (h_dirs h)) ++
          concat (map section_bytes (p_sections q)) ++ T /\
    A = ztake (dos_written strip) (dos_bytes p (new_lfanew p strip)) ++ stub_written p strip /\ zlen A = off.
  Proof.
    destruct (body_prefix (p_sections q) (headers_written p strip chg hb (bound_bytes p hb))) as [T0 ET].
    pose proof (consistent_range p HC) as (D & N0 & Hm & W & Hh & R & Hf & HV & HS).
    pose proof (zlen_nonneg (p_sections p)).
    exists (ztake (dos_written strip) (dos_bytes p (new_lfanew p strip)) ++ stub_written p strip), (bound_bytes p hb ++ T0).
    split; [|split; [reflexivity|]].
    - unfold out. rewrite ET. unfold headers_written.
      assert (ztake (sizeof_nt (p_plus p) - 8 * (16 - nrva p)) (nt_bytes (rebuilt p strip chg hb)) =
        enc_fields (nt_widths (p_plus p)) (nt_fields (p_plus p) h) ++ dirs_bytes (firstn (Z.to_nat N) (h_dirs h))) as ->.
      { unfold nt_bytes. change (p_plus (rebuilt p strip chg hb)) with (p_plus p). change (p_nt (rebuilt p strip chg hb)) with (rebuilt_nt p strip chg hb).
        unfold h, reload_nt. cbv zeta. rewrite nt_fields_dirs. cbn [set_h_dirs h_dirs].
        assert (zlen (enc_fields (nt_widths (p_plus p)) (nt_fields (p_plus p) (rebuilt_nt p strip chg hb))) = fixed) as E.
        { unfold fixed, sizeof_nt_nodirs. destruct (p_plus p); reflexivity. }
        rewrite ztake_app_r by (rewrite E; unfold fixed, sizeof_nt, sizeof_nt_nodirs; destruct (p_plus p); lia).
        f_equal. rewrite E.
        replace (sizeof_nt (p_plus p) - 8 * (16 - nrva p) - fixed) with (8 * Z.of_nat (Z.to_nat N))
          by (unfold N, fixed, sizeof_nt, sizeof_nt_nodirs; destruct (p_plus p); lia).
        rewrite dirs_bytes_take. f_equal. fold N.
        rewrite firstn_app, firstn_firstn, Nat.min_id.
        assert (length (firstn (Z.to_nat N) (h_dirs (rebuilt_nt p strip chg hb))) = Z.to_nat N) as ->.
        { rewrite firstn_length. destruct r_dirs as [-> _]. pose proof n_range. lia. }
        rewrite Nat.sub_diag. cbn [firstn]. rewrite app_nil_r. reflexivity. }
      rewrite <- !app_assoc. reflexivity.
    - rewrite zlen_app, stub_written_length by lia.
      rewrite zlen_ztake by (rewrite dos_bytes_length by assumption; unfold dos_written; destruct strip; lia). unfold off. lia.
  Qed.

  Lemma al_h : ok_alignments h.
  Proof. destruct HC as (_ & _ & _ & _ & _ & _ & A & _). exact A. Qed.
  Lemma fit_h : fits (nt_widths (p_plus p)) (nt_fields (p_plus p) h).
  Proof.
    unfold h, reload_nt. cbv zeta. rewrite nt_fields_dirs. destruct r_last as (l & s & E).
    apply fits_rebuilt.
    - apply HC.
    - destruct r_hdrsize as (_ & R & _). exact R.
    - destruct (r_image l s E) as (R1 & R2 & _). change (h_imagesize (rebuilt_nt p strip chg hb)) with (h_imagesize h). rewrite R1. unfold is_u32. lia.
  Qed.
  Lemma dirs_h : length (firstn (Z.to_nat N) (h_dirs h)) = Z.to_nat N /\ firstn (Z.to_nat N) (h_dirs h) = firstn (Z.to_nat N) (h_dirs (rebuilt_nt p strip chg hb)) /\
    h_dirs h = firstn (Z.to_nat N) (h_dirs h) ++ repeat (0, 0) (16 - Z.to_nat N).
  Proof.
    pose proof n_range as NR. destruct r_dirs as [D _].
    assert (length (firstn (Z.to_nat N) (h_dirs (rebuilt_nt p strip chg hb))) = Z.to_nat N) as L by (rewrite firstn_length, D; lia).
    assert (firstn (Z.to_nat N) (h_dirs h) = firstn (Z.to_nat N) (h_dirs (rebuilt_nt p strip chg hb))) as E.
    { unfold h, reload_nt. cbv zeta. cbn [set_h_dirs h_dirs]. fold N. rewrite firstn_app, firstn_firstn, Nat.min_id, L, Nat.sub_diag.
      cbn [firstn]. apply app_nil_r. }
    split; [rewrite E; exact L|]. split; [exact E|]. rewrite E. reflexivity.
  Qed.
  Lemma file_size : zlen out < 2^32 /\ off + fixed + 8 * N + 40 * zlen (p_sections p) <= zlen out /\
    off + fixed + 8 * N + 40 * zlen (p_sections p) <= headers_end strip save p.
  Proof.
    assert (power_of_two (falign p) /\ falign p < 2^32) as [P L].
    { destruct HC as (_ & _ & _ & _ & _ & _ & (A1 & A2 & A3 & A4 & _) & _). unfold falign, salign in *. split; [assumption|lia]. }
    destruct (rebuild_places p strip chg save q out (consistent_range p HC) P L Ht Hst reb_ok) as (_ & B & _).
    split; [lia|]. destruct file_shape as (A & T & E & _ & LA).
    pose proof (consistent_range p HC) as (D & N0 & Hm & W & Hh & R & Hf & HV & HS).
    split.
    - rewrite E, !zlen_app, LA. rewrite sections_bytes_length by (rewrite sections_q; apply place_wf; assumption).
      rewrite sections_q, place_length, dirs_bytes_length.
      destruct dirs_h as (DL & _). pose proof n_range. pose proof (zlen_nonneg T).
      assert (zlen (firstn (Z.to_nat N) (h_dirs h)) = N) as -> by (unfold zlen; rewrite DL; lia).
      assert (zlen (enc_fields (nt_widths (p_plus p)) (nt_fields (p_plus p) h)) = fixed) as ->.
      { unfold fixed, sizeof_nt_nodirs. destruct (p_plus p); reflexivity. }
      lia.
    - unfold headers_end, nt_length, fixed, sizeof_nt_nodirs, off. rewrite bound_length_eq by assumption.
      destruct (dir_bound_ok p D) as (_ & _ & [Q1 Q2]). fold N. destruct (saves_bound p save); lia.
  Qed.
  Lemma enc_len : zlen (enc_fields (nt_widths (p_plus p)) (nt_fields (p_plus p) h)) = fixed.
  Proof. unfold fixed, sizeof_nt_nodirs. destruct (p_plus p); reflexivity. Qed.
  Lemma nt_slice : slice out off fixed = enc_fields (nt_widths (p_plus p)) (nt_fields (p_plus p) h).
  Proof.
    destruct file_shape as (A & T & E & _ & LA). rewrite E. apply slice_mid'; [lia|symmetry; apply enc_len].
  Qed.
  Lemma field_at i : (i < length (nt_widths (p_plus p)))%nat ->
    le_at out (off + Z.of_nat (fold_right Nat.add O (firstn i (nt_widths (p_plus p))))) (Z.of_nat (nth i (nt_widths (p_plus p)) O)) =
    nth i (nt_fields (p_plus p) h) 0.
  Proof.
    intros Hi. rewrite <- (dec_enc_fields (nt_widths (p_plus p)) (nt_fields (p_plus p) h) [] fit_h).
    rewrite dec_fields_nth by assumption. rewrite app_nil_r, <- nt_slice. unfold le_at.
    set (a := fold_right Nat.add O (firstn i (nt_widths (p_plus p)))). set (w := nth i (nt_widths (p_plus p)) O).
    f_equal. assert (Z.of_nat a + Z.of_nat w <= fixed) as B.
    { assert (Z.of_nat (fold_right Nat.add O (nt_widths (p_plus p))) = fixed) as <- by (unfold fixed; destruct (p_plus p); reflexivity).
      pose proof (widths_prefix (nt_widths (p_plus p)) i) as X. fold a w in X. lia. }
    rewrite <- (slice_slice out off fixed (Z.of_nat a) (Z.of_nat w)); try lia.
    - unfold slice at 1. unfold ztake, zdrop. rewrite !Nat2Z.id. reflexivity.
    - unfold off, nt_offset. destruct strip; [lia|]. unfold ceil_mult. pose proof (zlen_nonneg (p_stub p)). lia.
  Qed.
  Lemma off_range : 16 <= off < 2^31 /\ off mod 4 = 0.
  Proof.
    destruct (consistent_range p HC) as (_ & _ & _ & _ & _ & _ & _ & _ & HS). pose proof (zlen_nonneg (p_sections p)). pose proof (zlen_nonneg (p_stub p)).
    destruct HC as (_ & HS2 & _).
    destruct (align4 (zlen (p_stub p))) as (_ & _ & L & M); [lia|]. unfold off, nt_offset. destruct strip; [split; [lia|reflexivity]|]. split; [lia|].
    rewrite Z.add_mod, M by lia. reflexivity.
  Qed.
  Lemma new_lfanew_eq : strip = false -> new_lfanew p strip = off.
  Proof.
    intros E. pose proof off_range as OR. unfold off, nt_offset, new_lfanew in *. rewrite E in *.
    destruct HC as (_ & HS2 & _). pose proof (zlen_nonneg (p_stub p)).
    destruct (align4 (zlen (p_stub p))) as (_ & -> & _ & _); [lia|]. apply u32_small; lia.
  Qed.
  Lemma dos_slice : strip = false -> slice out 0 64 = dos_bytes p off /\ slice out 64 (off - 64) = stub_written p strip.
  Proof.
    intros E. destruct file_shape as (A & T & Eo & EA & LA). rewrite Eo, EA.
    assert (dos_written strip = 64) as -> by (rewrite E; reflexivity).
    pose proof (consistent_range p HC) as (_ & _ & Hm & _ & _ & _ & _ & _ & HS). pose proof (zlen_nonneg (p_sections p)).
    rewrite ztake_all by (rewrite dos_bytes_length by assumption; lia).
    rewrite new_lfanew_eq by assumption. rewrite <- !app_assoc. split.
    - rewrite slice_app_l by (rewrite ?dos_bytes_length by assumption; lia). apply slice_all. rewrite dos_bytes_length by assumption; lia.
    - apply slice_mid'; [rewrite dos_bytes_length by assumption; reflexivity|]. rewrite stub_written_length by lia. unfold off. rewrite E. reflexivity.
  Qed.
  Lemma magic_at : le_at out 0 2 = 0x5a4d.
  Proof.
    destruct file_shape as (A & T & Eo & EA & LA).
    destruct HC as (_ & _ & M & _). pose proof (consistent_range p HC) as (_ & _ & Hm & _).
    assert (slice out 0 2 = le 2 (p_magic p)) as E.
    { rewrite Eo, EA. rewrite <- !app_assoc.
      assert (zlen (ztake (dos_written strip) (dos_bytes p (new_lfanew p strip))) = dos_written strip) as L1.
      { apply zlen_ztake. rewrite dos_bytes_length by assumption. unfold dos_written; destruct strip; lia. }
      rewrite slice_app_l by (rewrite ?L1; unfold dos_written; destruct strip; lia).
      unfold dos_bytes. rewrite ztake_app_r by (rewrite zlen_le; unfold dos_written; destruct strip; lia).
      rewrite slice_app_l by (rewrite ?zlen_le; lia). apply slice_all. rewrite zlen_le. lia. }
    unfold le_at. rewrite E, M. reflexivity.
  Qed.
  Lemma lfanew_at : le_at out 60 4 = off.
  Proof.
    destruct (Bool.bool_dec strip true) as [E|E].
    - assert (off = 16) as EO by (unfold off, nt_offset; rewrite E; reflexivity).
      pose proof (field_at 15) as F. rewrite EO in *.
      assert (nth 15 (nt_fields (p_plus p) h) 0 = h_basecode h) as EN by (destruct (p_plus p); reflexivity).
      rewrite EN in F. change (h_basecode h) with (if strip then 16 else h_basecode (p_nt p)) in F. rewrite E in F.
      rewrite <- F; [|destruct (p_plus p); cbn; lia]. destruct (p_plus p); reflexivity.
    - apply Bool.not_true_is_false in E. destruct (dos_slice E) as [D _].
      unfold le_at. assert (slice out 60 4 = slice (slice out 0 64) 60 4) as -> by (rewrite slice_slice by lia; reflexivity).
      rewrite D. unfold dos_bytes.
      pose proof (consistent_range p HC) as (_ & _ & Hm & _).
      rewrite app_assoc. rewrite slice_app_r by (rewrite ?zlen_app, zlen_le, Hm; lia).
      replace (60 - zlen (le 2 (p_magic p) ++ p_dosmid p)) with 0 by (rewrite zlen_app, zlen_le, Hm; lia).
      rewrite slice_all by (rewrite zlen_le; lia). apply unle_le_small. pose proof off_range. change (256 ^ Z.of_nat 4) with (2^32). lia.
  Qed.
  Lemma optsize_h : h_optsize h = nt_length p - 24.
  Proof.
    change (h_optsize h) with (u16 (sizeof_opt (p_plus p) - missing_dirs p)).
    pose proof n_range. rewrite missing_small by assumption. fold N. rewrite u16_small; unfold sizeof_opt, nt_length; destruct (p_plus p); fold N; lia.
  Qed.
  Lemma nsections_h : h_nsections h = zlen (p_sections p).
  Proof.
    destruct HC as (_ & _ & _ & _ & _ & _ & _ & HN & _).
    change (h_nsections h) with (u16 (zlen (p_sections p))). apply u16_small. lia.
  Qed.
  Lemma in_place_q : Forall (in_place out h) (p_sections q).
  Proof.
    destruct al_h as (A1 & A2 & A3 & A4 & A5).
    assert (power_of_two (falign p) /\ falign p < 2^32) as [P L] by (unfold falign; split; [exact A2|change (h_falign (p_nt p)) with (h_falign h); lia]).
    pose proof (consistent_range p HC) as RR.
    destruct (rebuild_places p strip chg save q out RR P L Ht Hst reb_ok) as (F2 & B & PL & _).
    destruct RR as (D & N0 & Hm & W & Hh & R & Hf & HV & HS).
    destruct r_last as (l0 & s0 & El). destruct (r_image l0 s0 El) as (I1 & I2 & I3 & I4).
    destruct HC as (_ & _ & _ & _ & _ & _ & _ & _ & _ & HL).
    assert (0 < h_salign h) as P0 by (apply pow2_pos; assumption).
    assert (ceil_mult (h_imagesize h) (h_salign h) = send (salign p) s0) as EC.
    { rewrite I1. apply ceil_mult_id; [assumption|]. apply divide_mod; [apply pow2_pos; assumption|exact I3]. }
    apply Forall_forall. intros t Htn. apply In_nth_error in Htn as [i Hi].
    destruct (Forall2_nth_r _ _ _ _ _ F2 Hi) as (s & Hs & Same).
    assert (wf_section t) as Wt.
    { pose proof (place_wf (falign p) (p_sections p) (data_start strip save p) W) as X. rewrite <- sections_q in X.
      rewrite Forall_forall in X. apply X. apply nth_error_In in Hi; assumption. }
    apply nth_error_In in Hs. rewrite Forall_forall in HL, W, I4. destruct (HL s Hs) as (V1 & V2 & V3). specialize (I4 s Hs).
    destruct (wf_ranges s (W s Hs)) as (R1 & R2 & R3 & R4). destruct (wf_ranges t Wt) as (T1 & T2 & T3 & T4).
    unfold is_u32 in *.
    destruct (same_place_fields s t Same) as (F1 & Fv & Fa & Fr & _).
    pose proof (same_place_raw s t Same) as Fd.
    change (h_salign h) with (salign p) in *. change (h_falign h) with (falign p) in *.
    assert (ceil_mult (s_vsize s) (salign p) <= 2^31) by (apply ceil_le_2_31; try assumption; lia).
    assert (s_vsize s <= ceil_mult (s_vsize s) (salign p)) by (apply ceil_mult_least; assumption).
    assert (s_rawsize s <= ceil_mult (s_rawsize s) (falign p)) by (apply ceil_mult_least; apply pow2_pos; assumption).
    assert (span (salign p) s = ceil_mult (s_vsize s) (salign p)) as ES.
    { unfold span. replace (s_vsize s =? 0) with false by lia. reflexivity. }
    assert (send (salign p) t = send (salign p) s) as ET by (unfold send, span; rewrite Fv, Fa, Fr; reflexivity).
    unfold in_place. change (h_salign h) with (salign p) in *. change (h_falign h) with (falign p) in *.
    rewrite ET, Fv, Fa, Fr, Fd, EC.
    split; [assumption|]. split; [assumption|]. split; [lia|]. split; [unfold send in *; lia|].
    split.
    { destruct (Z.eq_dec (s_rawsize s) 0) as [Z0|Z0]; [lia|]. destruct (PL i t Hi ltac:(lia)) as (_ & _ & X & _). lia. }
    split; [assumption|]. split; [unfold send in *; lia|]. split; [assumption|]. split; [assumption|].
    intros Hn. destruct (PL i t Hi ltac:(lia)) as (X1 & X2 & X3 & X4). split; [assumption|]. split; [lia|].
    rewrite <- Fr. rewrite X4. rewrite Fd. apply ztake_all. lia.
  Qed.

  (** The section headers in the file. *)
  Lemma section_at i s : nth_error (p_sections q) i = Some s -> slice out (off + fixed + 8 * N + 40 * Z.of_nat i) 40 = section_bytes s.
  Proof.
    intros Hi. destruct dirs_h as (D1 & D2 & D3). pose proof n_range as NR. destruct file_shape as (A & T & Eo & EA & LA). pose proof enc_len as EN.
    assert (zlen (dirs_bytes (firstn (Z.to_nat N) (h_dirs h))) = 8 * N) as EDL.
    { rewrite dirs_bytes_length. unfold zlen. rewrite D1. lia. }
    pose proof HC as (W & _). assert (Forall wf_section (p_sections q)) as Wq by (rewrite sections_q; apply place_wf; apply W).
    assert (0 < fixed) as Hfx by (unfold fixed, sizeof_nt_nodirs; destruct (p_plus p); lia).
    rewrite Eo. rewrite (app_assoc A), app_assoc.
    assert (zlen ((A ++ enc_fields (nt_widths (p_plus p)) (nt_fields (p_plus p) h)) ++ dirs_bytes (firstn (Z.to_nat N) (h_dirs h))) = off + fixed + 8 * N) as EL
      by (rewrite !zlen_app; lia).
    rewrite slice_app_r by lia. rewrite EL.
    replace (off + fixed + 8 * N + 40 * Z.of_nat i - (off + fixed + 8 * N)) with (40 * Z.of_nat i) by lia.
    rewrite slice_app_l.
    + apply section_slice; assumption.
    + lia.
    + lia.
    + rewrite sections_bytes_length by assumption. assert (nth_error (p_sections q) i <> None) as X by congruence. apply nth_error_Some in X. unfold zlen. lia.
  Qed.
  Lemma reload_read rd strict k : 0 <= k <= zlen out -> exists overlay full,
    read_pe (p_plus p) (slice out 0 64) false rd (st out strict k) =
    debug_tail rd (mk_pe (p_plus p) 0x5a4d (slice out 2 58) off (slice out 64 (off - 64)) h (map loaded_section (p_sections q)) overlay full [])
      (st out strict (zlen full)) /\ full = slice out 0 (zlen full).
  Proof.
    intros Hk. destruct r_last as (l0 & s0 & El). destruct (r_image l0 s0 El) as (I1 & I2 & I3 & I4).
    destruct file_size as (Z1 & Z2 & Z3). destruct dirs_h as (D1 & D2 & D3). pose proof n_range as NR. pose proof off_range as OR.
    destruct file_shape as (A & T & Eo & EA & LA). pose proof enc_len as EN.
    destruct al_h as (A1 & A2 & A3 & A4 & A5). pose proof (zlen_nonneg (p_sections p)) as Hn0.
    assert (zlen (dirs_bytes (firstn (Z.to_nat N) (h_dirs h))) = 8 * N) as EDL.
    { rewrite dirs_bytes_length. unfold zlen. rewrite D1. lia. }
    assert (ceil_mult (h_imagesize h) (h_salign h) = send (salign p) s0) as EC.
    { rewrite I1. apply ceil_mult_id; [apply pow2_pos; assumption|]. apply divide_mod; [apply pow2_pos; assumption|exact I3]. }
    assert (zlen (p_sections q) = zlen (p_sections p)) as EZ by (rewrite sections_q; apply place_length).
    assert (off + 24 + h_optsize h = off + fixed + 8 * N) as EP.
    { rewrite optsize_h. unfold nt_length, fixed, sizeof_nt_nodirs. fold N. destruct (p_plus p); lia. }
    assert (0 < fixed) as Hfx by (unfold fixed, sizeof_nt_nodirs; destruct (p_plus p); lia).
    pose proof HC as (W & _ & _ & C4 & C5 & C6 & _ & C8 & (start & S1 & S2 & S3 & S4) & C10).
    assert (Forall wf_section (p_sections q)) as Wq by (rewrite sections_q; apply place_wf; apply W).
    apply (read_pe_exec out strict (p_plus p) h off (p_sections q)).
    - exact Z1.
    - exact magic_at.
    - exact lfanew_at.
    - exact OR.
    - change (h_nrva h) with N. fold fixed. lia.
    - exact fit_h.
    - exact C6.
    - exact nt_slice.
    - exact NR.
    - exact D3.
    - exact D1.
    - change (h_nrva h) with N. rewrite D2. destruct r_dirs as [_ F]. rewrite Forall_forall in *. intros d Hd. apply F. rewrite <- (firstn_skipn (Z.to_nat N)). apply in_or_app. left. exact Hd.
    - change (h_nrva h) with N. fold fixed. rewrite Eo. rewrite (app_assoc A). apply slice_mid'; [rewrite zlen_app; lia|lia].
    - exact C4.
    - exact C5.
    - rewrite EZ, nsections_h. lia.
    - exact al_h.
    - rewrite EC. lia.
    - rewrite EP, EZ. lia.
    - intros i s Hi. rewrite EP. apply section_at; assumption.
    - exact in_place_q.
    - intros s t Es. destruct r_hdrsize as (_ & _ & RH).
      assert (Forall2 same_but_place (p_sections p) (p_sections q)) as F2 by (rewrite sections_q; apply place_keeps).
      rewrite Es in F2. inversion F2 as [|a b u v Hab Huv E1]; subst.
      destruct (same_place_fields a s Hab) as (_ & _ & -> & _). apply (RH a u). auto.
    - pose proof in_place_q as IP. apply (not_contiguous_chain (h_salign h) start); try assumption.
      + eapply Forall_impl; [|exact IP]. intros s (_ & V & _). split; [apply V|lia].
      + eapply Forall_impl; [|exact IP]. intros s (_ & _ & _ & _ & _ & _ & V & _). exact V.
      + assert (Forall2 same_but_place (p_sections p) (p_sections q)) as F2 by (rewrite sections_q; apply place_keeps).
        clear -F2 S3. change (h_salign h) with (salign p). revert S3. generalize start. induction F2 as [|a b u v Hab Huv IH]; intros st0 C; cbn [chain] in *; [exact I|].
        destruct C as [C1 C2]. destruct (same_place_fields a b Hab) as (_ & Fv & Fa & Fr & _). split; [congruence|].
        apply IH. assert (send (salign p) b = send (salign p) a) as -> by (unfold send, span; rewrite Fv, Fa, Fr; reflexivity). exact C2.
    - exact Hk.
  Qed.
End Reload2.
