(** Running the loader forward on a file whose parts are known. *)
From Verif Require Export ReloadFacts.

Lemma dirs_of_zeros k m : 8 * Z.of_nat k <= m -> dirs_of_bytes k (zeros m) = repeat (0, 0) k.
Proof.
  revert m. induction k as [|k IH]; intros m H; cbn [dirs_of_bytes repeat]; [reflexivity|].
  assert (zeros m = zeros 8 ++ zeros (m - 8)) as E.
  { unfold zeros. rewrite <- repeat_app. f_equal. lia. }
  rewrite E. rewrite (slice_app_l _ _ 0 4), (slice_app_l _ _ 4 4) by (try rewrite zlen_zeros; lia).
  change (unle (slice (zeros 8) 0 4)) with 0. change (unle (slice (zeros 8) 4 4)) with 0.
  change 8 with (zlen (zeros 8)) at 1. rewrite zdrop_exact. rewrite IH by lia. reflexivity.
Qed.
Lemma dirs_of_dirs_bytes l : forall k m, Forall (fun d => is_u32 (fst d) /\ is_u32 (snd d)) l ->
  8 * Z.of_nat k <= m -> dirs_of_bytes (length l + k) (dirs_bytes l ++ zeros m) = l ++ repeat (0, 0) k.
Proof.
  induction l as [|[a b] l IH]; intros k m F H; cbn [length Nat.add app].
  - unfold dirs_bytes. cbn [map concat app]. apply dirs_of_zeros; assumption.
  - apply Forall_cons_iff in F as [[Fa Fb] F]. cbn [fst snd] in Fa, Fb.
    assert (dirs_bytes ((a, b) :: l) ++ zeros m = (le 4 a ++ le 4 b) ++ dirs_bytes l ++ zeros m) as ->.
    { unfold dirs_bytes. cbn [map concat fst snd]. rewrite <- !app_assoc. reflexivity. }
    cbn [dirs_of_bytes]. 
    rewrite (slice_app_l _ _ 0 4), (slice_app_l _ _ 4 4) by (try rewrite zlen_app, !zlen_le; lia).
    assert (slice (le 4 a ++ le 4 b) 0 4 = le 4 a) as -> by reflexivity.
    assert (slice (le 4 a ++ le 4 b) 4 4 = le 4 b) as -> by reflexivity.
    rewrite !unle_le_small by assumption.
    change 8 with (zlen (le 4 a ++ le 4 b)) at 1. rewrite zdrop_exact. rewrite IH by assumption. reflexivity.
Qed.
Lemma nt_of_nt_fields plus h d : (plus = true -> h_basedata h = 0) -> nt_of_fields plus (nt_fields plus h) d = set_h_dirs d h.
Proof.
  intros H. destruct plus; [specialize (H eq_refl); revert H|clear H]; case h; intros; [|reflexivity].
  match goal with E : _ = 0 |- _ => cbn in E; rewrite E end. reflexivity.
Qed.

Lemma not_contiguous_chain sa st l : power_of_two sa -> sa < 2^32 -> Forall wf_section l -> Forall (fun s => s_vsize s <= 2^31 /\ s_vsize s <> 0) l ->
  Forall (fun s => send sa s < 2^32) l -> chain sa st l -> not_contiguous sa l = false.
Proof.
  intros P L. revert st. induction l as [|a l IH]; intros st W V S C; [reflexivity|].
  destruct l as [|b l]; [reflexivity|]. 
  apply Forall_cons_iff in W as [Wa W]. apply Forall_cons_iff in V as [[Va Va'] V]. apply Forall_cons_iff in S as [Sa S].
  cbn [chain] in C. destruct C as (_ & Cb & C).
  change (negb (s_va b =? u32 (s_va a + aligned_vsize sa a)) || not_contiguous sa (b :: l) = false).
  destruct (wf_ranges a Wa) as (R1 & R2 & R3 & _). pose proof (pow2_pos _ P).
  pose proof (span_nonneg sa a ltac:(assumption) R1 R3).
  assert (ceil_mult (s_vsize a) sa <= 2^31) by (apply ceil_le_2_31; assumption).
  assert (u32 (s_va a + aligned_vsize sa a) = send sa a) as ->.
  { unfold send, is_u32 in *. rewrite aligned_vsize_span; try assumption. 
    - apply u32_small; lia.
    - unfold span. replace (s_vsize a =? 0) with false by lia. lia. }
  rewrite Cb, Z.eqb_refl. cbn [negb orb]. 
  apply (IH (send sa a)); try assumption. cbn [chain]. split; assumption.
Qed.

Section LoadFile.
  Variable file : list Z.
  Variable strict : bool.
  Variable plus : bool.
  Variable h : nt_headers.
  Variable off : Z.
  Variable l : list section.
  Let fixed := sizeof_nt_nodirs plus.
  Let N := h_nrva h.
  Let pos := off + 24 + h_optsize h.
  Hypothesis Hlen : zlen file < 2^32.
  Hypothesis Hmz : le_at file 0 2 = 0x5a4d.
  Hypothesis Hlf : le_at file 60 4 = off.
  Hypothesis Hoff : 16 <= off < 2^31 /\ off mod 4 = 0.
  Hypothesis Hend : off + fixed + 8 * N <= zlen file.
  Hypothesis Hfit : fits (nt_widths plus) (nt_fields plus h).
  Hypothesis Hbd : plus = true -> h_basedata h = 0.
  Hypothesis Hnt : slice file off fixed = enc_fields (nt_widths plus) (nt_fields plus h).
  Hypothesis HN : 0 <= N <= 16.
  Hypothesis Hdirs : h_dirs h = firstn (Z.to_nat N) (h_dirs h) ++ repeat (0, 0) (16 - Z.to_nat N).
  Hypothesis Hdl : length (firstn (Z.to_nat N) (h_dirs h)) = Z.to_nat N.
  Hypothesis Hdr : Forall (fun d => is_u32 (fst d) /\ is_u32 (snd d)) (firstn (Z.to_nat N) (h_dirs h)).
  Hypothesis Hdb : slice file (off + fixed) (8 * N) = dirs_bytes (firstn (Z.to_nat N) (h_dirs h)).
  Hypothesis Hsig : h_signature h = 0x4550.
  Hypothesis Hmag : h_magic h = if plus then 0x20b else 0x10b.
  Hypothesis Hns : h_nsections h = zlen l /\ zlen l <= 0x60.
  Hypothesis Hal : ok_alignments h.
  Hypothesis Him : 0 < ceil_mult (h_imagesize h) (h_salign h) < 2^32.
  Hypothesis Hpos : 0 <= pos /\ pos + 40 * zlen l <= zlen file.
  Hypothesis Hsec : forall i s, nth_error l i = Some s -> slice file (pos + 40 * Z.of_nat i) 40 = section_bytes s.
  Hypothesis Hin : Forall (in_place file h) l.
  Hypothesis Hva : forall s t, l = s :: t -> h_hdrsize h <= s_va s.
  Hypothesis Hcon : not_contiguous (h_salign h) l = false.

  Lemma pow2_is_power x : power_of_two x -> x < 2^32 -> is_power_of_2 x = true.
  Proof. intros. pose proof (pow2_pos x ltac:(assumption)). apply is_power_of_2_spec; [lia|]. assumption. Qed.

  Lemma loaded_not_contiguous : not_contiguous (h_salign h) (map loaded_section l) = not_contiguous (h_salign h) l.
  Proof.
    clear. induction l as [|a m IH]; [reflexivity|]. destruct m as [|b m]; [reflexivity|].
    change (negb (s_va b =? u32 (s_va a + aligned_vsize (h_salign h) a)) || not_contiguous (h_salign h) (map loaded_section (b :: m)) =
            negb (s_va b =? u32 (s_va a + aligned_vsize (h_salign h) a)) || not_contiguous (h_salign h) (b :: m)).
    rewrite IH. reflexivity.
  Qed.
  Lemma full_size_ok : 0 <= full_headers_size h (zlen file) (map loaded_section l) <= zlen file.
  Proof.
    destruct (fits_ranges _ _ Hfit) as (_ & _ & _ & _ & _ & _ & [H1 H2] & _). pose proof (zlen_nonneg file).
    unfold full_headers_size. destruct (find _ _) as [s|] eqn:E.
    - apply find_some in E as [Hi Hne]. apply in_map_iff in Hi as (t & <- & Ht).
      rewrite Forall_forall in Hin. destruct (Hin t Ht) as (W & _ & _ & _ & _ & _ & _ & _ & Hz & Hd).
      destruct (wf_ranges t W) as (_ & _ & [r0 r1] & [p0 p1]).
      change (s_rawptr (loaded_section t)) with (s_rawptr t).
      assert (s_rawsize t <> 0) as Hn.
      { intros Z0. unfold sec_empty in Hne. cbn [loaded_section set_s_data set_s_old s_old s_data] in Hne.
        rewrite Z0 in Hz. destruct (raw_view t) as [|z zs]; [discriminate|]. rewrite zlen_cons in Hz. pose proof (zlen_nonneg zs). lia. }
      destruct (Hd Hn) as (_ & D2 & _). lia.
    - rewrite u32_small by lia. lia.
  Qed.

  Lemma read_pe_exec rd k : 0 <= k <= zlen file -> exists overlay full,
    read_pe plus (slice file 0 64) false rd (st file strict k) =
    debug_tail rd (mk_pe plus 0x5a4d (slice file 2 58) off (slice file 64 (off - 64)) h (map loaded_section l) overlay full [])
      (st file strict (zlen full)) /\ full = slice file 0 (zlen full).
  Proof.
    intros Hk. destruct (fits_ranges _ _ Hfit) as (_ & [o0 o1] & _ & _ & _ & [i0 i1] & [z0 z1] & _).
    destruct Hal as (P1 & P2 & Q1 & Q2 & Q3). pose proof (zlen_nonneg l) as Hl0.
    assert (dos_lfanew (slice file 0 64) = off) as EL.
    { unfold dos_lfanew. rewrite slice_slice by lia. exact Hlf. }
    assert (0 < fixed) as Hfx by (unfold fixed, sizeof_nt_nodirs; destruct plus; lia).
    unfold read_pe. rewrite x_size by assumption. cbv zeta. rewrite EL.
    rewrite x_throw by lia. rewrite s32_small by lia. rewrite x_seek by lia. rewrite x_fail.
    fold fixed. rewrite x_read by lia. rewrite x_eof. rewrite Hnt.
    assert (dec_fields (nt_widths plus) (enc_fields (nt_widths plus) (nt_fields plus h)) = nt_fields plus h) as ->.
    { rewrite <- (app_nil_r (enc_fields _ _)). apply dec_enc_fields. assumption. }
    rewrite nt_of_nt_fields by assumption. set (h0 := set_h_dirs (repeat (0, 0) 16) h).
    rewrite x_throw by (change (h_signature h0) with (h_signature h); rewrite Hsig; reflexivity).
    change (h_nrva h0) with N. replace (image_numberof_directory_entries <? N) with false by (unfold image_numberof_directory_entries; lia).
    change (h_nrva h0) with N.
    assert ((if 0 <? N then
          db <~ s_read_into (zeros 128) 0 (8 * N) ;
          s_check_eof error_reading_data_directories ~;
          sret (set_h_dirs (dirs_of_bytes 16 db) h0)
        else sret h0) (st file strict (off + fixed)) = (st file strict (off + fixed + 8 * N), Ok h)) as EH.
    { destruct (0 <? N) eqn:EN.
      - rewrite x_readz by lia. rewrite x_eof, Hdb. unfold sret. do 2 f_equal.
        assert (dirs_of_bytes 16 (dirs_bytes (firstn (Z.to_nat N) (h_dirs h)) ++ zeros (128 - 8 * N)) = h_dirs h) as ->.
        { rewrite Hdirs at 2. rewrite <- (dirs_of_dirs_bytes _ (16 - Z.to_nat N) (128 - 8 * N)) by (try assumption; lia).
          f_equal. rewrite Hdl. lia. }
        unfold h0. destruct h; reflexivity.
      - assert (N = 0) as E0 by lia. rewrite E0. unfold sret. replace (off + fixed + 8 * 0) with (off + fixed) by lia. do 2 f_equal.
        unfold h0. rewrite E0 in Hdirs. cbn [Z.to_nat firstn app Nat.sub] in Hdirs. rewrite <- Hdirs. destruct h; reflexivity. }
    erewrite x_bind by exact EH. clear EH.
    rewrite x_throw by (unfold maximum_number_of_sections; lia).
    rewrite x_throw by (rewrite Hmag; destruct plus; reflexivity).
    rewrite (pow2_is_power (h_salign h)) by (try assumption; lia).
    rewrite (pow2_is_power (h_falign h)) by (try assumption; lia).
    rewrite !x_throw by reflexivity.
    rewrite x_throw by (unfold minimum_file_alignment; lia).
    assert (align_up (h_imagesize h) (h_salign h) = ceil_mult (h_imagesize h) (h_salign h)) as EI by (apply align_up_small; try assumption; lia).
    rewrite EI, x_throw by lia.
    assert (exists k', 0 <= k' <= zlen file /\ (if sizeof_dos <? off then
             s_seek sizeof_dos ~;
             d <~ s_read_into (zeros (off - sizeof_dos)) 0 (off - sizeof_dos) ;
             s_check_eof error_reading_overlay ~;
             sret d
           else sret []) (st file strict (off + fixed + 8 * N)) = (st file strict k', Ok (slice file 64 (off - 64)))) as (k' & Hk' & EU).
    { unfold sizeof_dos. destruct (64 <? off) eqn:E64.
      - exists off. split; [lia|]. rewrite x_seek by lia. rewrite x_read by lia. rewrite x_eof. unfold sret. f_equal. f_equal. lia.
      - exists (off + fixed + 8 * N). split; [lia|]. unfold sret. f_equal.
        assert (slice file 64 (off - 64) = []) as ->; [|reflexivity]. unfold slice, ztake. 
        replace (Z.to_nat (off - 64)) with O by lia. reflexivity. }
    erewrite x_bind by exact EU. clear EU.
    assert (u32 (off + h_optsize h + 20 + 4) = pos) as -> by (unfold pos; rewrite u32_small by lia; lia).
    assert (exists k'', (0 < zlen l -> k'' = pos) /\ 0 <= k'' <= zlen file /\ (if 0 <? h_nsections h then s_seek pos ~; s_check_fail image_section_headers_not_found else sret tt) (st file strict k') =
      (st file strict k'', Ok tt)) as (k'' & Hk'' & Hk2 & ES).
    { destruct Hns as [-> _]. destruct (0 <? zlen l) eqn:E0.
      - exists pos. split; [reflexivity|]. split; [lia|]. rewrite x_seek by lia. reflexivity.
      - exists k'. split; [lia|]. split; [lia|]. reflexivity. }
    erewrite x_bind by exact ES. clear ES.
    destruct Hns as [Hns1 Hns2]. rewrite Hns1. 
    replace (Z.to_nat (zlen l)) with (length l) by (unfold zlen; lia).
    assert (exists last k3, read_sections (length l) h (zlen file) false [] 0 (st file strict k'') = (st file strict k3, Ok (map loaded_section l, last)) /\ 0 <= k3 <= zlen file) as (last & k3 & ER & Hk3).
    { destruct l as [|s0 l0] eqn:El.
      - exists 0, k''. split; [reflexivity|]. lia.
      - rewrite <- El in *. rewrite Hk'' by (rewrite El, zlen_cons; pose proof (zlen_nonneg l0); lia).
        destruct (read_sections_exec file strict h Hlen Hal ltac:(lia) l pos [] 0) as [last E]; try assumption; try lia.
        exists last. eexists. split; [exact E|]. lia. }
    erewrite x_bind by exact ER. clear ER. cbv beta iota.
    rewrite x_throw.
    2:{ destruct l as [|s0 l0]; [reflexivity|]. cbn [map]. change (s_va (loaded_section s0)) with (s_va s0).
        specialize (Hva s0 l0 eq_refl). lia. }
    rewrite loaded_not_contiguous, Hcon. rewrite x_throw by reflexivity.
    rewrite x_seek by lia. pose proof full_size_ok as FS. set (fsz := full_headers_size h (zlen file) (map loaded_section l)) in *.
    rewrite x_read by lia. rewrite x_eof.
    do 2 eexists. split.
    - instantiate (1 := slice file 0 fsz).
      unfold debug_tail. rewrite !slice_slice by lia. cbn [Z.add]. unfold le_at in Hmz. rewrite Hmz.
      assert (zlen (slice file 0 fsz) = fsz) as -> by (apply zlen_slice; lia). reflexivity.
    - rewrite zlen_slice by lia. reflexivity.
  Qed.
End LoadFile.
