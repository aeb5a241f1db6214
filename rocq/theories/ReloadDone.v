(** C25: the image read back from what rebuild_pe wrote. *)
From Verif Require Export ReloadImage.

(** ** read_debug_data never throws *)
Lemma nloop_no_throw {St A} (body : St -> res (St + A)) : (forall s e, body s <> Throw e) ->
  forall n s e, nloop n body s <> Throw e.
Proof.
  intros H. induction n as [|n IH]; intros s e; cbn [nloop]; [discriminate|].
  pose proof (H s e). destruct (body s) as [[s'|a]| | |]; try congruence. apply IH.
Qed.
Lemma debug_body_no_throw p rva size s e : debug_body p rva size s <> Throw e.
Proof.
  destruct s as [[[f pos] b] m]. unfold debug_body.
  destruct (negb (dd_ptr b =? 0) && (pos <? u32 (rva + size))); [|discriminate].
  set (X := if _ && _ then _ else _). destruct X as [f1 r]. destruct r as [m1| | |]; try discriminate.
  destruct (read_rva _ _ _ _ _); discriminate.
Qed.
Lemma debug_data_no_throw p f e : snd (read_debug_data p f) <> Throw e.
Proof.
  unfold read_debug_data. destruct (bind _ _) as [[[[rva size] b]|]| | |]; try discriminate.
  rewrite mloop_nloop. pose proof (fun s e => nloop_no_throw (debug_body p rva size) (debug_body_no_throw p rva size) (Pos.to_nat big_fuel) s e) as H.
  destruct (nloop _ _ _) as [[s'|[f1 m]]|e'| |] eqn:E; try discriminate. exfalso. exact (H _ _ E).
Qed.
Lemma debug_tail_ok rd img s : dirs_ok img -> p_debug img = [] -> safe (snd (debug_tail rd img s)) ->
  exists m s', debug_tail rd img s = (s', Ok (set_p_debug m img)) /\ (rd = false -> s' = s).
Proof.
  intros D HD S. assert (set_p_debug [] img = img) as E0 by (destruct img; cbn in HD; subst; reflexivity).
  unfold debug_tail in *. destruct rd.
  - unfold slift, sbind in *. unfold directory_exists in *.
    assert (exists b, (if dir_debug <=? u32 (nrva img - 1) then d <- nth_ub (h_dirs (p_nt img)) dir_debug ;; Ok (negb (fst d =? 0)) else Ok false) = Ok b) as [b Eb].
    { destruct (_ <=? _); [|eexists; reflexivity].
      destruct (nth_dirs img dir_debug D ltac:(unfold dir_debug; lia)) as (d & -> & _). eexists; reflexivity. }
    rewrite Eb in *. destruct b.
    + pose proof (debug_data_no_throw img s) as H. destruct (read_debug_data img s) as [f r]. cbn [snd] in *.
      destruct r as [m|e|k|]; try contradiction.
      * exists m, f. split; [reflexivity|discriminate].
      * exfalso. exact (H e eq_refl).
    + exists [], s. rewrite E0. split; [reflexivity|discriminate].
  - exists [], s. rewrite E0. split; reflexivity.
Qed.

(** ** The written bytes are bytes *)
Lemma bytes_body l : forall out, Forall wf_section l -> bytes out -> bytes (body l out).
Proof.
  induction l as [|s l IH]; intros out W B; cbn [body]; [assumption|]. apply Forall_cons_iff in W as [Ws W].
  apply IH; [assumption|]. rewrite !bytes_app. split; [assumption|]. split; [apply bytes_zeros|].
  apply bytes_ztake, bytes_raw_view; assumption.
Qed.
Lemma bytes_bound p hb : image_wf p -> bytes (bound_bytes p hb).
Proof.
  intros (_ & _ & _ & _ & _ & _ & _ & _ & W & BF & _). unfold bound_bytes. destruct hb; [|apply bytes_nil].
  destruct (ptr_rva p (fst (dir_bound p)) RawData true) as [[buf off]| | |] eqn:E; try apply bytes_nil.
  apply bytes_slice. unfold ptr_rva in E. cbn [andb] in E. destruct (_ <? _) in E; [inversion E; subst; assumption|].
  destruct (section_from_rva p (fst (dir_bound p))) as [i| | |]; try discriminate. cbn [bind] in E.
  destruct (get_section p i) as [s| | |] eqn:Es; try discriminate. cbn [bind] in E. inversion E; subst. cbn [view].
  apply bytes_raw_view. rewrite Forall_forall in W. apply W. unfold get_section in Es. apply nth_error_In with (n := i).
  destruct (nth_error (p_sections p) i); [inversion Es; reflexivity|discriminate].
Qed.
Lemma bytes_dirs l : bytes (dirs_bytes l).
Proof. induction l as [|d l IH]; [apply bytes_nil|]. unfold dirs_bytes in *. cbn [map concat]. rewrite !bytes_app. repeat split; try apply bytes_le. exact IH. Qed.
Lemma bytes_sections l : Forall wf_section l -> bytes (concat (map section_bytes l)).
Proof.
  induction l as [|s l IH]; intros W; [apply bytes_nil|]. apply Forall_cons_iff in W as [Ws W]. cbn [map concat].
  rewrite bytes_app. split; [|apply IH; assumption]. unfold section_bytes. rewrite bytes_app. split; [apply Ws|apply bytes_enc_fields].
Qed.
Lemma bytes_out p strip chg hb : image_wf p ->
  bytes (body (p_sections (rebuilt p strip chg hb)) (headers_written p strip chg hb (bound_bytes p hb))).
Proof.
  intros W. pose proof W as (_ & W2 & _ & _ & W5 & _ & _ & _ & W9 & _).
  assert (Forall wf_section (p_sections (rebuilt p strip chg hb))) as Wq by (apply place_wf; assumption).
  apply bytes_body; [assumption|]. unfold headers_written. rewrite !bytes_app.
  split. { apply bytes_ztake. unfold dos_bytes. rewrite !bytes_app. split; [apply bytes_le|split; [assumption|apply bytes_le]]. }
  split. { unfold stub_written. destruct strip; [apply bytes_nil|]. rewrite bytes_app. split; [assumption|apply bytes_zeros]. }
  split. { apply bytes_ztake. unfold nt_bytes. rewrite bytes_app. split; [apply bytes_enc_fields|apply bytes_dirs]. }
  split; [apply bytes_sections; assumption|apply bytes_bound; assumption].
Qed.

Lemma loaded_same s t : same_but_place s t -> same_section s (loaded_section t).
Proof.
  intros H. destruct (same_place_fields s t H) as (F1 & F2 & F3 & F4 & F5 & F6 & F7 & F8 & F9 & _). pose proof (same_place_raw s t H) as F.
  unfold same_section, loaded_section. cbn [set_s_data set_s_old s_name s_vsize s_va s_rawsize s_relptr s_lineptr s_nrel s_nline s_chars].
  repeat (split; [assumption|]). unfold raw_view at 1, unmap_virtual. cbn [set_s_data set_s_old s_old s_data]. exact F.
Qed.

Lemma nt_relabel d o i n z d0 b h :
  let r := set_h_dirs d (set_h_optsize o (set_h_imagesize i (set_h_nsections n (set_h_hdrsize z (set_h_dirs d0 (set_h_basecode b h)))))) in
  r = set_h_nsections (h_nsections r) (set_h_optsize (h_optsize r) (set_h_imagesize (h_imagesize r) (set_h_hdrsize (h_hdrsize r)
        (set_h_basecode (h_basecode r) (set_h_dirs (h_dirs r) h))))).
Proof. destruct h. pe_red. reflexivity. Qed.

Lemma reload_nt_relabel p strip chg hb :
  let r := reload_nt p strip chg hb in
  r = set_h_nsections (h_nsections r) (set_h_optsize (h_optsize r) (set_h_imagesize (h_imagesize r) (set_h_hdrsize (h_hdrsize r)
        (set_h_basecode (h_basecode r) (set_h_dirs (h_dirs r) (p_nt p)))))).
Proof. unfold reload_nt, rebuilt_nt. cbv zeta. apply nt_relabel. Qed.
Lemma reload_basecode p strip chg hb : h_basecode (reload_nt p strip chg hb) = if strip then 16 else h_basecode (p_nt p).
Proof. reflexivity. Qed.
Lemma rebuilt_dirs_eq p strip chg hb : h_dirs (rebuilt_nt p strip chg hb) =
  if hb then upd (h_dirs (p_nt p)) 11 (u32 (ptr_headers p strip), snd (dir_bound p)) else h_dirs (p_nt p).
Proof. reflexivity. Qed.
Lemma rebuilt_sections_eq p strip chg hb : p_sections (rebuilt p strip chg hb) = place_sections (falign p) (ptr_data p strip hb) (p_sections p).
Proof. reflexivity. Qed.
Lemma nth_firstn_lt {A} (l : list A) n i : (i < n)%nat -> nth_error (firstn n l) i = nth_error l i.
Proof.
  revert n i. induction l as [|a l IH]; intros [|n] [|i] H; cbn; try reflexivity; try lia. apply IH. lia.
Qed.
Lemma nth_repeat_lt {A} (a : A) n i : (i < n)%nat -> nth_error (repeat a n) i = Some a.
Proof. revert i. induction n as [|n IH]; intros [|i] H; cbn; try reflexivity; try lia. apply IH. lia. Qed.
Section Done.
  Variables (p : pe) (strip chg save : bool).
  Hypothesis HC : consistent p.
  Hypothesis Ht : data_start strip save p + data_total (falign p) (p_sections p) < 2^32.
  Hypothesis Hst : no_stale_pointers (data_start strip save p) p.
  Let hb := saves_bound p save.

  Lemma reloaded_image overlay full m file :
    bound_readable p save -> headers_too_long p strip chg hb = false ->
    file = body (p_sections (rebuilt p strip chg hb)) (headers_written p strip chg hb (bound_bytes p hb)) ->
    reloaded strip chg save p
      (mk_pe (p_plus p) 0x5a4d (slice file 2 58) (nt_offset strip p) (slice file 64 (nt_offset strip p - 64)) (reload_nt p strip chg hb)
         (map loaded_section (p_sections (rebuilt p strip chg hb))) overlay full m).
  Proof.
    intros HB HL EF. pose proof (consistent_range p HC) as (D & N0 & Hm & W & Hh & R & Hf & HV & HS).
    pose proof (zlen_nonneg (p_sections p)) as Hn. pose proof (zlen_nonneg (p_stub p)) as Hn2.
    destruct (dirs_h p strip chg save HC HL) as (D1 & D2 & D3).
    destruct (r_dirs p strip chg save HC HL) as (E1 & E2). fold hb in D1, D2, D3, E1, E2.
    unfold reloaded. cbn [p_plus p_magic p_lfanew p_dosmid p_stub p_sections p_nt].
    split; [reflexivity|]. split; [symmetry; apply HC|]. split; [reflexivity|].
    split.
    { intros Es. destruct (dos_slice p strip chg save HC Ht Hst HL Es) as [X _]. fold hb in X. rewrite <- EF in X.
      assert (slice file 2 58 = slice (slice file 0 64) 2 58) as -> by (rewrite slice_slice by lia; reflexivity).
      rewrite X. unfold dos_bytes. apply slice_mid'; [reflexivity|symmetry; exact Hm]. }
    split.
    { destruct (Bool.bool_dec strip true) as [Es|Es].
      - unfold nt_offset. rewrite Es. unfold slice, ztake. reflexivity.
      - apply Bool.not_true_is_false in Es. destruct (dos_slice p strip chg save HC Ht Hst HL Es) as [_ X]. fold hb in X. rewrite <- EF in X.
        rewrite X. unfold stub_written. rewrite Es. destruct (align4 (zlen (p_stub p))) as (-> & _); [lia|]. reflexivity. }
    split.
    { pose proof (place_keeps (falign p) (p_sections p) (ptr_data p strip hb)) as F2.
      rewrite rebuilt_sections_eq.
      clear -F2. induction F2 as [|a b u v Hab Huv IH]; cbn [map]; [constructor|]. constructor; [apply loaded_same; assumption|exact IH]. }
    split.
    { pose proof (optsize_h p strip chg save HC HL) as X1. pose proof (nsections_h p strip chg save HC HL) as X2.
      destruct (r_hdrsize p strip chg save HC Ht HL) as (X3 & _).
      unfold imagesize. cbn [p_nt]. rewrite <- X1, <- X2, <- X3. fold hb.
      rewrite <- (reload_basecode p strip chg hb). apply reload_nt_relabel. }
    split.
    { intros l s El. destruct (r_image p strip chg save HC Ht HL l s El) as [X _]. exact X. }
    split.
    { split.
      - cbn [p_nt]. rewrite D3, app_length, D1, repeat_length. fold hb. lia.
      - cbn [p_nt]. rewrite D3. apply Forall_app. split.
        + rewrite D2. rewrite Forall_forall in *. intros d Hd. apply E2. rewrite <- (firstn_skipn (Z.to_nat (nrva p))). apply in_or_app. left. exact Hd.
        + apply Forall_forall. intros d Hd. apply repeat_spec in Hd. subst d. unfold is_u32. cbn [fst snd]. lia. }
    intros id d [Hid Hd]. split; [assumption|]. cbn [p_nt]. rewrite D3.
    assert (nth_error (h_dirs (p_nt p)) (Z.to_nat id) <> None) as Hl by congruence. apply nth_error_Some in Hl. rewrite (proj1 D) in Hl.
    destruct (id <? nrva p) eqn:C.
    - rewrite nth_error_app1 by (rewrite D1; lia). rewrite D2, nth_firstn_lt by lia.
      rewrite rebuilt_dirs_eq. unfold headers_end. rewrite bound_length_eq by assumption. rewrite bound_saved_eq by assumption. fold hb.
      destruct (dir_bound_ok p D) as (X1 & [_ _] & [X2 X3]). destruct (ptr_headers_eq p strip N0 HS) as [Y1 Y2].
      destruct (Z.eqb_spec id 11) as [->|Hne]; cbn [andb].
      + assert (d = dir_bound p) as Ed.
        { unfold dir_bound. symmetry. apply nth_error_nth. exact Hd. }
        destruct hb; [|exact Hd].
        change 11%nat with (Z.to_nat 11). rewrite nth_error_upd_same by (rewrite (proj1 D); lia).
        rewrite <- Ed. do 2 f_equal. rewrite Y1. rewrite u32_small by lia. lia.
      + destruct hb; [|exact Hd]. rewrite nth_error_upd_other by lia. exact Hd.
    - rewrite nth_error_app2 by (rewrite D1; lia). rewrite D1. apply nth_repeat_lt. lia.
  Qed.

  Lemma type_exec rd strict :
    bound_readable p save -> headers_too_long p strip chg hb = false ->
    let file := body (p_sections (rebuilt p strip chg hb)) (headers_written p strip chg hb (bound_bytes p hb)) in
    get_pe_type (st file strict 0) = (st file strict 0, Ok (p_plus p)) /\
    exists f r, load (p_plus p) false rd (st file strict 0) = (f, Ok r) /\ (rd = false -> f = st file strict 0) /\
      reloaded strip chg save p r.
  Proof.
    intros HB HL file.
    pose proof (off_range p strip chg save HC Ht Hst HL) as OR.
    destruct (file_size p strip chg save HC Ht Hst HB HL) as (Z1 & Z2 & Z3). fold hb in Z1, Z2. fold file in Z1, Z2.
    pose proof (n_range p HC) as NR. pose proof (zlen_nonneg (p_sections p)) as Hn.
    assert (120 <= sizeof_nt_nodirs (p_plus p)) as Hfx by (unfold sizeof_nt_nodirs; destruct (p_plus p); lia).
    pose proof (magic_at p strip chg save HC Ht Hst HL) as Mz. pose proof (lfanew_at p strip chg save HC Ht Hst HL) as Lf. fold hb in Mz, Lf. fold file in Mz, Lf.
    assert (dos_lfanew (slice file 0 64) = nt_offset strip p) as EL.
    { unfold dos_lfanew. rewrite slice_slice by lia. exact Lf. }
    split.
    - unfold get_pe_type. apply x_restore with (s' := st file strict (nt_offset strip p + 120)); [lia|intros; lia| |reflexivity|reflexivity|reflexivity].
      rewrite x_dos by (try assumption; lia). rewrite EL. rewrite s32_small by lia. rewrite x_seek by lia. rewrite x_fail.
      rewrite x_read by lia. rewrite x_eof. cbv zeta.
      assert (forall i o w, (i < 16)%nat -> nth i (nt_widths false) O = w -> nth i (nt_widths (p_plus p)) O = w ->
         fold_right Nat.add O (firstn i (nt_widths false)) = o -> fold_right Nat.add O (firstn i (nt_widths (p_plus p))) = o ->
         (o + w <= 120)%nat ->
         nth i (dec_fields (nt_widths false) (slice file (nt_offset strip p) 120)) 0 = nth i (nt_fields (p_plus p) (reload_nt p strip chg hb)) 0) as NF.
      { intros i o w Hi W1 W2 O1 O2 Hw. rewrite dec_fields_nth by (cbn [length nt_widths]; lia). rewrite W1, O1.
        pose proof (field_at p strip chg save HC Ht Hst HL i) as F. fold hb in F. fold file in F. rewrite <- F by (destruct (p_plus p); cbn [length nt_widths]; lia).
        rewrite W2, O2. unfold le_at. f_equal. rewrite <- (slice_slice file (nt_offset strip p) 120 (Z.of_nat o) (Z.of_nat w)) by lia.
        unfold slice at 2. unfold ztake, zdrop. rewrite !Nat2Z.id. reflexivity. }
      set (L := dec_fields (nt_widths false) (slice file (nt_offset strip p) 120)) in *.
      change (h_signature (nt_of_fields false L [])) with (nth 0 L 0). change (h_magic (nt_of_fields false L [])) with (nth 8 L 0).
      rewrite (NF 0%nat 0%nat 4%nat); try reflexivity; try lia; [|destruct (p_plus p); reflexivity].
      rewrite (NF 8%nat 24%nat 2%nat); try reflexivity; try lia; [|destruct (p_plus p); reflexivity|destruct (p_plus p); reflexivity].
      assert (nth 0 (nt_fields (p_plus p) (reload_nt p strip chg hb)) 0 = h_signature (p_nt p)) as -> by (destruct (p_plus p); reflexivity).
      assert (nth 8 (nt_fields (p_plus p) (reload_nt p strip chg hb)) 0 = h_magic (p_nt p)) as -> by (destruct (p_plus p); reflexivity).
      destruct HC as (_ & _ & _ & -> & -> & _). rewrite x_throw by reflexivity.
      rewrite x_throw by (destruct (p_plus p); reflexivity). destruct (p_plus p); reflexivity.
    - destruct (reload_read p strip chg save HC Ht Hst HB HL rd strict 64) as (ov & full & E & EF); [fold hb; fold file; lia|].
      fold hb in E, EF. fold file in E, EF.
      set (img := mk_pe _ _ _ _ _ _ _ _ _ _) in E.
      assert (reloaded strip chg save p img) as RL by (apply reloaded_image; try assumption; reflexivity).
      assert ((dos <~ read_dos_header ; read_pe (p_plus p) dos false rd) (st file strict 0) = debug_tail rd img (st file strict (zlen full))) as EM.
      { rewrite x_dos by (try assumption; lia). exact E. }
      assert (wf_stream (st file strict 0)) as WS.
      { split; [apply bytes_out; apply HC|]. split; [cbn [i_data st]; lia|]. split; [cbn; lia|]. cbn [i_pos st i_data]. intros; lia. }
      pose proof (load_safe (p_plus p) false rd (st file strict 0) WS) as LS. 
      assert (snd (load (p_plus p) false rd (st file strict 0)) = snd (debug_tail rd img (st file strict (zlen full)))) as ES.
      { unfold load, with_restore, tellg. cbn [st i_good i_fail i_eof negb andb]. fold (st file strict 0).
        change (mk_is file strict 0 false false) with (st file strict 0). 
        destruct (i_good (st file strict 0)) eqn:G0; [|discriminate]. rewrite EM. destruct (debug_tail rd img (st file strict (zlen full))); reflexivity. }
      rewrite ES in LS.
      destruct (debug_tail_ok rd img (st file strict (zlen full))) as (m & s' & ET & Er); try assumption; [apply RL|reflexivity|].
      rewrite ET in ES. cbn [snd] in ES.
      destruct (load (p_plus p) false rd (st file strict 0)) as [f r] eqn:Eload. cbn [snd] in ES. subst r.
      exists f, (set_p_debug m img). split; [reflexivity|]. split.
      + intros Erd. specialize (Er Erd). subst s'.
        unfold load in Eload. erewrite x_restore in Eload; [inversion Eload; reflexivity|lia|intros; lia|rewrite EM; exact ET|reflexivity|reflexivity|reflexivity].
      + apply (reloaded_image ov full m file); try assumption; reflexivity.
  Qed.
End Done.
Lemma reload_thm p strip chg save q out :
  consistent p -> data_start strip save p + data_total (falign p) (p_sections p) < 2^32 ->
  no_stale_pointers (data_start strip save p) p -> rebuild_pe p strip chg save = Ok (q, out) ->
  forall strict rd, exists f r,
    factory_create false rd (open_stream strict out) = (f, Ok r) /\ load (p_plus p) false rd (open_stream strict out) = (f, Ok r) /\
    reloaded strip chg save p r /\ (rd = false -> f = open_stream strict out).
Proof.
  intros HC Ht Hst E strict rd. pose proof (consistent_range p HC) as RR.
  destruct (readable_or_throws p strip chg save RR) as [B|[e E']]; [|rewrite E' in E; discriminate].
  destruct (rebuild_eq p strip chg save RR B) as [Eq _]. rewrite Eq in E.
  destruct (headers_too_long p strip chg (saves_bound p save)) eqn:HL; cbn [throw_if bind] in E; [discriminate|].
  inversion E; subst q out. clear E.
  destruct (type_exec p strip chg save HC Ht Hst rd strict B HL) as [T (f & r & L & Lf & R)].
  exists f, r. split; [|split; [exact L|split; assumption]].
  unfold factory_create. erewrite x_bind by exact T. exact L.
Qed.
Lemma rebuild_succeeds p strip chg save :
  consistent p -> (save = false \/ nth_error (h_dirs (p_nt p)) 11 = Some (0, 0)) -> nrva p <> 0 ->
  data_start strip save p < 2^32 ->
  (forall s t, p_sections p = s :: t -> chg = true -> data_start strip save p <= s_va s) ->
  exists q out, rebuild_pe p strip chg save = Ok (q, out).
Proof.
  intros HC HB HN HD HV. pose proof (consistent_range p HC) as RR. pose proof RR as (D & N0 & _).
  assert (power_of_two (falign p) /\ falign p < 2^32) as [P L].
  { destruct HC as (_ & _ & _ & _ & _ & _ & (A1 & A2 & A3 & A4 & _) & _). unfold falign, salign in *. split; [assumption|lia]. }
  assert (bound_readable p save) as B.
  { unfold bound_readable. destruct HB as [->|HB].
    - destruct (Z.le_gt_cases (nrva p) 11); [right; left; lia|]. right; right. split; [assumption|discriminate].
    - left. unfold dir_bound. apply (nth_error_nth _ _ (0, 0)) in HB. rewrite HB. reflexivity. }
  destruct (rebuild_eq p strip chg save RR B) as [Eq _].
  destruct (ptr_data_eq p strip save RR P L) as (E1 & E2 & _).
  rewrite Eq. unfold headers_too_long. rewrite E1, u32_small by lia.
  assert (chg && match p_sections p with s :: _ => s_va s <? data_start strip save p | [] => false end = false) as ->.
  { destruct chg; [|reflexivity]. cbn [andb]. destruct (p_sections p) as [|s t]; [reflexivity|]. specialize (HV s t eq_refl eq_refl). lia. }
  cbn [throw_if bind]. eauto.
Qed.
