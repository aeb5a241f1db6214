(** C89: writing the image that was read from a written file. *)
From Verif Require Export ReloadDone.

Section Again.
  Variables (p : pe) (strip chg save : bool).
  Hypothesis HC : consistent p.
  Hypothesis Ht : data_start strip save p + data_total (falign p) (p_sections p) < 2^32.
  Hypothesis Hst : no_stale_pointers (data_start strip save p) p.
  Let hb := saves_bound p save.

  Lemma read_again rd strict :
    bound_readable p save -> headers_too_long p strip chg hb = false ->
    let file := body (p_sections (rebuilt p strip chg hb)) (headers_written p strip chg hb (bound_bytes p hb)) in
    exists f r, load (p_plus p) false rd (st file strict 0) = (f, Ok r) /\ wf_stream (st file strict 0) /\
      reloaded strip chg save p r /\ p_nt r = reload_nt p strip chg hb /\ p_sections r = map loaded_section (p_sections (rebuilt p strip chg hb)).
  Proof.
    intros HB HL file.
    pose proof (off_range p strip chg save HC Ht Hst HL) as OR.
    destruct (file_size p strip chg save HC Ht Hst HB HL) as (Z1 & Z2 & Z3). fold hb in Z1, Z2. fold file in Z1, Z2.
    pose proof (n_range p HC) as NR. pose proof (zlen_nonneg (p_sections p)) as Hn.
    assert (120 <= sizeof_nt_nodirs (p_plus p)) as Hfx by (unfold sizeof_nt_nodirs; destruct (p_plus p); lia).
    pose proof (magic_at p strip chg save HC Ht Hst HL) as Mz. fold hb in Mz. fold file in Mz.
    destruct (reload_read p strip chg save HC Ht Hst HB HL rd strict 64) as (ov & full & E & EF); [fold hb; fold file; lia|].
    fold hb in E, EF. fold file in E, EF.
    set (img := mk_pe _ _ _ _ _ _ _ _ _ _) in E.
    assert (reloaded strip chg save p img) as RL by (apply reloaded_image; try assumption; reflexivity).
    assert ((dos <~ read_dos_header ; read_pe (p_plus p) dos false rd) (st file strict 0) = debug_tail rd img (st file strict (zlen full))) as EM.
    { rewrite x_dos by (try assumption; lia). exact E. }
    assert (wf_stream (st file strict 0)) as WS.
    { split; [apply bytes_out; apply HC|]. split; [cbn [i_data st]; lia|]. split; [cbn; lia|]. cbn [i_pos st i_data]. intros; lia. }
    pose proof (load_safe (p_plus p) false rd (st file strict 0) WS) as LS.
    assert (snd (load (p_plus p) false rd (st file strict 0)) = snd (debug_tail rd img (st file strict (zlen full)))) as ES.
    { unfold load, with_restore, tellg. cbn [st i_good i_fail i_eof negb andb]. fold (st file strict 0).
      change (mk_is file strict 0 false false) with (st file strict 0).
      destruct (i_good (st file strict 0)) eqn:G0; [|discriminate]. rewrite EM. destruct (debug_tail rd img (st file strict (zlen full))); reflexivity. }
    rewrite ES in LS.
    destruct (debug_tail_ok rd img (st file strict (zlen full))) as (m & s' & ET & Er); try assumption; [apply RL|reflexivity|].
    rewrite ET in ES. cbn [snd] in ES.
    destruct (load (p_plus p) false rd (st file strict 0)) as [f r] eqn:Eload. cbn [snd] in ES. subst r.
    exists f, (set_p_debug m img). split; [reflexivity|]. split; [exact WS|]. split; [apply (reloaded_image p strip chg save HC Ht Hst ov full m file); try assumption; reflexivity|].
    split; reflexivity.
  Qed.
End Again.

Lemma place_again fa l : forall ptr, place_sections fa ptr (map loaded_section (place_sections fa ptr l)) = map loaded_section (place_sections fa ptr l).
Proof.
  induction l as [|s t IH]; intros ptr; [reflexivity|]. cbn [place_sections]. destruct (s_rawsize s =? 0) eqn:E; cbn [map place_sections].
  - change (s_rawsize (loaded_section s)) with (s_rawsize s). rewrite E, IH. reflexivity.
  - change (s_rawsize (loaded_section (set_s_rawptr (u32 ptr) s))) with (s_rawsize s). rewrite E.
    change (aligned_rawsize fa (loaded_section (set_s_rawptr (u32 ptr) s))) with (aligned_rawsize fa s). rewrite IH. reflexivity.
Qed.
Lemma loaded_bytes l : map section_bytes (map loaded_section l) = map section_bytes l.
Proof. rewrite map_map. apply map_ext. reflexivity. Qed.
Lemma loaded_body l : forall out, body (map loaded_section l) out = body l out.
Proof. induction l as [|s t IH]; intros out; [reflexivity|]. cbn [map body]. rewrite IH. reflexivity. Qed.
Lemma sections_rev l : match rev (map loaded_section l) with [] => None | s :: _ => Some s end = option_map loaded_section (match rev l with [] => None | s :: _ => Some s end).
Proof. rewrite <- map_rev. destruct (rev l); reflexivity. Qed.
Lemma dirs_take l n : (n <= length l)%nat -> ztake (8 * Z.of_nat n) (dirs_bytes l) = dirs_bytes (firstn n l).
Proof.
  intros H. rewrite <- (firstn_skipn n l) at 1. unfold dirs_bytes. rewrite map_app, concat_app. fold (dirs_bytes (firstn n l)). fold (dirs_bytes (skipn n l)).
  unfold ztake. replace (Z.to_nat (8 * Z.of_nat n)) with (length (dirs_bytes (firstn n l)) + 0)%nat.
  - rewrite firstn_app_2. cbn [firstn]. apply app_nil_r.
  - pose proof (dirs_bytes_length (firstn n l)) as Q. unfold zlen in Q. rewrite firstn_length in Q. lia.
Qed.
Lemma take_over {A} (a b : list A) n : zlen a <= n -> ztake n (a ++ b) = a ++ ztake (n - zlen a) b.
Proof. intros H. unfold ztake, zlen in *. rewrite firstn_app, firstn_all2 by lia. f_equal. f_equal. lia. Qed.
Lemma rev_size sa l : match rev (map loaded_section l) with [] => None | s :: _ => Some (u32 (s_va s + aligned_vsize sa s)) end =
  match rev l with [] => None | s :: _ => Some (u32 (s_va s + aligned_vsize sa s)) end.
Proof. rewrite <- map_rev. destruct (rev l); reflexivity. Qed.
Lemma place_rev sa fa ptr l : match rev (place_sections fa ptr l) with [] => None | s :: _ => Some (u32 (s_va s + aligned_vsize sa s)) end =
  match rev l with [] => None | s :: _ => Some (u32 (s_va s + aligned_vsize sa s)) end.
Proof.
  destruct (rev l) as [|s t] eqn:E.
  - apply (f_equal (@rev _)) in E. rewrite rev_involutive in E. subst l. reflexivity.
  - apply (f_equal (@rev _)) in E. rewrite rev_involutive in E. subst l. cbn [rev]. generalize (rev t). clear t. intros l. revert ptr.
    assert (X : forall ptr, exists t' s', place_sections fa ptr (l ++ [s]) = t' ++ [s'] /\ s_va s' = s_va s /\ aligned_vsize sa s' = aligned_vsize sa s).
    { induction l as [|x l IH]; intros ptr; cbn [app place_sections].
      - destruct (s_rawsize s =? 0); exists []; eexists; (split; [reflexivity|split; reflexivity]).
      - destruct (s_rawsize x =? 0).
        + destruct (IH ptr) as (t' & s' & -> & A & B). exists (x :: t'), s'. split; [reflexivity|split; assumption].
        + destruct (IH (u64 (ptr + aligned_rawsize fa x))) as (t' & s' & -> & A & B). eexists (_ :: t'), s'. split; [reflexivity|split; assumption]. }
    intros ptr. destruct (X ptr) as (t' & s' & -> & A & B). rewrite rev_app_distr. cbn [rev app]. rewrite A, B. reflexivity.
Qed.
Lemma place_first fa ptr l : match place_sections fa ptr l with s :: _ => Some (s_va s) | [] => None end = match l with s :: _ => Some (s_va s) | [] => None end.
Proof. destruct l as [|s t]; [reflexivity|]. cbn [place_sections]. destruct (s_rawsize s =? 0); reflexivity. Qed.

Lemma nt_again o i n z d d0 (strip : bool) h :
  let r := set_h_dirs d (set_h_optsize o (set_h_imagesize i (set_h_nsections n (set_h_hdrsize z (set_h_dirs d0 (set_h_basecode (if strip then 16 else h_basecode h) h)))))) in
  set_h_optsize o (set_h_imagesize i (set_h_nsections n (set_h_hdrsize z (set_h_dirs (h_dirs r) (set_h_basecode (if strip then 16 else h_basecode r) r))))) =
  set_h_dirs (h_dirs r) (set_h_optsize o (set_h_imagesize i (set_h_nsections n (set_h_hdrsize z (set_h_dirs d0 (set_h_basecode (if strip then 16 else h_basecode h) h)))))).
Proof. destruct h, strip; pe_red; reflexivity. Qed.
Lemma dos_short p l : zlen (p_dosmid p) = 58 -> ztake 16 (dos_bytes p l) = le 2 (p_magic p) ++ ztake 14 (p_dosmid p).
Proof.
  intros H. unfold dos_bytes. assert (L : zlen (le 2 (p_magic p)) = 2) by reflexivity. rewrite take_over by lia. f_equal. rewrite L. change (16 - 2) with 14.
  unfold ztake, zlen in *. rewrite firstn_app. replace (Z.to_nat 14 - length (p_dosmid p))%nat with 0%nat by lia. apply app_nil_r.
Qed.
Lemma dos_again m (dm t : list Z) : zlen dm = 58 -> ztake 14 (slice ((le 2 m ++ ztake 14 dm) ++ t) 2 58) = ztake 14 dm.
Proof.
  intros H. assert (L : length (ztake 14 dm) = 14%nat) by (unfold ztake, zlen in *; rewrite firstn_length; lia).
  revert L. generalize (ztake 14 dm). intros a L. rewrite <- app_assoc. change (slice (le 2 m ++ a ++ t) 2 58) with (firstn 58 (a ++ t)). change (firstn 14 (firstn 58 (a ++ t)) = a).
  rewrite firstn_firstn. change (Nat.min 14 58) with 14%nat. rewrite firstn_app, firstn_all2 by lia. rewrite L. apply app_nil_r.
Qed.

Lemma fields_dirs plus d h : nt_fields plus (set_h_dirs d h) = nt_fields plus h.
Proof. destruct plus, h; reflexivity. Qed.
Lemma dirs_of_set d h : h_dirs (set_h_dirs d h) = d.
Proof. destruct h; reflexivity. Qed.

Lemma write_again p strip chg save q out : consistent p -> save = false \/ nth_error (h_dirs (p_nt p)) 11 = Some (0, 0) -> data_start strip save p + data_total (falign p) (p_sections p) < 2^32 ->
  no_stale_pointers (data_start strip save p) p -> rebuild_pe p strip chg save = Ok (q, out) ->
  forall strict rd, exists f r q',
    factory_create false rd (open_stream strict out) = (f, Ok r) /\ load (p_plus p) false rd (open_stream strict out) = (f, Ok r) /\
    reloaded strip chg save p r /\ rebuild_pe r strip chg save = Ok (q', out).
Proof.
  intros HC Hb Ht Hst E strict rd.
  assert (Sb : saves_bound p save = false) by (unfold saves_bound, dir_bound; destruct Hb as [->|Hb]; [reflexivity|rewrite (nth_error_nth _ _ (0, 0) Hb); cbn [fst]; destruct save, (11 <? nrva p); reflexivity]).
  pose proof (consistent_range p HC) as RR.
  destruct (reload_thm p strip chg save q out HC Ht Hst E strict rd) as (f & r & Fa & Lo & Re & _).
  destruct (readable_or_throws p strip chg save RR) as [B|[e E']]; [|rewrite E' in E; discriminate].
  destruct (rebuild_eq p strip chg save RR B) as [Eq _]. rewrite Sb in Eq. rewrite Eq in E.
  destruct (headers_too_long p strip chg false) eqn:HL; cbn [throw_if bind] in E; [discriminate|].
  assert (Eo : body (p_sections (rebuilt p strip chg false)) (headers_written p strip chg false (bound_bytes p false)) = out) by (apply (f_equal (fun x => match x with Ok (_, o) => o | _ => [] end)) in E; exact E). clear E.
  destruct (read_again p strip chg save HC Ht Hst rd strict B ltac:(rewrite Sb; exact HL)) as (f2 & r2 & Lo2 & WS & _ & En & Es). rewrite Sb in Lo2, WS, En, Es.
  rewrite Eo in Lo2, WS. change (st out strict 0) with (open_stream strict out) in *. rewrite Lo in Lo2. injection Lo2 as <- <-.
  exists f, r. 
  destruct (load_ok _ _ _ _ _ _ WS Lo) as (Pl & HW & (_ & _ & Edm & _) & _).
  pose proof Re as (_ & Em & _ & Ed & Est & Fs & _ & _ & Dr & Re9). 
  destruct RR as (D & N & Hm & W & Hh & R & Hf & HV & HS). destruct (align4 (zlen (p_stub p))) as (A1 & A2 & A3 & A4); [pose proof (zlen_nonneg (p_stub p)); pose proof (zlen_nonneg (p_sections p)); lia|].
  assert (N1 : nrva r = nrva p) by (unfold nrva; rewrite En; reflexivity).
  assert (N2 : falign r = falign p) by (unfold falign; rewrite En; reflexivity).
  assert (N3 : h_salign (p_nt r) = h_salign (p_nt p)) by (rewrite En; reflexivity).
  assert (Ls : zlen (p_sections r) = zlen (p_sections p)) by (rewrite Es; unfold zlen; rewrite map_length; apply place_length).
  assert (Lst : zlen (p_stub r) = if strip then 0 else ceil_mult (zlen (p_stub p)) 4) by (rewrite Est; destruct strip; [reflexivity|rewrite zlen_app, zlen_zeros; lia]).
  assert (St : ceil_mult (zlen (p_stub r)) 4 = zlen (p_stub r)) by (rewrite Lst; destruct strip; [reflexivity|apply ceil_mult_id; [lia|exact A4]]).
  assert (HS' : 0 <= zlen (p_stub p) < 2^30) by (pose proof (zlen_nonneg (p_stub p)); destruct HC as (_ & X & _); lia).
  assert (HN : 0 < zlen (p_sections p) <= 0x60) by apply HC.
  destruct (align4 (zlen (p_stub r))) as (B1 & B2 & B3 & B4); [rewrite Lst; destruct strip; lia|].
  assert (Ph : ptr_headers r strip = ptr_headers p strip).
  { unfold ptr_headers, missing_dirs. rewrite N1, Ls, Pl. destruct strip; [reflexivity|]. rewrite A1, B1, St, Lst. reflexivity. }
  assert (Pd : ptr_data r strip false = ptr_data p strip false) by (unfold ptr_data; rewrite Ph, N2; reflexivity).
  assert (Pp : 0 < falign p /\ power_of_two (falign p) /\ falign p < 2^32).
  { destruct HC as (_ & _ & _ & _ & _ & _ & (C1 & C2 & C3 & C4 & _) & _). unfold falign, salign in *. split; [apply pow2_pos; assumption|]. split; [assumption|lia]. }
  assert (Se : p_sections (rebuilt r strip chg false) = p_sections r).
  { change (place_sections (falign r) (ptr_data r strip false) (p_sections r) = p_sections r). rewrite N2, Pd, Es. apply place_again. }
  assert (HL' : headers_too_long r strip chg false = false).
  { unfold headers_too_long in *. rewrite Pd, Es. cbn [rebuilt p_sections]. destruct (p_sections p) as [|s t]; [exact HL|]. cbn [place_sections]. destruct (s_rawsize s =? 0); exact HL. }
  assert (Nt : rebuilt_nt r strip chg false = set_h_dirs (h_dirs (p_nt r)) (rebuilt_nt p strip chg false)).
  { assert (Sz : (if chg then u32 (ptr_data r strip false) else h_hdrsize (p_nt r)) = if chg then u32 (ptr_data p strip false) else h_hdrsize (p_nt p)) by (rewrite Pd, En; destruct chg; reflexivity).
    assert (Im : forall x, match rev (p_sections r) with [] => x | s :: _ => u32 (s_va s + aligned_vsize (h_salign (p_nt r)) s) end =
      match rev (p_sections p) with [] => x | s :: _ => u32 (s_va s + aligned_vsize (h_salign (p_nt p)) s) end).
    { intros x. rewrite N3. pose proof (rev_size (h_salign (p_nt p)) (p_sections (rebuilt p strip chg false))) as X. rewrite <- Es in X. cbn [rebuilt p_sections] in X. rewrite place_rev in X.
      destruct (rev (p_sections r)), (rev (p_sections p)); try discriminate X; [reflexivity|injection X as X; exact X]. }
    unfold rebuilt_nt at 1. cbv zeta. rewrite Sz, Im, Ls, Pl. replace (missing_dirs r) with (missing_dirs p) by (unfold missing_dirs; rewrite N1; reflexivity).
    rewrite En. unfold reload_nt, rebuilt_nt. cbv zeta iota. apply nt_again. }
  assert (RR' : rebuild_range r).
  { destruct HW as (_ & _ & W3 & _ & _ & W6 & W7 & W8 & W9 & _ & W11). split; [exact Dr|]. split; [rewrite N1; exact N|]. split; [exact W3|]. split; [exact W9|].
    split; [unfold hdrsize; destruct (fits_ranges _ _ W6); unfold is_u32 in *; tauto|]. split.
    - unfold raw_sizes_ok in *. clear -R Fs. induction Fs as [|s t l m H _ IH]; [constructor|]. apply Forall_cons_iff in R as [R1 R2]. constructor; [|apply IH; exact R2].
      destruct H as (_ & _ & _ & H4 & _ & _ & _ & _ & _ & H10). rewrite H4, H10. exact R1.
    - split; [exact W11|]. split; [|rewrite Ls, Lst; destruct strip; lia].
      assert (Hz : hdrsize r = if chg then u32 (ptr_data p strip false) else hdrsize p) by (unfold hdrsize; rewrite En; reflexivity).
      assert (Hp : Forall (fun s => hdrsize r <= s_va s) (p_sections p)).
      { rewrite Hz. destruct chg; [|exact HV]. destruct HC as (_ & _ & _ & _ & _ & _ & (C1 & C2 & _) & _ & (start & _ & _ & S3 & _) & _).
        apply Forall_forall. intros s Hs. pose proof (chain_first_le (salign p) start (p_sections p) s ltac:(apply pow2_pos; assumption) W S3 Hs) as X.
        unfold headers_too_long in HL. destruct (p_sections p) as [|a l]; [destruct Hs|]. cbn [andb] in HL. destruct S3 as [S3 _]. lia. }
      clear -Hp Fs. revert Hp. generalize (hdrsize r). intros z Hp. induction Fs as [|s t l m H _ IH]; [constructor|]. apply Forall_cons_iff in Hp as [R1 R2]. constructor; [|apply IH; exact R2].
      destruct H as (_ & _ & H3 & _). rewrite H3. exact R1. }
  assert (Hr : save = false \/ fst (dir_bound r) = 0).
  { destruct Hb as [Hb|Hb]; [left; exact Hb|right]. unfold dir_bound. rewrite En. unfold reload_nt. cbv zeta. rewrite dirs_of_set, rebuilt_dirs_eq. cbv iota. destruct D as [D1 _].
    destruct (Z.le_gt_cases (nrva p) 11).
    - rewrite app_nth2 by (rewrite firstn_length; lia). rewrite nth_repeat. reflexivity.
    - rewrite app_nth1 by (rewrite firstn_length; lia). rewrite (nth_error_nth (firstn (Z.to_nat (nrva p)) (h_dirs (p_nt p))) 11 (0, 0) (x := (0, 0))); [reflexivity|]. rewrite nth_firstn_lt by lia. exact Hb. }
  assert (Sr : saves_bound r save = false) by (unfold saves_bound; destruct Hr as [->| ->]; [reflexivity|destruct save, (11 <? nrva r); reflexivity]).
  assert (B' : bound_readable r save).
  { destruct Hr as [->|Hr]; [|left; exact Hr]. unfold bound_readable. rewrite N1. destruct (Z.eq_dec (nrva p) 0) as [Z0|Z0].
    - left. unfold dir_bound. rewrite En. unfold reload_nt. cbv zeta. cbn [h_dirs set_h_dirs]. rewrite Z0. reflexivity.
    - right. destruct (Z.le_gt_cases (nrva p) 11); [left; lia|right; split; [lia|discriminate]]. }
  destruct (rebuild_eq r strip chg save RR' B') as [Eq' _]. rewrite Sr in Eq'. rewrite Eq', HL'. cbn [throw_if bind].
  eexists. split; [exact Fa|]. split; [exact Lo|]. split; [exact Re|]. f_equal. f_equal. rewrite Se, <- Eo, Es, loaded_body. f_equal.
  change (bound_bytes r false) with (@nil Z). change (bound_bytes p false) with (@nil Z). unfold headers_written.
  f_equal; [|f_equal; [|f_equal]].
  - destruct strip; cbn [dos_written].
    + rewrite !dos_short by (try exact Hm; apply HW). rewrite Em. f_equal. rewrite Edm. change (i_pos (open_stream strict out) + 2) with 2. change (i_data (open_stream strict out)) with out.
      destruct (body_prefix (p_sections (rebuilt p true chg false)) (headers_written p true chg false (bound_bytes p false))) as [T ET]. rewrite <- Eo, ET. unfold headers_written. cbn [dos_written].
      rewrite dos_short by exact Hm. rewrite <- (app_assoc (le 2 (p_magic p) ++ ztake 14 (p_dosmid p))). apply dos_again. exact Hm.
    + f_equal. unfold dos_bytes. rewrite Em, (Ed eq_refl). unfold new_lfanew. rewrite A2, B2, St, Lst. reflexivity.
  - unfold stub_written. destruct strip; [reflexivity|]. rewrite A1, B1, St, Z.sub_diag, Est. rewrite app_nil_r. reflexivity.
  - rewrite N1, Pl. unfold nt_bytes. cbn [rebuilt p_plus p_nt]. rewrite Nt, Pl.
    rewrite fields_dirs, dirs_of_set, rebuilt_dirs_eq. cbv iota.
    assert (Le : zlen (enc_fields (nt_widths (p_plus p)) (nt_fields (p_plus p) (rebuilt_nt p strip chg false))) = sizeof_nt (p_plus p) - 128).
    { pose proof (nt_bytes_length (rebuilt p strip chg false) (rebuilt_dirs_length p strip chg false (proj1 D))) as Q. unfold nt_bytes in Q. rewrite zlen_app, dirs_bytes_length in Q. cbn [rebuilt p_plus p_nt] in Q.
      rewrite rebuilt_dirs_eq in Q. cbv iota in Q. unfold zlen at 2 in Q. rewrite (proj1 D) in Q. lia. }
    rewrite !take_over by lia. f_equal. rewrite Le. replace (sizeof_nt (p_plus p) - 8 * (16 - nrva p) - (sizeof_nt (p_plus p) - 128)) with (8 * Z.of_nat (Z.to_nat (nrva p))) by lia.
    destruct D as [D1 _], Dr as [D2 _]. rewrite !dirs_take by lia. f_equal. rewrite En. unfold reload_nt. cbv zeta. rewrite dirs_of_set, rebuilt_dirs_eq. cbv iota. rewrite firstn_app, firstn_firstn, Nat.min_id, firstn_length, D1. replace (Z.to_nat (nrva p) - Nat.min (Z.to_nat (nrva p)) 16)%nat with 0%nat by lia. apply app_nil_r.
  - f_equal. rewrite Se, Es, loaded_bytes. reflexivity.
Qed.
