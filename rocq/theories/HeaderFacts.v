(** Proofs about header values (C76). *)
From Verif Require Export SpecHeader BaseFacts LoadFacts ReloadDone SamplesLoad SamplesRebuild.

Lemma widths_pos ws : 0 <= widths ws. Proof. unfold widths. lia. Qed.
Lemma widths_cons w ws : widths (w :: ws) = Z.of_nat w + widths ws. Proof. unfold widths. cbn [fold_right]. lia. Qed.
Lemma field_at : forall ws vs i w, fits ws vs -> nth_error ws i = Some w -> le_at (enc_fields ws vs) (widths (firstn i ws)) (Z.of_nat w) = nth i vs 0.
Proof.
  induction ws as [|w0 ws IH]; intros vs i w F E; [destruct i; discriminate|]. destruct vs as [|v vs]; [contradiction|]. cbn [fits] in F. destruct F as [Fv F]. cbn [enc_fields]. destruct i as [|i]; cbn [nth_error] in E.
  - injection E as <-. cbn [firstn nth]. unfold le_at, widths. cbn [fold_right]. rewrite slice_app_l by (rewrite ?zlen_le; lia). rewrite slice_all by (rewrite zlen_le; lia). apply unle_le_small, Fv.
  - cbn [firstn nth]. rewrite <- (IH vs i w F E). unfold le_at. f_equal. rewrite widths_cons.
    pose proof (widths_pos (firstn i ws)). rewrite slice_app_r by (rewrite zlen_le; lia). f_equal. rewrite zlen_le. lia.
Qed.
Definition index (plus : bool) (q : query) : nat :=
  match q with
  | QSignature => 0 | QMachine => 1 | QSections => 2 | QTimestamp => 3 | QOptionalSize => 6 | QCharacteristics => 7 | QMagic => 8 | QEntryPoint => 14 | QBaseOfCode => 15
  | _ => if plus then match q with QImageBase => 16 | QSectionAlignment => 17 | QFileAlignment => 18 | QMajorOs => 19 | QMinorOs => 20 | QMajorSubsystem => 23 | QMinorSubsystem => 24
          | QImageSize => 26 | QHeadersSize => 27 | QChecksum => 28 | QSubsystem => 29 | QDllCharacteristics => 30 | QStackReserve => 31 | QStackCommit => 32 | QHeapReserve => 33 | QHeapCommit => 34 | _ => 36 end
         else match q with QImageBase => 17 | QSectionAlignment => 18 | QFileAlignment => 19 | QMajorOs => 20 | QMinorOs => 21 | QMajorSubsystem => 24 | QMinorSubsystem => 25
          | QImageSize => 27 | QHeadersSize => 28 | QChecksum => 29 | QSubsystem => 30 | QDllCharacteristics => 31 | QStackReserve => 32 | QStackCommit => 33 | QHeapReserve => 34 | QHeapCommit => 35 | _ => 37 end
  end%nat.
Lemma index_place plus q : widths (firstn (index plus q) (nt_widths plus)) = fst (place plus q) /\ nth_error (nt_widths plus) (index plus q) = Some (Z.to_nat (snd (place plus q))) /\ 0 < snd (place plus q) /\ 0 <= fst (place plus q) /\ fst (place plus q) + snd (place plus q) <= (if plus then 136 else 120).
Proof. destruct plus, q; vm_compute; repeat split; congruence. Qed.
Lemma index_get p q : nth (index (p_plus p) q) (nt_fields (p_plus p) (p_nt p)) 0 = header_get p q.
Proof. destruct p as [plus ? ? ? ? nt ? ? ? ?]. cbn [p_plus p_nt]. destruct plus, q; reflexivity. Qed.
(** The values of headers that stand at [off] of a file. *)
Lemma written_value file off p q : fits (nt_widths (p_plus p)) (nt_fields (p_plus p) (p_nt p)) -> 0 <= off ->
  slice file off (if p_plus p then 136 else 120) = enc_fields (nt_widths (p_plus p)) (nt_fields (p_plus p) (p_nt p)) -> header_value file (p_plus p) off q = header_get p q.
Proof.
  intros F O E. destruct (index_place (p_plus p) q) as (P1 & P2 & P3 & P4 & P5). rewrite <- index_get. rewrite <- (field_at _ _ _ _ F P2). rewrite P1, <- E. unfold header_value, le_at. rewrite Z2Nat.id by lia. rewrite slice_slice by lia. reflexivity.
Qed.

Lemma fits_nrva plus h v : fits (nt_widths plus) (nt_fields plus h) -> is_u32 v -> fits (nt_widths plus) (nt_fields plus (set_h_nrva v h)).
Proof. intros F V. destruct plus; cbn [nt_widths nt_fields fits] in *; repeat match type of F with _ /\ _ => let A := fresh in destruct F as [A F]; split; [exact A|] end; cbn [set_h_nrva h_nrva]; split; try exact V; exact I. Qed.
Lemma loaded_value file off p q : bytes file -> 0 <= off -> fits (nt_widths (p_plus p)) (nt_fields (p_plus p) (p_nt p)) -> headers_from_file file (p_plus p) off (p_nt p) ->
  header_get p q = (if match q with QDirectories => true | _ => false end then Z.min (header_value file (p_plus p) off q) 16 else header_value file (p_plus p) off q).
Proof.
  intros B O F (L & N & E & _). set (count := le_at file (off + (if p_plus p then 136 else 120) - 4) 4) in *.
  assert (C : is_u32 count). { unfold count, is_u32. change (2 ^ 32) with (256 ^ 4). 
    assert (Nn : 0 <= h_nrva (p_nt p)) by (destruct (p_plus p); cbn [nt_widths nt_fields fits] in F; decompose [and] F; lia). apply le_at_bound; [exact B|destruct (p_plus p); lia|lia|destruct (p_plus p); lia]. }
  pose proof (written_value file off (with_nt (set_h_nrva count) p) q) as W. change (p_plus (with_nt (set_h_nrva count) p)) with (p_plus p) in W. change (p_nt (with_nt (set_h_nrva count) p)) with (set_h_nrva count (p_nt p)) in W.
  specialize (W (fits_nrva _ _ _ F C) O (eq_sym E)). rewrite W. destruct q; try reflexivity. cbn [header_get with_nt p_nt set_p_nt set_h_nrva h_nrva]. exact N.
Qed.
Theorem load_values plus from_mem read_debug f f' p : wf_stream f -> load plus from_mem read_debug f = (f', Ok p) ->
  p_plus p = plus /\ forall q, header_get p q = (if match q with QDirectories => true | _ => false end then Z.min (header_value (i_data f) plus (le_at (i_data f) (i_pos f + 60) 4) q) 16 else header_value (i_data f) plus (le_at (i_data f) (i_pos f + 60) 4) q).
Proof.
  intros W E. destruct (load_ok _ _ _ _ _ _ W E) as (<- & Wf & Fr & _). split; [reflexivity|]. intros q. destruct Fr as (_ & _ & _ & Lf & _ & Hd & _). rewrite <- Lf. apply loaded_value; [apply W| |apply Wf|exact Hd].
  destruct Wf as (_ & _ & _ & U & _). apply U.
Qed.

Lemma chars_range p : image_wf p -> is_u16 (chars p).
Proof.
  intros W. assert (F : fits (nt_widths (p_plus p)) (nt_fields (p_plus p) (p_nt p))) by apply W. unfold chars. clear W. destruct (p_plus p); cbn [nt_widths nt_fields fits] in F; destruct F as (_ & _ & _ & _ & _ & _ & _ & F & _); exact F.
Qed.
Lemma land_lnot a b : is_u16 a -> is_u16 b -> Z.land a (u16 (Z.lnot b)) = Z.ldiff a b.
Proof.
  intros A B. apply Z.bits_inj'. intros n Hn. unfold u16. rewrite Z.land_spec, Z.ldiff_spec. destruct (Z.ltb_spec n 16).
  - change (2 ^ 16) with (2 ^ 16). rewrite Z.mod_pow2_bits_low by lia. rewrite Z.lnot_spec by lia. reflexivity.
  - replace (Z.testbit a n) with false; [reflexivity|]. symmetry. destruct (Z.eq_dec a 0) as [->|N]; [apply Z.bits_0|]. apply Z.bits_above_log2; [apply A|]. apply Z.log2_lt_pow2; [unfold is_u16 in A; lia|]. eapply Z.lt_le_trans; [apply A|]. apply Z.pow_le_mono_r; lia.
Qed.
Theorem set_values p c q : image_wf p -> arguments c ->
  header_get (header_set p c) q = changed_to (p_plus p) c q (header_get p q) /\ header_get_32 (header_set p c) q = changed_to (p_plus p) c q (header_get p q) mod 2^32.
Proof.
  intros W A. assert (G : header_get (header_set p c) q = changed_to (p_plus p) c q (header_get p q)).
  { destruct c; cbn [arguments] in A; destruct q; try reflexivity; cbn [header_get header_set changed_to]; unfold base_cast, with_nt; cbn [p_nt set_p_nt].
    - unfold clear_characteristics_flags, set_characteristics, with_nt, chars. cbn [p_nt set_p_nt set_h_chars h_chars]. apply land_lnot; [apply chars_range, W|exact A].
    - cbn [set_h_imagebase h_imagebase]. destruct (p_plus p); [apply Z.mod_small, A|reflexivity].
    - cbn [set_h_stackres h_stackres]. destruct (p_plus p); [apply Z.mod_small, A|reflexivity].
    - cbn [set_h_stackcom h_stackcom]. destruct (p_plus p); [apply Z.mod_small, A|reflexivity].
    - cbn [set_h_heapres h_heapres]. destruct (p_plus p); [apply Z.mod_small, A|reflexivity].
    - cbn [set_h_heapcom h_heapcom]. destruct (p_plus p); [apply Z.mod_small, A|reflexivity]. }
  split; [exact G|]. unfold header_get_32. rewrite G. reflexivity.
Qed.

(** A call leaves the rest of the image alone. *)
Theorem set_rest p c : let p' := header_set p c in
  p_plus p' = p_plus p /\ p_magic p' = p_magic p /\ p_dosmid p' = p_dosmid p /\ p_lfanew p' = p_lfanew p /\ p_stub p' = p_stub p /\ p_sections p' = p_sections p /\
  p_overlay p' = p_overlay p /\ p_full p' = p_full p /\ p_debug p' = p_debug p /\ h_dirs (p_nt p') = h_dirs (p_nt p).
Proof. destruct p, c; cbn; repeat split. Qed.

(** ** Directories *)
Lemma directory_exists_loaded file off p id : headers_from_file file (p_plus p) off (p_nt p) -> 0 <= id < 16 -> 0 <= header_value file (p_plus p) off QDirectories ->
  directory_exists p id = Ok ((id <? Z.min (header_value file (p_plus p) off QDirectories) 16) && negb (directory_rva_at file (p_plus p) off id =? 0)).
Proof.
  intros (L & N & E & Ln & D) Hi C0. unfold directory_exists.
  assert (C : header_value file (p_plus p) off QDirectories = le_at file (off + (if p_plus p then 136 else 120) - 4) 4) by (unfold header_value; destruct (p_plus p); cbn [place fst snd]; f_equal; lia). rewrite C in C0 |- *.
  destruct (nth_error (h_dirs (p_nt p)) (Z.to_nat id)) as [d|] eqn:Ed; [|apply nth_error_None in Ed; lia]. pose proof (D _ _ Ed) as Dd. rewrite Z2Nat.id in Dd by lia. unfold nth_ub. rewrite Ed.
  replace ((0 <=? id) && (id <? zlen (h_dirs (p_nt p)))) with true by (unfold zlen; lia). cbn [bind]. unfold nrva. fold (directory_rva_at file (p_plus p) off id) in Dd. rewrite N in Dd |- *.
  set (c := le_at file (off + (if p_plus p then 136 else 120) - 4) 4) in *. assert (0 <= c) by exact C0.
  destruct (Z.leb_spec id (u32 (Z.min c 16 - 1))) as [H'|H']; destruct (Z.ltb_spec id (Z.min c 16)) as [K|K]; subst d; cbn [fst andb Z.eqb negb]; try reflexivity.
  - exfalso. unfold u32 in H'. rewrite Z.mod_small in H'; lia.
Qed.
Theorem load_has plus from_mem read_debug f f' p q : wf_stream f -> load plus from_mem read_debug f = (f', Ok p) ->
  has_query p q = Ok (directory_present (i_data f) plus (le_at (i_data f) (i_pos f + 60) 4) (directory_number q) &&
    match q with HasReloc => negb (Z.testbit (header_value (i_data f) plus (le_at (i_data f) (i_pos f + 60) 4) QCharacteristics) 0) | _ => true end).
Proof.
  intros W E. destruct (load_values _ _ _ _ _ _ W E) as (_ & V). destruct (load_ok _ _ _ _ _ _ W E) as (<- & Wf & Fr & _). destruct Fr as (_ & _ & _ & Lf & _ & Hd & _). rewrite <- Lf in *. set (off := p_lfanew p) in *.
  assert (C0 : 0 <= header_value (i_data f) (p_plus p) off QDirectories). { pose proof (V QDirectories) as V1. cbn [header_get] in V1. cbv beta iota in V1. destruct Wf as (_ & _ & _ & _ & _ & _ & _ & N & _). unfold nrva in N. lia. }
  assert (D : forall id, 0 <= id < 16 -> directory_exists p id = Ok (directory_present (i_data f) (p_plus p) off id)).
  { intros id Hid. rewrite (directory_exists_loaded _ _ _ _ Hd Hid C0). unfold directory_present. f_equal. f_equal. lia. }
  destruct q; cbn [has_query directory_number]; rewrite ?Bool.andb_true_r; try (apply D; unfold dir_export, dir_import, dir_resource, dir_exception, dir_debug, dir_tls, dir_load_config, dir_bound_import, dir_com, dir_security, dir_delay_import; lia).
  rewrite D by (unfold dir_basereloc; lia). cbn [bind]. unfold dir_basereloc. do 2 f_equal. pose proof (V QCharacteristics) as V1. cbn [header_get] in V1. rewrite <- V1. unfold chars, image_file_relocs_stripped. rewrite Z.bit0_odd. generalize (h_chars (p_nt p)). intros c.
  change 1 with (Z.ones 1). rewrite Z.land_ones by lia. change (2 ^ 1) with 2. rewrite Zmod_odd. destruct (Z.odd c); reflexivity.
Qed.
Theorem load_subsystem plus from_mem read_debug f f' p : wf_stream f -> load plus from_mem read_debug f = (f', Ok p) ->
  let subsystem := le_at (i_data f) (le_at (i_data f) (i_pos f + 60) 4 + 92) 2 in is_console p = (subsystem =? 3) /\ is_gui p = (subsystem =? 2) /\ pe_header_start p = le_at (i_data f) (i_pos f + 60) 4.
Proof.
  intros W E s. destruct (load_values _ _ _ _ _ _ W E) as (_ & V). pose proof (V QSubsystem) as Vs. unfold is_console, is_gui. rewrite Vs. unfold header_value. replace (place plus QSubsystem) with (92, 2) by (destruct plus; reflexivity). cbn [fst snd].
  split; [reflexivity|]. split; [reflexivity|]. destruct (load_ok _ _ _ _ _ _ W E) as (_ & _ & Fr & Ck). destruct Fr as (_ & _ & _ & Lf & _). destruct Ck as (_ & _ & _ & L & _). unfold pe_header_start. rewrite <- Lf. destruct (Z.ltb_spec (p_lfanew p) (2^31)); [reflexivity|lia].
Qed.

(** ** Written values *)
Theorem written_values p strip chg save q out : consistent p -> data_start strip save p + data_total (falign p) (p_sections p) < 2^32 ->
  no_stale_pointers (data_start strip save p) p -> rebuild_pe p strip chg save = Ok (q, out) ->
  le_at out 60 4 = nt_offset strip p /\ forall v, header_value out (p_plus p) (nt_offset strip p) v = written strip chg save p v.
Proof.
  intros HC Ht Hst E. pose proof (consistent_range p HC) as RR.
  destruct (readable_or_throws p strip chg save RR) as [B|[e E']]; [|rewrite E' in E; discriminate].
  destruct (rebuild_eq p strip chg save RR B) as [Eq _]. rewrite Eq in E. cbv zeta in E.
  destruct (headers_too_long p strip chg (saves_bound p save)) eqn:HL; cbn [throw_if bind] in E; [discriminate|].
  inversion E; subst q out. clear E. split; [apply (lfanew_at p strip chg save HC Ht Hst HL)|].
  intros v. pose proof (reloaded_image p strip chg save HC Ht Hst false [] [] _ B HL eq_refl) as R.
  set (out := body _ _) in *. set (r := mk_pe _ _ _ _ _ _ _ _ _ _) in R.
  assert (G : header_value out (p_plus p) (nt_offset strip p) v = header_get r v).
  { rewrite <- index_get. change (p_plus r) with (p_plus p). change (p_nt r) with (reload_nt p strip chg (saves_bound p save)).
    destruct (index_place (p_plus p) v) as (P1 & P2 & P3 & _). unfold header_value. rewrite <- (ReloadImage.field_at p strip chg save HC Ht Hst HL (index (p_plus p) v)) by (apply nth_error_Some; congruence).
    fold out. rewrite (nth_error_nth _ _ _ P2). rewrite Z2Nat.id by lia. unfold widths in P1. rewrite P1. reflexivity. }
  rewrite G. destruct R as (_ & _ & _ & _ & _ & _ & N & I & _). unfold header_get. rewrite N. destruct v; try reflexivity.
  cbn [h_imagesize set_h_nsections set_h_optsize set_h_imagesize]. cbn [written]. destruct (rev (p_sections p)) as [|s t] eqn:Er.
  - destruct HC as (_ & _ & _ & _ & _ & _ & _ & (L & _) & _). apply (f_equal (@rev _)) in Er. rewrite rev_involutive in Er. rewrite Er in L. discriminate L.
  - apply (I (rev t)). apply (f_equal (@rev _)) in Er. rewrite rev_involutive in Er. exact Er.
Qed.
Lemma lor_u16 x y : is_u16 x -> is_u16 y -> Z.lor x y < 2^16.
Proof.
  intros [X1 X2] [Y1 Y2]. destruct (Z.eq_dec (Z.lor x y) 0) as [->|N]; [lia|]. assert (0 <= Z.lor x y) by (apply Z.lor_nonneg; auto).
  apply Z.log2_lt_pow2; [lia|]. rewrite Z.log2_lor by assumption.
  assert (G : forall z, 0 <= z < 2^16 -> Z.log2 z < 16) by (intros z Hz; destruct (Z.eq_dec z 0) as [->|Nz]; [reflexivity|apply Z.log2_lt_pow2; lia]).
  apply Z.max_lub_lt; apply G; auto.
Qed.
Lemma land_u16 x y : is_u16 x -> 0 <= y -> Z.land x y < 2^16.
Proof.
  intros [X1 X2] Y. destruct (Z.eq_dec x 0) as [->|Nx]; [rewrite Z.land_0_l; lia|]. destruct (Z.eq_dec (Z.land x y) 0) as [->|N]; [lia|]. assert (0 <= Z.land x y) by (apply Z.land_nonneg; auto).
  apply Z.log2_lt_pow2; [lia|]. eapply Z.le_lt_trans; [apply Z.log2_land; assumption|]. eapply Z.le_lt_trans; [apply Z.le_min_l|]. apply Z.log2_lt_pow2; lia.
Qed.
Lemma consistent_set p c : consistent p -> arguments c -> modest c -> consistent (header_set p c).
Proof.
  intros C A M. pose proof (chars_range p (proj1 C)) as Uc.
  destruct C as ((W1 & W2 & W3 & W4 & W5 & F & W7 & W8 & W9) & C). destruct p as [plus magic mid lf stub nt ss ov full dbg]. unfold chars, nrva, dirs_ok in *. cbn [p_plus p_nt p_magic p_dosmid p_lfanew p_stub p_sections p_full] in *.
  assert (K : forall nt', fits (nt_widths plus) (nt_fields plus nt') -> 0 <= h_nrva nt' <= 16 -> h_dirs nt' = h_dirs nt -> h_signature nt' = h_signature nt -> h_magic nt' = h_magic nt -> h_basedata nt' = h_basedata nt ->
     h_salign nt' = h_salign nt -> h_falign nt' = h_falign nt -> h_hdrsize nt' = h_hdrsize nt -> consistent (mk_pe plus magic mid lf stub nt' ss ov full dbg)).
  { intros nt' F' N' Ed Es Em Eb Esa Efa Eh. unfold consistent, image_wf, section_loadable, hdrsize, salign, falign, nrva, dirs_ok, ok_alignments in *. cbn [p_plus p_nt p_magic p_dosmid p_lfanew p_stub p_sections p_full] in *.
    rewrite Ed, Es, Em, Eb, Esa, Efa, Eh. split; [|exact C]. repeat (split; [assumption|]). exact W9. }
  assert (Hu : is_u16 (Z.land (h_chars nt) (u16 (Z.lnot (match c with ClearFlags v => v | _ => 0 end))))).
  { split; [apply Z.land_nonneg; left; apply Uc|]. apply land_u16; [exact Uc|unfold u16; apply Z.mod_pos_bound; lia]. }
  assert (Hl : forall v, is_u16 v -> is_u16 (Z.lor (h_chars nt) v)).
  { intros v Hv. split; [apply Z.lor_nonneg; split; [apply Uc|apply Hv]|]. apply lor_u16; assumption. }
  assert (Hm : forall v, 0 <= u64 v < 2^64 /\ 0 <= u32 v < 2^32) by (intros v; unfold u64, u32; split; apply Z.mod_pos_bound; lia).
  assert (Hc : forall v, fits [if plus then 8%nat else 4%nat] [base_cast (mk_pe plus magic mid lf stub nt ss ov full dbg) v]).
  { intros v. unfold base_cast. cbn [p_plus]. destruct (Hm v). destruct plus; cbn [fits]; split; auto; exact Logic.I. }
  destruct c; cbn [arguments modest] in A, M; cbn [header_set with_nt set_p_nt p_nt set_characteristics set_characteristics_flags clear_characteristics_flags set_number_of_rvas_and_sizes];
    unfold set_characteristics_flags, clear_characteristics_flags, set_characteristics, set_number_of_rvas_and_sizes, with_nt, chars; cbn [set_p_nt p_nt]; (apply K; try reflexivity; try assumption).
  all: try (cbn [set_h_nrva h_nrva]; unfold is_u32 in A; lia).
  all: destruct plus; cbn [nt_widths nt_fields fits] in F |- *; cbn [set_h_machine set_h_timestamp set_h_chars set_h_ep set_h_basecode set_h_majos set_h_minos set_h_majsub set_h_minsub set_h_checksum set_h_subsystem set_h_dllchars set_h_nrva set_h_imagebase set_h_stackres set_h_stackcom set_h_heapres set_h_heapcom
    h_signature h_machine h_nsections h_timestamp h_optsize h_chars h_magic h_ep h_basecode h_basedata h_imagebase h_salign h_falign h_majos h_minos h_majsub h_minsub h_imagesize h_hdrsize h_checksum h_subsystem h_dllchars h_stackres h_stackcom h_heapres h_heapcom h_nrva] in F |- *.
  all: change (256 ^ Z.of_nat 2) with (2 ^ 16) in *; change (256 ^ Z.of_nat 4) with (2 ^ 32) in *; change (256 ^ Z.of_nat 8) with (2 ^ 64) in *.
  all: repeat match type of F with _ /\ _ => let X := fresh "X" in destruct F as [X F]; split; [first [exact X|exact A|exact (proj1 A)|exact (proj2 A)|exact Hu|exact (Hl _ A)|apply Hm]|] end; try exact F.
Qed.
Theorem set_written p c strip chg save q out : let p' := header_set p c in consistent p -> arguments c -> modest c -> data_start strip save p' + data_total (falign p') (p_sections p') < 2^32 ->
  no_stale_pointers (data_start strip save p') p' -> rebuild_pe p' strip chg save = Ok (q, out) ->
  le_at out 60 4 = nt_offset strip p /\
  forall v, match v with QSections | QOptionalSize | QImageSize | QHeadersSize | QBaseOfCode => True | _ => header_value out (p_plus p) (nt_offset strip p) v = changed_to (p_plus p) c v (header_get p v) end.
Proof.
  intros p' C A M D N E. pose proof (consistent_set p c C A M) as C'. fold p' in C'. destruct (written_values p' strip chg save q out C' D N E) as (L & V).
  destruct (set_rest p c) as (R1 & _ & _ & _ & R2 & _). fold p' in R1, R2.
  assert (O : nt_offset strip p' = nt_offset strip p) by (unfold nt_offset; rewrite R2; reflexivity). rewrite O, R1 in *. split; [exact L|].
  intros v. destruct (set_values p c v (proj1 C) A) as (S & _). fold p' in S. destruct v; try exact Logic.I; rewrite V; exact S.
Qed.
Lemma consistent_dirs p d : consistent p -> length d = 16%nat -> Forall (fun e => is_u32 (fst e) /\ is_u32 (snd e)) d -> consistent (with_nt (set_h_dirs d) p).
Proof.
  intros ((W1 & W2 & W3 & W4 & W5 & F & W7 & W8) & C) L D. destruct p as [plus magic mid lf stub nt ss ov full dbg], nt. split; [|exact C]. repeat (split; [assumption|]). split; [split; assumption|exact W8].
Qed.
Lemma no_directories : exists p, consistent p /\ header_get p QDirectories = 0 /\ has_query p HasImports = Ok true /\ get_directory_rva p dir_import = Throw directory_does_not_exist.
Proof.
  exists (header_set (with_nt (set_h_dirs ([(0, 0); (0x1000, 40)] ++ repeat (0, 0) 14)) sample_pe) (SetDirectories 0)). split; [|split; [vm_compute; reflexivity|split; vm_compute; reflexivity]].
  apply consistent_set; [|split; [lia|reflexivity]|cbn [modest]; lia].
  apply consistent_dirs; [exact sample_consistent|reflexivity|]. cbn [app repeat]. repeat (apply Forall_cons; [split; split; cbn [fst snd]; (lia || reflexivity)|]). apply Forall_nil.
Qed.
Lemma start_signed p : image_wf p -> -2^31 <= pe_header_start p < 2^31 /\ pe_header_start p mod 2^32 = p_lfanew p.
Proof. intros W. unfold image_wf in W. assert (L : is_u32 (p_lfanew p)) by tauto. unfold pe_header_start, is_u32 in *. destruct (Z.ltb_spec (p_lfanew p) (2^31)); lia. Qed.
