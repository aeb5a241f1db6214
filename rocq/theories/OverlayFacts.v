(** Proofs about the data behind the sections (C77). *)
From Verif Require Export SpecOverlay LoadFacts ReloadDone SamplesLoad SamplesRebuild.

Lemma load_overlay plus from_mem read_debug f f' p : wf_stream f -> load plus from_mem read_debug f = (f', Ok p) -> overlay_from_file (i_data f) p.
Proof.
  intros Wf E. destruct (i_good f) eqn:Hg.
  2: { destruct (not_good_dos f (fun dos => read_pe plus dos from_mem read_debug) Hg) as [e E2]. unfold load in E. rewrite E2 in E. discriminate. }
  destruct (good_cases f Hg) as [Hf He].
  pose proof (with_restore_spec f Wf (dos <~ read_dos_header ; read_pe plus dos from_mem read_debug) (fun p => overlay_from_file (i_data f) p) false Hf He) as WR.
  assert (wp (dos <~ read_dos_header ; read_pe plus dos from_mem read_debug)
    (fun a s' => overlay_from_file (i_data f) a /\ i_data s' = i_data f /\ i_strict s' = i_strict f /\ (false = true -> i_fail s' = false))
    (Ex (i_data f) (i_strict f)) f) as H.
  { pose proof Wf as (Hb & _ & Hp & _). apply dos_spec; [exact Wf|exact Hf|exact He|]. intros s Gs Ps Room Magic.
    apply read_pe_spec; try assumption; [rewrite Ps; assumption|]. intros q s' G' Ep NODEBUG HL HO. unfold debug_tail. pose proof G' as (Hd & Hs & Hf' & _).
    destruct read_debug.
    - pose proof HL as ((_ & _ & _ & _ & _ & _ & HD & _) & _). pose proof (directory_exists_safe q dir_debug HD ltac:(unfold dir_debug; lia)) as DS.
      apply wp_bind. unfold wp at 1, slift. destruct (directory_exists q dir_debug) as [ex|e|k|] eqn:ED; try contradiction.
      + destruct ex.
        * apply wp_bind. pose proof (debug_data_spec (i_data f) (i_strict f) _ _ _ s' HL Hd Hs) as D. unfold wp in D |- * at 1.
          destruct (read_debug_data q s') as [s2 [m|e|k|]] eqn:RD; try contradiction.
          -- apply wp_ret. destruct D. split; [exact HO|]. split; [assumption|]. split; [assumption|discriminate].
          -- subst s2. apply G_Ex; assumption.
        * apply wp_ret. split; [exact HO|]. split; [assumption|]. split; [assumption|discriminate].
      + apply G_Ex; assumption.
    - apply wp_ret. split; [exact HO|]. split; [assumption|]. split; [assumption|]. discriminate. }
  destruct (WR H) as (_ & R & _). unfold load in E. rewrite E in R. exact (proj1 (R p eq_refl)).
Qed.
Lemma snoc_case {A} (l : list A) : l = [] \/ exists t x, l = t ++ [x].
Proof. destruct l as [|a l] using rev_ind; [left; reflexivity|right; eauto]. Qed.
(** The answer in terms of the section headers. *)
Lemma overlay_value plus from_mem read_debug f f' p l x : wf_stream f -> load plus from_mem read_debug f = (f', Ok p) -> p_sections p = l ++ [x] -> raw_size_at (i_data f) p (length l) <> 0 ->
  p_overlay p = (raw_end_at (i_data f) p (length l) <? zlen (i_data f)).
Proof.
  intros W E El Hr. destruct (load_overlay _ _ _ _ _ _ W E) as (O & B & _). destruct (load_ok _ _ _ _ _ _ W E) as (_ & _ & Fr & _). destruct Fr as (_ & _ & _ & _ & _ & _ & _ & S & _).
  assert (Ex : nth_error (p_sections p) (length l) = Some x) by (rewrite El, nth_error_app2, Nat.sub_diag by lia; reflexivity).
  specialize (B _ _ Ex). destruct (S _ _ Ex) as (_ & _ & _ & _ & P & _). rewrite O. rewrite El at 1. rewrite rev_app_distr. cbn [rev app].
  assert (L : last_raw (i_data f) (section_header_at p 0) (length (p_sections p)) = raw_size_at (i_data f) p (length l)).
  { rewrite El, app_length. cbn [length]. rewrite Nat.add_1_r. cbn [last_raw]. cbv zeta. replace (section_header_at p 0 + 40 * Z.of_nat (length l) + 16) with (section_header_at p (length l) + 16) by (unfold section_header_at; lia).
    fold (raw_size_at (i_data f) p (length l)). destruct (Z.eqb_spec (raw_size_at (i_data f) p (length l)) 0); [contradiction|reflexivity]. }
  rewrite L. fold (raw_size_at (i_data f) p (length l)) in B. unfold raw_end_at. rewrite <- P.
  assert (0 <= s_rawptr x + raw_size_at (i_data f) p (length l)).
  { destruct (S _ _ Ex) as (R & _). pose proof W as (Bt & _). assert (0 <= section_header_at p (length l)). { destruct (load_ok _ _ _ _ _ _ W E) as (_ & Wf & _). destruct Wf as (_ & _ & _ & (U & _) & _ & F & _). assert (0 <= h_optsize (p_nt p)) by (pose proof (fits_ranges _ _ F) as (_ & (Ro & _) & _); exact Ro). unfold section_header_at. lia. }
    unfold raw_size_at. rewrite P. pose proof (le_at_bound (i_data f) (section_header_at p (length l) + 20) 4 Bt). pose proof (le_at_bound (i_data f) (section_header_at p (length l) + 16) 4 Bt). lia. }
  rewrite u32_small by lia. reflexivity.
Qed.
Theorem overlay_exact plus from_mem read_debug f f' p : wf_stream f -> load plus from_mem read_debug f = (f', Ok p) -> last_is_last (i_data f) p ->
  (p_overlay p = true <-> goes_on (i_data f) p).
Proof.
  intros W E (Hn & Hr & Hl). destruct (snoc_case (p_sections p)) as [|(l & x & El)]; [contradiction|].
  assert (En : (length (p_sections p) - 1)%nat = length l) by (rewrite El, app_length; cbn [length]; lia). rewrite En in Hr, Hl. rewrite (overlay_value _ _ _ _ _ _ _ _ W E El Hr). unfold goes_on.
  assert (Ln : length (p_sections p) = S (length l)) by (rewrite El, app_length; cbn [length]; lia). split.
  - intros H i Hi Hri. specialize (Hl i ltac:(lia) Hri). lia.
  - intros H. specialize (H (length l) ltac:(lia) Hr). lia.
Qed.
Theorem overlay_none plus from_mem read_debug f f' p : wf_stream f -> load plus from_mem read_debug f = (f', Ok p) -> p_sections p = [] -> p_overlay p = false.
Proof. intros W E El. destruct (load_overlay _ _ _ _ _ _ W E) as (O & _). rewrite O, El. reflexivity. Qed.

(** ** Written files *)
Lemma body_end fa l : power_of_two fa -> fa < 2^32 -> forall ptr out,
  (fa | ptr) -> 0 <= zlen out <= ptr -> ptr + data_total fa l < 2^32 -> Forall wf_section l ->
  Forall (fun s => s_rawsize s <= zlen (raw_view s)) l -> Forall (fun s => s_rawsize s = 0 -> s_rawptr s <= ptr) l ->
  forall l0 s, place_sections fa ptr l = l0 ++ [s] -> s_rawsize s <> 0 -> zlen (body (place_sections fa ptr l) out) = s_rawptr s + s_rawsize s.
Proof.
  intros P32 L32. pose proof (pow2_pos _ P32) as Hfa.
  induction l as [|s l IH]; intros ptr out Hd Ho Ht W R St l0 e El Hr; cbn [place_sections data_total] in *.
  - destruct l0; discriminate El.
  - apply Forall_cons_iff in W as [Ws W]. apply Forall_cons_iff in R as [Rs R]. apply Forall_cons_iff in St as [Ss St].
    destruct (wf_ranges s Ws) as (_ & _ & [r0 r1] & [p0 p1]).
    pose proof (ceil_mult_least (s_rawsize s) fa Hfa) as (D1 & L1 & _).
    pose proof (data_total_nonneg fa l Hfa W) as T0. cbv zeta in *.
    destruct (Z.eqb_spec (s_rawsize s) 0) as [E|E].
    + specialize (Ss E). rewrite E, ceil_mult_0 in * by assumption. cbn [body]. rewrite E, ztake_0, app_nil_r by lia.
      destruct l0 as [|a l0]; injection El as Ea El; [subst e; contradiction|].
      apply (IH ptr (out ++ zeros (s_rawptr s - zlen out))) with (l0 := l0); try assumption; try lia. rewrite zlen_app, zlen_zeros_max. lia.
    + rewrite aligned_rawsize_ceil in * by (assumption || lia). rewrite u32_small in * by lia. rewrite u64_small in * by lia. cbn [body].
      change (s_rawptr (set_s_rawptr ptr s)) with ptr. change (s_rawsize (set_s_rawptr ptr s)) with (s_rawsize s).
      assert (raw_view (set_s_rawptr ptr s) = raw_view s) as ER by (apply same_place_raw; unfold same_but_place; destruct s; reflexivity).
      rewrite ER.
      set (out1 := out ++ zeros (ptr - zlen out) ++ ztake (s_rawsize s) (raw_view s)).
      assert (zlen out1 = ptr + s_rawsize s) as L2.
      { unfold out1. rewrite !zlen_app, zlen_zeros, zlen_ztake by lia. lia. }
      destruct l0 as [|a l0].
      * injection El as Ea El. rewrite El. cbn [body]. rewrite L2. subst e. reflexivity.
      * injection El as Ea El. apply IH with (l0 := l0); try assumption; try lia.
        -- apply Z.divide_add_r; assumption.
        -- eapply Forall_impl; [|exact St]. intros y Hy Z0. specialize (Hy Z0). lia.
Qed.
Lemma rebuilt_end p strip chg save q out : rebuild_range p -> power_of_two (falign p) -> falign p < 2^32 ->
  data_start strip save p + data_total (falign p) (p_sections p) < 2^32 -> no_stale_pointers (data_start strip save p) p -> rebuild_pe p strip chg save = Ok (q, out) ->
  forall l s, p_sections q = l ++ [s] -> s_rawsize s <> 0 -> zlen out = s_rawptr s + s_rawsize s.
Proof.
  intros RR P L Ht St E. destruct (readable_or_throws p strip chg save RR) as [B|[e E']]; [|rewrite E' in E; discriminate].
  destruct (rebuild_eq p strip chg save RR B) as [Eq LB]. rewrite Eq in E.
  destruct (headers_too_long p strip chg (saves_bound p save)); cbn [throw_if bind] in E; [discriminate|].
  inversion E; subst q out. clear E.
  destruct (ptr_data_eq p strip save RR P L) as (E1 & E2 & E3).
  change (p_sections (rebuilt p strip chg (saves_bound p save))) with (place_sections (falign p) (ptr_data p strip (saves_bound p save)) (p_sections p)).
  rewrite E1.
  pose proof (headers_written_length p strip chg (saves_bound p save) (bound_bytes p (saves_bound p save)) RR) as EL.
  rewrite LB in EL. pose proof RR as (D & N & Hm & W & Hh & R & Hf & HV & HS).
  rewrite <- (bound_length_eq p save D) in EL. fold (headers_end strip save p) in EL.
  apply (body_end (falign p) (p_sections p) P L (data_start strip save p)
    (headers_written p strip chg (saves_bound p save) (bound_bytes p (saves_bound p save))) E3 ltac:(lia) Ht W R St).
Qed.
Lemma slice_all' {A} (l : list A) o n : o = 0 -> zlen l <= n -> slice l o n = l.
Proof. intros ->. apply slice_all. Qed.
Lemma section_field s k n : wf_section s -> (k, n) = (16, 4) \/ (k, n) = (20, 4) -> le_at (section_bytes s) k n = if k =? 16 then s_rawsize s else s_rawptr s.
Proof.
  intros (Hn & Ln & Hv & Ha & Hs & Hp & _) C. unfold le_at, section_bytes.
  assert (Lz : zlen (s_name s) = 8) by exact Ln. destruct C as [C|C]; injection C as -> ->; rewrite slice_app_r by lia; rewrite Lz; cbn [enc_fields]; rewrite slice_app_r by (rewrite ?zlen_le; lia); rewrite zlen_le; rewrite slice_app_r by (rewrite ?zlen_le; lia); rewrite zlen_le.
  - rewrite slice_app_l by (rewrite ?zlen_le; lia). rewrite slice_all' by (rewrite ?zlen_le; lia). change (16 =? 16) with true. apply unle_le_small, Hs.
  - rewrite slice_app_r by (rewrite ?zlen_le; lia). rewrite zlen_le. rewrite slice_app_l by (rewrite ?zlen_le; lia). rewrite slice_all' by (rewrite ?zlen_le; lia). change (20 =? 16) with false. apply unle_le_small, Hp.
Qed.
Lemma Forall2_len {A B} (R : A -> B -> Prop) l k : Forall2 R l k -> length l = length k.
Proof. induction 1; cbn [length]; congruence. Qed.
Section Rebuilt.
  Context (p : pe) (strip chg save : bool) (q : pe) (out : list Z) (HC : consistent p) (Ht : data_start strip save p + data_total (falign p) (p_sections p) < 2^32)
    (Hst : no_stale_pointers (data_start strip save p) p) (E : rebuild_pe p strip chg save = Ok (q, out)).
  Lemma rebuilt_form : headers_too_long p strip chg (saves_bound p save) = false /\ q = rebuilt p strip chg (saves_bound p save) /\
    out = body (p_sections (rebuilt p strip chg (saves_bound p save))) (headers_written p strip chg (saves_bound p save) (bound_bytes p (saves_bound p save))).
  Proof using HC E.
    pose proof (consistent_range p HC) as RR. destruct (readable_or_throws p strip chg save RR) as [B|[e E']]; [|rewrite E' in E; discriminate].
    destruct (rebuild_eq p strip chg save RR B) as [Eq _]. rewrite Eq in E. cbv zeta in E.
    destruct (headers_too_long p strip chg (saves_bound p save)); cbn [throw_if bind] in E; [discriminate|]. inversion E. repeat split.
  Qed.
  Lemma rebuilt_wf : Forall wf_section (p_sections q).
  Proof using HC E. destruct rebuilt_form as (_ & -> & _). apply place_wf. apply HC. Qed.
  Lemma rebuilt_bytes : bytes out.
  Proof using HC E. destruct rebuilt_form as (_ & _ & ->). apply bytes_out. apply HC. Qed.
  Lemma rebuilt_header i s : nth_error (p_sections q) i = Some s -> slice out (nt_offset strip p + nt_length p + 40 * Z.of_nat i) 40 = section_bytes s.
  Proof using HC E Ht Hst.
    destruct rebuilt_form as (HL & -> & ->). intros Hi. rewrite <- (section_at p strip chg save HC Ht Hst HL i s Hi). f_equal. unfold nt_length, sizeof_nt_nodirs. destruct (p_plus p); lia.
  Qed.
End Rebuilt.
Theorem rebuilt_overlay p strip chg save q out : consistent p -> data_start strip save p + data_total (falign p) (p_sections p) < 2^32 -> no_stale_pointers (data_start strip save p) p ->
  rebuild_pe p strip chg save = Ok (q, out) -> forall l s, p_sections p = l ++ [s] -> s_rawsize s <> 0 ->
  zlen out = s_rawptr (last (p_sections q) s) + s_rawsize s /\ forall strict rd f r, load (p_plus p) false rd (open_stream strict out) = (f, Ok r) -> p_overlay r = false.
Proof.
  intros HC Ht Hst E l s El Hs. pose proof (consistent_range p HC) as RR.
  assert (power_of_two (falign p) /\ falign p < 2^32) as [P L].
  { destruct HC as (_ & _ & _ & _ & _ & _ & (A1 & A2 & A3 & A4 & _) & _). unfold falign, salign in *. split; [assumption|lia]. }
  destruct (rebuild_places p strip chg save q out RR P L Ht Hst E) as (F2 & B & _). pose proof (rebuilt_end p strip chg save q out RR P L Ht Hst E) as En.
  rewrite El in F2. apply Forall2_app_inv_l in F2 as (l1 & l2 & F1 & F2 & Eq). inversion F2 as [|a s' u v Hab Huv E1]; subst. inversion Huv; subst. clear F2 Huv.
  destruct (same_place_fields s s' Hab) as (_ & _ & _ & Fr & _). rewrite <- Fr in Hs. specialize (En l1 s' Eq Hs). rewrite Eq, last_last, <- Fr. split; [exact En|].
  intros strict rd f r Ld. destruct (reload_thm p strip chg save q out HC Ht Hst E strict rd) as (f0 & r0 & _ & Ld0 & Rl & _). rewrite Ld in Ld0. injection Ld0 as <- <-.
  assert (Wq : Forall wf_section (p_sections q)) by (eapply rebuilt_wf; eassumption).
  assert (Hx : forall strict, wf_stream (open_stream strict out)). { intros st0. apply wf_open; [eapply rebuilt_bytes; eassumption|]. lia. }
  destruct Rl as (Rp & _ & Rlf & _ & _ & Rs & Rn & _). rewrite El in Rs. apply Forall2_app_inv_l in Rs as (k1 & k2 & K1 & K2 & Ek). inversion K2 as [|a x u v Hax Huv E1]; subst. inversion Huv; subst. clear K2 Huv.
  assert (Len : length k1 = length l1) by (rewrite <- (Forall2_len _ _ _ K1), <- (Forall2_len _ _ _ F1); reflexivity).
  assert (Ho : section_header_at r (length k1) = nt_offset strip p + nt_length p + 40 * Z.of_nat (length l1)).
  { unfold section_header_at. rewrite Rlf, Rn, Len. cbn [h_optsize set_h_optsize set_h_nsections]. lia. }
  assert (Hb : slice out (section_header_at r (length k1)) 40 = section_bytes s').
  { rewrite Ho. eapply rebuilt_header; [eassumption..|]. rewrite Eq, nth_error_app2, Nat.sub_diag by lia. reflexivity. }
  assert (Ws' : wf_section s') by (rewrite Forall_forall in Wq; apply Wq; rewrite Eq; apply in_or_app; right; left; reflexivity).
  assert (Hoff : 0 <= section_header_at r (length k1)). { rewrite Ho. unfold nt_length. pose proof RR as (_ & N0 & _). unfold nt_offset. pose proof (zlen_nonneg (p_stub p)). pose proof (ceil_mult_least (zlen (p_stub p)) 4 ltac:(lia)). destruct strip, (p_plus p); lia. }
  assert (Hf : forall k n, 0 <= k -> 0 <= n -> k + n <= 40 -> le_at out (section_header_at r (length k1) + k) n = le_at (section_bytes s') k n).
  { intros k n Hk Hn Hkn. rewrite <- Hb. unfold le_at. rewrite slice_slice by lia. reflexivity. }
  assert (S1 : raw_size_at out r (length k1) = s_rawsize s') by (unfold raw_size_at; rewrite Hf by lia; rewrite section_field; [reflexivity|exact Ws'|left; reflexivity]).
  rewrite (overlay_value (p_plus p) false rd (open_stream strict out) f r k1 x (Hx strict) Ld Ek) by (cbn [i_data open_stream]; rewrite S1; exact Hs).
  cbn [i_data open_stream]. unfold raw_end_at. rewrite S1. rewrite Hf by lia. rewrite section_field; [|exact Ws'|right; reflexivity]. change (20 =? 16) with false. cbv iota. lia.
Qed.
(** ** Counterexamples *)
(** The second of two sections has no data: the file ends with the data of the first, and still has an overlay. *)
Lemma trailing_empty : exists f' p, wf_stream (open_stream true debug_file) /\ load false false false (open_stream true debug_file) = (f', Ok p) /\ p_overlay p = true /\
  zlen debug_file = raw_end_at debug_file p 0 /\ raw_size_at debug_file p 0 = 32 /\ raw_size_at debug_file p 1 = 0.
Proof. do 2 eexists. split; [apply debug_stream|]. split; [vm_compute; reflexivity|]. vm_compute. repeat split. Qed.
(** The data of the second section lie before those of the first. *)
Definition swapped_file : list Z :=
  file_of 4 4 0x1A0 0x188 (repeat 0 32)
    [[0x74786574; 8; 0x188; 8; 0x18C; 0; 0; 0; 0; 0x60000020]; [0x61746164; 16; 0x190; 4; 0x188; 0; 0; 0; 0; 0xC0000040]]
    [21; 22; 23; 24; 1; 2; 3; 4; 5; 6; 7; 8].
Lemma swapped_sections : exists f' p, wf_stream (open_stream true swapped_file) /\ load false false false (open_stream true swapped_file) = (f', Ok p) /\ p_overlay p = true /\
  zlen swapped_file = raw_end_at swapped_file p 0 /\ raw_size_at swapped_file p 0 = 8.
Proof. do 2 eexists. split; [apply wf_open; [apply bytes_check; reflexivity|vm_compute; reflexivity]|]. split; [vm_compute; reflexivity|]. vm_compute. repeat split. Qed.
(** Sixteen bytes behind the sections, and a last section without data that points to the end of the address space. *)
Definition hidden_file : list Z :=
  file_of 4 4 0x1C0 0x188 (repeat 0 32)
    [[0x74786574; 32; 0x188; 32; 0x188; 0; 0; 0; 0; 0x60000020]; [0x61746164; 16; 0x1A8; 0; 0x10000; 0; 0; 0; 0; 0xC0000040]] (repeat 7 48).
Lemma hidden_overlay : exists f' p, wf_stream (open_stream true hidden_file) /\ load false false false (open_stream true hidden_file) = (f', Ok p) /\ p_overlay p = false /\
  goes_on hidden_file p /\ raw_end_at hidden_file p 0 + 16 = zlen hidden_file.
Proof.
  do 2 eexists. split; [apply wf_open; [apply bytes_check; reflexivity|vm_compute; reflexivity]|]. split; [vm_compute; reflexivity|]. split; [reflexivity|]. split; [|vm_compute; reflexivity].
  intros [|[|i]] Hi Hr; [vm_compute; reflexivity|exfalso; apply Hr; vm_compute; reflexivity|cbn in Hi; lia].
Qed.
