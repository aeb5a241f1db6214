(** Loading what the writer wrote. *)
From Verif Require Export RebuildFacts.

Definition loaded_section (s : section) : section := set_s_data (raw_view s) (set_s_old None s).
Lemma section_of_section_bytes s : wf_section s ->
  section_of_bytes (section_bytes s) = set_s_data [] (set_s_old None s).
Proof.
  intros (Hb & Hn & H1 & H2 & H3 & H4 & H5 & H6 & H7 & H8 & H9 & _).
  destruct s as [nm v a r pt rp lp nr nl ch dt od]. cbn [s_name s_vsize s_va s_rawsize s_rawptr s_relptr s_lineptr s_nrel s_nline s_chars] in *.
  unfold section_bytes. cbn [s_name s_vsize s_va s_rawsize s_rawptr s_relptr s_lineptr s_nrel s_nline s_chars].
  do 8 (destruct nm as [|? nm]; [exfalso; unfold zlen in Hn; cbn in Hn; lia|]).
  destruct nm; [|exfalso; unfold zlen in Hn; cbn [length] in Hn; lia].
  unfold section_of_bytes. cbn [enc_fields].
  set (l4v := le 4 v). set (l4a := le 4 a). set (l4r := le 4 r). set (l4pt := le 4 pt). set (l4rp := le 4 rp). set (l4lp := le 4 lp).
  set (l2nr := le 2 nr). set (l2nl := le 2 nl). set (l4ch := le 4 ch).
  match goal with |- context [slice ?b 8 4] => 
    change (slice b 0 8) with [z; z0; z1; z2; z3; z4; z5; z6]; change (slice b 8 4) with l4v; change (slice b 12 4) with l4a;
    change (slice b 16 4) with l4r; change (slice b 20 4) with l4pt; change (slice b 24 4) with l4rp; change (slice b 28 4) with l4lp;
    change (slice b 32 2) with l2nr; change (slice b 34 2) with l2nl; change (slice b 36 4) with l4ch end.
  unfold l4v, l4a, l4r, l4pt, l4rp, l4lp, l2nr, l2nl, l4ch.
  rewrite !unle_le_small; try assumption. reflexivity.
Qed.

Section Reload.
  Variable file : list Z.
  Variable strict : bool.
  Variable h : nt_headers.
  Hypothesis Hlen : zlen file < 2^32.
  Hypothesis Hal : ok_alignments h.
  Hypothesis Him : 0 <= h_imagesize h /\ ceil_mult (h_imagesize h) (h_salign h) < 2^32.

  (** What the loader needs of one section. *)
  Definition in_place (s : section) : Prop :=
    wf_section s /\ 0 < s_vsize s <= 2^31 /\ s_rawsize s <= 2^31 /\ s_va s + s_vsize s < 2^32 /\ s_rawptr s + s_rawsize s < 2^32 /\
    ceil_mult (s_rawsize s) (h_falign h) <= ceil_mult (s_vsize s) (h_salign h) /\
    send (h_salign h) s < 2^32 /\ send (h_salign h) s <= ceil_mult (h_imagesize h) (h_salign h) /\
    s_rawsize s = zlen (raw_view s) /\
    (s_rawsize s <> 0 -> (h_falign h | s_rawptr s) /\ s_rawptr s + s_rawsize s <= zlen file /\
       slice file (s_rawptr s) (s_rawsize s) = raw_view s).

  Lemma read_section_exec pos s : 0 <= pos -> pos + 40 <= zlen file -> slice file pos 40 = section_bytes s -> in_place s ->
    exists o, read_section h (zlen file) false (st file strict pos) = (st file strict (pos + 40), Ok (loaded_section s, o)).
  Proof.
    intros Hp Hr Hsl (W & Hv & Hrs & Hva & Hrp & Hc & Hse & Hsi & Hz & Hd).
    destruct Hal as (P1 & P2 & Q1 & Q2 & _). destruct (wf_ranges s W) as ([v0 v1] & [a0 a1] & [r0 r1] & [p0 p1]).
    pose proof (pow2_pos _ P1). pose proof (pow2_pos _ P2).
    unfold read_section, sizeof_section_header. rewrite x_read by lia. rewrite x_eof, x_tell, Hsl. cbv zeta.
    rewrite section_of_section_bytes by assumption.
    cbn [s_rawsize s_vsize s_va s_rawptr set_s_data set_s_old].
    rewrite x_throw by lia.
    assert (is_sum_safe (s_va s) (s_vsize s) = true) as -> by (apply is_sum_safe_spec; lia).
    assert (is_sum_safe (s_rawptr s) (s_rawsize s) = true) as -> by (apply is_sum_safe_spec; lia).
    rewrite x_throw by (unfold two_gb; lia).
    assert (ceil_mult (s_vsize s) (h_salign h) <= 2^31) as CV by (apply ceil_le_2_31; [assumption|assumption|lia]).
    assert (align_up (s_vsize s) (h_salign h) = ceil_mult (s_vsize s) (h_salign h)) as EV by (apply align_up_small; try assumption; lia).
    assert (align_up (s_rawsize s) (h_falign h) = ceil_mult (s_rawsize s) (h_falign h)) as ER by (apply align_up_small; try assumption; lia).
    assert (align_up (h_imagesize h) (h_salign h) = ceil_mult (h_imagesize h) (h_salign h)) as EI by (apply align_up_small; try assumption; lia).
    assert (span (h_salign h) s = ceil_mult (s_vsize s) (h_salign h)) as ES.
    { unfold span. replace (s_vsize s =? 0) with false by lia. reflexivity. }
    assert (ceil_mult (s_vsize s) (h_salign h) >= s_vsize s) by (pose proof (ceil_mult_least (s_vsize s) (h_salign h) ltac:(assumption)); lia).
    assert (u32 (s_va s + aligned_vsize (h_salign h) s) = send (h_salign h) s) as EA.
    { unfold send in *. rewrite aligned_vsize_span; try assumption; try (split; assumption); [|lia]. apply u32_small; lia. }
    set (s1 := set_s_data [] (set_s_old None s)).
    assert (exists o, (if negb (s_rawsize s =? 0) then
      let last := s_rawsize s in
      let s1' := if align_up (s_vsize s) (h_salign h) <? align_up (s_rawsize s) (h_falign h)
              then set_s_rawsize (s_vsize s) s1 else s1 in
      sthrow_if ((align_up (h_imagesize h) (h_salign h) <? u32 (s_va s1' + align_up (s_vsize s1') (h_salign h)))
               || (u32 (zlen file) <? u32 (align_down (s_rawptr s1') (h_falign h) + s_rawsize s1')))
        section_incorrect_addr_or_size ~;
      s_seek (align_down (s_rawptr s1') (h_falign h)) ~;
      s_check_fail image_section_data_not_found ~;
      d <~ s_read_into (zeros (s_rawsize s1')) 0 (s_rawsize s1') ;
      s_check_fail image_section_data_not_found ~;
      sret (set_s_data d s1', Some last)
    else sret (s1, None)) (st file strict (pos + 40)) =
      (st file strict (if s_rawsize s =? 0 then pos + 40 else s_rawptr s + s_rawsize s), Ok (loaded_section s, o))) as [o Eo].
    { destruct (Z.eqb_spec (s_rawsize s) 0) as [E|E]; cbn [negb].
      - exists None. unfold sret. do 2 f_equal. unfold loaded_section, s1.
        assert (raw_view s = []) as ->; [|reflexivity]. rewrite E in Hz. destruct (raw_view s); [reflexivity|].
        rewrite zlen_cons in Hz. pose proof (zlen_nonneg l). lia.
      - destruct (Hd E) as (D1 & D2 & D3). cbv zeta. exists (Some (s_rawsize s)).
        rewrite EV, ER. replace (ceil_mult (s_vsize s) (h_salign h) <? ceil_mult (s_rawsize s) (h_falign h)) with false by lia.
        unfold s1. cbn [s_rawsize s_vsize s_va s_rawptr set_s_data set_s_old].
        assert (align_down (s_rawptr s) (h_falign h) = s_rawptr s) as ED.
        { rewrite align_down_pow2; [|assumption|lia|lia]. apply divide_mod in D1; [|assumption]. lia. }
        rewrite ED, EV, EI. unfold send in *. rewrite ES in *.
        rewrite x_throw by (rewrite !u32_small by lia; lia).
        rewrite x_seek by lia. rewrite x_fail. rewrite x_read by lia. rewrite x_fail, D3. reflexivity. }
    exists o. erewrite x_bind by exact Eo. cbv beta iota.
    rewrite x_throw.
    2:{ change (s_va (loaded_section s)) with (s_va s). change (aligned_vsize (h_salign h) (loaded_section s)) with (aligned_vsize (h_salign h) s).
        rewrite EA, EI. lia. }
    rewrite x_seek by lia. reflexivity.
  Qed.

  Lemma read_sections_exec l : forall pos acc last, 0 <= pos -> pos + 40 * zlen l <= zlen file ->
    (forall i s, nth_error l i = Some s -> slice file (pos + 40 * Z.of_nat i) 40 = section_bytes s) -> Forall in_place l ->
    exists last', read_sections (length l) h (zlen file) false acc last (st file strict pos) =
      (st file strict (pos + 40 * zlen l), Ok (acc ++ map loaded_section l, last')).
  Proof.
    induction l as [|s l IH]; intros pos acc last Hp Hr Hsl F; cbn [length read_sections map].
    - exists last. unfold sret. change (zlen []) with 0. rewrite app_nil_r, Z.mul_0_r, Z.add_0_r. reflexivity.
    - rewrite zlen_cons in *. pose proof (zlen_nonneg l). apply Forall_cons_iff in F as [Fs F].
      destruct (read_section_exec pos s) as [o Eo]; [assumption|lia| |assumption|].
      { rewrite <- (Hsl O s eq_refl). f_equal. lia. }
      erewrite x_bind by exact Eo. cbn [fst snd].
      destruct (IH (pos + 40) (acc ++ [loaded_section s]) (match o with Some l0 => l0 | None => last end)) as [last' E]; try lia; try assumption.
      { intros i x Hx. rewrite <- (Hsl (S i) x Hx). f_equal. lia. }
      exists last'. rewrite E. rewrite <- app_assoc. replace (pos + 40 + 40 * zlen l) with (pos + 40 * (1 + zlen l)) by lia. reflexivity.
  Qed.
End Reload.

(** Loaded and realigned images can be written. *)
Lemma chain_first_le sa st l s : 0 < sa -> Forall wf_section l -> chain sa st l -> In s l -> st <= s_va s.
Proof.
  intros P. revert st. induction l as [|a l IH]; intros st W C H; [destruct H|]. cbn [chain] in C. destruct C as [E C].
  apply Forall_cons_iff in W as [Wa W]. destruct H as [->|H]; [lia|]. specialize (IH _ W C H).
  destruct (wf_ranges a Wa) as (R1 & R2 & R3 & _). pose proof (span_nonneg sa a P R1 R3). unfold send in IH. lia.
Qed.
Lemma chain_of_nth sa st l :
  (forall i s t, nth_error l i = Some s -> nth_error l (S i) = Some t -> s_va t = send sa s) ->
  (forall s t, l = s :: t -> s_va s = st) -> chain sa st l.
Proof.
  revert st. induction l as [|a l IH]; intros st H1 H2; cbn [chain]; [exact I|]. split; [apply (H2 a l); reflexivity|].
  apply IH.
  - intros i s t Hs Ht. apply (H1 (S i)); assumption.
  - intros s t ->. apply (H1 O a s); reflexivity.
Qed.
Lemma loaded_range plus from_mem read_debug f f' p :
  wf_stream f -> load plus from_mem read_debug f = (f', Ok p) ->
  Forall (fun s => send (salign p) s < 2^32) (p_sections p) -> p_lfanew p < 2^30 -> rebuild_range p.
Proof.
  intros W E HS HL. destruct (load_ok _ _ _ _ _ _ W E) as (_ & HW & HF & HC).
  destruct (checked_chain p HW HC HS) as (C1 & _ & _).
  destruct HW as (_ & _ & W3 & W4 & _ & W6 & W7 & W8 & W9 & _ & W11).
  destruct HC as (_ & _ & _ & _ & K5 & _ & KA & _ & _ & K6 & _).
  destruct HF as (_ & _ & _ & _ & F5 & _ & F7 & F8 & _).
  unfold rebuild_range. split; [assumption|]. split; [assumption|]. split; [assumption|]. split; [assumption|].
  split; [unfold hdrsize; destruct (fits_ranges _ _ W6); unfold is_u32 in *; tauto|].
  split.
  { apply Forall_forall. intros s Hs. apply In_nth_error in Hs as [i Hi]. destruct (F8 i s Hi) as (_ & _ & _ & _ & _ & _ & _ & _ & _ & _ & Ho & _ & Hz & _).
    unfold raw_view, unmap_virtual. rewrite Ho. lia. }
  split; [assumption|]. split.
  { apply Forall_forall. intros s Hs. destruct (p_sections p) as [|a l] eqn:El; [destruct Hs|].
    specialize (K6 a l eq_refl). enough (s_va a <= s_va s) by lia.
    apply (chain_first_le (salign p) (s_va a) (a :: l)); try assumption; [apply pow2_pos; apply KA|].
    apply chain_of_nth; [assumption|]. intros x y Ex. inversion Ex; reflexivity. }
  rewrite F5, F7. pose proof (zlen_nonneg (slice (i_data f) 64 (p_lfanew p - 64))).
  unfold is_u32 in *. assert (zlen (slice (i_data f) 64 (p_lfanew p - 64)) <= Z.max 0 (p_lfanew p - 64)); [|lia].
  unfold slice. unfold ztake, zlen. rewrite firstn_length. lia.
Qed.
Lemma rebuild_loaded_safe plus from_mem read_debug f f' p strip chg save :
  wf_stream f -> load plus from_mem read_debug f = (f', Ok p) ->
  Forall (fun s => send (salign p) s < 2^32) (p_sections p) -> p_lfanew p < 2^30 ->
  safe (rebuild_pe p strip chg save).
Proof. intros. apply rebuild_safe. eapply loaded_range; eassumption. Qed.

Lemma realigned_range p a p' :
  good_align p -> power_of_two a -> 512 <= a <= salign p ->
  (forall i s, nth_error (p_sections p) i = Some s ->
     wf_section s /\ zlen (raw_view s) < 2^32 /\ s_rawsize s <= 2^31 /\ hdrsize p <= s_va s /\
     (S i <> length (p_sections p) -> zlen (raw_view s) <= ceil_mult (s_rawsize s) a)) ->
  dirs_ok p -> 0 <= nrva p <= 16 -> zlen (p_dosmid p) = 58 -> is_u32 (hdrsize p) -> zlen (p_full p) < 2^32 ->
  zlen (p_stub p) + 40 * zlen (p_sections p) < 2^31 ->
  realign_file p a = Ok p' -> rebuild_range p'.
Proof.
  intros G P A HS D N M H F L E.
  destruct (realign_file_spec p a G P A) as (q & E2 & R & Hl & Hq).
  { intros i s Hi. destruct (HS i s Hi) as (? & ? & ? & ? & ?). auto. }
  rewrite E in E2. inversion E2; subst q. clear E2.
  assert (forall t, In t (p_sections p') -> wf_section t /\ s_rawsize t = zlen (raw_view t) /\ hdrsize p <= s_va t) as HT.
  { intros t Ht. apply In_nth_error in Ht as [i Hi]. destruct (nth_error (p_sections p) i) as [s|] eqn:Es.
    - destruct (Hq i s Es) as (t' & Et & (_ & _ & Eva & _ & _ & _ & _ & _ & _ & Er & _) & Wt). rewrite Hi in Et. inversion Et; subst t'.
      destruct (HS i s Es) as (_ & _ & _ & Hh & _). rewrite Eva. auto.
    - apply nth_error_None in Es. assert (nth_error (p_sections p') i <> None) as X by congruence. apply nth_error_Some in X. lia. }
  assert (p_stub p' = p_stub p /\ p_full p' = p_full p /\ p_dosmid p' = p_dosmid p /\ p_nt p' = set_h_falign a (p_nt p)) as (E1 & E2 & E3 & E4).
  { split; [exact (f_equal p_stub R)|]. split; [exact (f_equal p_full R)|]. split; [exact (f_equal p_dosmid R)|exact (f_equal p_nt R)]. }
  unfold rebuild_range. unfold dirs_ok, nrva, hdrsize in *. rewrite E1, E2, E3, E4.
  cbn [set_h_falign h_dirs h_nrva h_hdrsize].
  split; [assumption|]. split; [assumption|]. split; [assumption|]. split; [apply Forall_forall; intros t Ht; apply HT; assumption|].
  split; [assumption|]. split; [apply Forall_forall; intros t Ht; destruct (HT t Ht) as (_ & -> & _); lia|].
  split; [assumption|]. split; [apply Forall_forall; intros t Ht; apply HT; assumption|].
  unfold zlen in *. rewrite Hl. assumption.
Qed.
Lemma rebuild_realigned_safe p a p' strip chg save :
  good_align p -> power_of_two a -> 512 <= a <= salign p ->
  (forall i s, nth_error (p_sections p) i = Some s ->
     wf_section s /\ zlen (raw_view s) < 2^32 /\ s_rawsize s <= 2^31 /\ hdrsize p <= s_va s /\
     (S i <> length (p_sections p) -> zlen (raw_view s) <= ceil_mult (s_rawsize s) a)) ->
  dirs_ok p -> 0 <= nrva p <= 16 -> zlen (p_dosmid p) = 58 -> is_u32 (hdrsize p) -> zlen (p_full p) < 2^32 ->
  zlen (p_stub p) + 40 * zlen (p_sections p) < 2^31 ->
  realign_file p a = Ok p' -> safe (rebuild_pe p' strip chg save).
Proof. intros. apply rebuild_safe. eapply realigned_range; eassumption. Qed.
