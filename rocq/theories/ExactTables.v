(** Proofs that the relocation, bound import and export readers return what the directories say (C73). *)
From Verif Require Export SpecExactTables RelocFacts BoundFacts ExportFacts.

Lemma shows_word p r n w : readable p -> ((exists bs, read_rva p r (Z.of_nat n) VirtData true = Ok bs /\ unle bs = w) <-> 0 <= w < 256 ^ Z.of_nat n /\ shows p r (le n w)).
Proof.
  intros R. unfold shows. rewrite zlen_le. split.
  - intros (bs & E & <-). pose proof (read_rva_bytes _ _ _ _ _ _ R E) as Bb. pose proof (read_rva_len _ _ _ _ _ _ E) as Lb. split.
    + rewrite <- Lb. apply unle_bound, Bb.
    + rewrite le_unle_n; [exact E|exact Bb|]. unfold zlen in Lb. lia.
  - intros [Hw E]. exists (le n w). split; [exact E|apply unle_le_small, Hw].
Qed.

(** ** Relocations *)
Definition keep (abs : bool) (l : list reloc_entry) : list reloc_entry := if abs then l else filter (fun e => negb (snd e =? 0)) l.
Lemma keep_cons abs e l acc : (if abs || negb (snd e =? image_rel_based_absolute) then acc ++ [e] else acc) ++ keep abs l = acc ++ keep abs (e :: l).
Proof.
  unfold keep, image_rel_based_absolute. destruct abs; cbn [orb]; [rewrite <- app_assoc; reflexivity|]. cbn [filter]. destruct (negb (snd e =? 0)); [rewrite <- app_assoc; reflexivity|reflexivity].
Qed.
Lemma items_exact p pos size abs r : readable p -> 0 < pos -> 0 <= size -> pos + size < 2^32 ->
  (reloc_items p pos size abs = Ok r <-> exists l, items_at p (pos + size) (pos + 8) l /\ r = keep abs l).
Proof.
  intros R Hp Hs Hl. unfold reloc_items.
  set (body := fun st : Z * list reloc_entry => let '(i, acc) := st in
    if i <? size then
      bs <- read_rva p (u32 (pos + i)) 2 VirtData true ;;
      let e := entry_of_item (unle bs) in
      Ok (@inl _ (list reloc_entry) (u32 (i + 2), if abs || negb (snd e =? image_rel_based_absolute) then acc ++ [e] else acc))
    else Ok (inr acc)).
  split.
  - intros H. rewrite mloop_nloop in H. destruct (nloop (Pos.to_nat big_fuel) body (8, [])) as [[st|x]| | |] eqn:N; try discriminate. injection H as ->.
    assert (K : forall n i acc r, 0 <= i -> nloop n body (i, acc) = Ok (inr r) -> exists l, items_at p (pos + size) (pos + i) l /\ r = acc ++ keep abs l).
    { clear N r. induction n as [|n IH]; intros i acc r Hi H; [discriminate|]. cbn [nloop] in H. unfold body at 1 in H. destruct (Z.ltb_spec i size) as [L|L].
      - rewrite (u32_small (pos + i)) in H by lia. destruct (read_rva p (pos + i) 2 VirtData true) as [bs| | |] eqn:Eb; try discriminate. cbn [bind] in H. cbv zeta in H.
        rewrite (u32_small (i + 2)) in H by lia. assert (Hi2 : 0 <= i + 2) by lia. destruct (IH _ _ _ Hi2 H) as (l & A & ->). destruct (proj1 (shows_word p (pos + i) 2 (unle bs) R)) as [W1 W2]; [exists bs; split; [exact Eb|reflexivity]|].
        exists (entry_of_item (unle bs) :: l). split; [|apply keep_cons]. rewrite entry_of_item_eq by exact W1. apply items_next; [lia|exact W1|exact W2|]. rewrite <- Z.add_assoc. exact A.
      - injection H as <-. exists []. split; [apply items_end; lia|]. destruct abs; cbn; rewrite app_nil_r; reflexivity. }
    apply (K _ 8 [] r ltac:(lia) N).
  - intros (l & A & ->). assert (K : forall pos' l, items_at p (pos + size) pos' l -> forall i acc, 0 <= i -> pos' = pos + i -> nloop (S (length l)) body (i, acc) = Ok (inr (acc ++ keep abs l)) /\ 2 * zlen l <= Z.max 0 (size - i) + 1).
    { clear l A. induction 1 as [pos' L|pos' v l L U Sh A IH]; intros i acc Hi ->.
      - split; [|change (@zlen reloc_entry []) with 0; lia]. cbn [length nloop]. unfold body. replace (i <? size) with false by lia. destruct abs; cbn; rewrite app_nil_r; reflexivity.
      - destruct (IH (i + 2) (if abs || negb (snd (entry_of_item v) =? image_rel_based_absolute) then acc ++ [entry_of_item v] else acc) ltac:(lia) ltac:(lia)) as [E Hn]. split; [|rewrite zlen_cons; lia].
        destruct (proj2 (shows_word p (pos + i) 2 v R) (conj U Sh)) as (bs & Eb & Ev). cbn [length]. erewrite nloop_next; cycle 1.
        { unfold body. replace (i <? size) with true by lia. rewrite (u32_small (pos + i)) by lia. change (Z.of_nat 2) with 2 in Eb. rewrite Eb. cbn [bind]. cbv zeta. rewrite Ev, (u32_small (i + 2)) by lia. reflexivity. }
        rewrite E, keep_cons. rewrite entry_of_item_eq by exact U. reflexivity. }
    destruct (K _ _ A 8 [] ltac:(lia) eq_refl) as [E Hn]. eapply mloop_exec; [exact E|]. change (Zpos big_fuel) with (2^33 + 1). unfold zlen in Hn. lia.
Qed.
Lemma header_exact p pos va size : readable p -> (read_reloc_header p pos = Ok (va, size) <-> is_u32 va /\ is_u32 size /\ shows p pos (le 4 va ++ le 4 size)).
Proof.
  intros R. unfold read_reloc_header, shows. rewrite zlen_app, !zlen_le. change (Z.of_nat 4 + Z.of_nat 4) with 8. split.
  - intros H. bnd H bs E. injection H as <- <-. pose proof (read_rva_bytes _ _ _ _ _ _ R E) as Bb. pose proof (read_rva_len _ _ _ _ _ _ E) as Lb.
    assert (U : forall o, 0 <= o <= 4 -> is_u32 (unle (slice bs o 4)) /\ le 4 (unle (slice bs o 4)) = slice bs o 4).
    { intros o Ho. pose proof (unle_bound (slice bs o 4) (bytes_slice _ _ _ Bb)) as Hb. rewrite zlen_slice in Hb by lia. split; [exact Hb|]. apply le_unle_n; [apply bytes_slice, Bb|]. pose proof (zlen_slice bs o 4 ltac:(lia) ltac:(lia) ltac:(lia)) as Q. unfold zlen in Q. lia. }
    split; [apply U; lia|]. split; [apply U; lia|]. rewrite (proj2 (U 0 ltac:(lia))), (proj2 (U 4 ltac:(lia))). rewrite E. f_equal. change 4 with (0 + 4) at 2. rewrite <- slice_split by lia. symmetry. apply slice_all. lia.
  - intros (U1 & U2 & E). rewrite E. cbn [bind]. rewrite slice_app_l, slice_app_r by (rewrite ?zlen_le; lia). rewrite !zlen_le. change (4 - Z.of_nat 4) with 0. rewrite !slice_all by (rewrite zlen_le; lia). rewrite !unle_le_small by assumption. reflexivity.
Qed.
Lemma blocks_exact p start rs va size abs r : readable p -> 0 < start < 2^32 -> is_u32 rs -> is_u32 size ->
  (reloc_blocks p start va size rs abs = Ok r <-> exists t, blocks_at p (start + rs) start va size t /\ r = map (listed abs) t).
Proof.
  intros R Hs Hr Hz. unfold is_u32 in Hr, Hz. unfold reloc_blocks.
  set (body := fun st : Z * Z * Z * Z * list reloc_table =>
    let '(pos, read_size, va, size, acc) := st in
    if negb (size =? 0) && (read_size <? rs) then
      throw_if (negb (is_sum_safe pos size)) incorrect_relocation_directory ;;;
      items <- reloc_items p pos size abs ;;
      let acc' := acc ++ [(va, items)] in
      throw_if (negb (is_sum_safe pos size)) incorrect_relocation_directory ;;;
      let pos' := u32 (pos + size) in
      let read_size' := u32 (read_size + size) in
      if rs <=? read_size' then Ok (inr acc')
      else
        ' (va', size') <- read_reloc_header p pos' ;;
        Ok (@inl _ (list reloc_table) (pos', read_size', va', size', acc'))
    else Ok (inr acc)).
  assert (Step : forall pos va size acc, start <= pos < 2^32 -> is_u32 size -> body (pos, pos - start, va, size, acc) =
    if negb (size =? 0) && (pos <? start + rs) then
      if pos + size <? 2^32 then
        items <- reloc_items p pos size abs ;;
        if start + rs <=? pos + size then Ok (inr (acc ++ [(va, items)]))
        else ' (va', size') <- read_reloc_header p (pos + size) ;; Ok (inl (pos + size, pos + size - start, va', size', acc ++ [(va, items)]))
      else Throw incorrect_relocation_directory
    else Ok (inr acc)).
  { intros pos va0 size0 acc Hp Hz0. unfold is_u32 in Hz0. unfold body. replace (pos - start <? rs) with (pos <? start + rs) by (destruct (Z.ltb_spec pos (start + rs)), (Z.ltb_spec (pos - start) rs); lia).
    destruct (negb (size0 =? 0) && (pos <? start + rs)); [|reflexivity]. destruct (is_sum_safe pos size0) eqn:SS; cbn [negb throw_if bind].
    - apply is_sum_safe_spec in SS; [|lia]. replace (pos + size0 <? 2^32) with true by lia. destruct (reloc_items p pos size0 abs) as [it| | |]; cbn [bind]; try reflexivity. cbv zeta.
      rewrite !u32_small by lia. replace (pos - start + size0) with (pos + size0 - start) by lia. replace (rs <=? pos + size0 - start) with (start + rs <=? pos + size0) by (destruct (Z.leb_spec rs (pos + size0 - start)), (Z.leb_spec (start + rs) (pos + size0)); lia). reflexivity.
    - destruct (Z.ltb_spec (pos + size0) (2^32)) as [L|L]; [|reflexivity]. assert (is_sum_safe pos size0 = true) by (apply is_sum_safe_spec; lia). congruence. }
  split.
  - intros H. rewrite mloop_nloop in H. destruct (nloop (Pos.to_nat big_fuel) body (start, 0, va, size, [])) as [[st|x]| | |] eqn:N; try discriminate. injection H as ->.
    assert (K : forall n pos va size acc r, start <= pos < 2^32 -> is_u32 size -> nloop n body (pos, pos - start, va, size, acc) = Ok (inr r) -> exists t, blocks_at p (start + rs) pos va size t /\ r = acc ++ map (listed abs) t).
    { clear N r va size Hz. induction n as [|n IH]; intros pos va size acc r Hp Hz H; [discriminate|]. cbn [nloop] in H. rewrite Step in H by assumption. unfold is_u32 in Hz.
      destruct (negb (size =? 0) && (pos <? start + rs)) eqn:C; [|injection H as <-; exists []; split; [apply blocks_end; lia|rewrite app_nil_r; reflexivity]].
      destruct (Z.ltb_spec (pos + size) (2^32)) as [L|L]; [|discriminate]. destruct (reloc_items p pos size abs) as [it| | |] eqn:Ei; try discriminate. cbn [bind] in H.
      apply items_exact in Ei; [|try assumption; lia..]. destruct Ei as (l & Ai & ->). destruct (Z.leb_spec (start + rs) (pos + size)) as [L2|L2].
      - injection H as <-. exists [(va, l)]. split; [apply blocks_last; try assumption; lia|reflexivity].
      - destruct (read_reloc_header p (pos + size)) as [[va' size']| | |] eqn:Eh; try discriminate. cbn [bind] in H. apply header_exact in Eh; [|assumption]. destruct Eh as (U1 & U2 & Sh).
        assert (Hp2 : start <= pos + size < 2^32) by lia. destruct (IH _ _ _ _ _ Hp2 U2 H) as (t & Bt & ->). exists ((va, l) :: t). split; [apply (blocks_next _ _ _ _ _ _ va' size'); try assumption; lia|].
        rewrite <- app_assoc. reflexivity. }
    replace 0 with (start - start) in N at 1 by lia. apply (K _ start va size [] r ltac:(lia) Hz N).
  - intros (t & Bt & ->). assert (K : forall pos va size t, blocks_at p (start + rs) pos va size t -> forall acc, start <= pos < 2^32 -> is_u32 size ->
      nloop (S (length t)) body (pos, pos - start, va, size, acc) = Ok (inr (acc ++ map (listed abs) t)) /\ zlen t <= 2^32 - pos).
    { clear t Bt va size Hz. induction 1 as [pos va size C|pos va size l N0 L1 L2 Ai L3|pos va size l va' size' t N0 L2 Ai L3 U1 U2 Sh Bt IH]; intros acc Hp Hz; unfold is_u32 in Hz.
      - split; [|change (@zlen reloc_table []) with 0; lia]. cbn [length nloop]. rewrite Step by assumption. replace (negb (size =? 0) && (pos <? start + rs)) with false by (destruct (Z.eqb_spec size 0), (Z.ltb_spec pos (start + rs)); cbn; lia).
        cbn [map]. rewrite app_nil_r. reflexivity.
      - split; [|change (zlen [(va, l)]) with 1; lia]. cbn [length nloop]. rewrite Step by assumption. replace (negb (size =? 0) && (pos <? start + rs)) with true by lia. replace (pos + size <? 2^32) with true by lia.
        rewrite (proj2 (items_exact p pos size abs (keep abs l) R ltac:(lia) ltac:(lia) L2) (ex_intro _ l (conj Ai eq_refl))). cbn [bind]. replace (start + rs <=? pos + size) with true by lia. reflexivity.
      - destruct (IH (acc ++ [listed abs (va, l)]) ltac:(lia) U2) as [E Hn]. split; [|rewrite zlen_cons; lia]. cbn [length]. erewrite nloop_next; cycle 1.
        { rewrite Step by assumption. replace (negb (size =? 0) && (pos <? start + rs)) with true by lia. replace (pos + size <? 2^32) with true by lia.
          rewrite (proj2 (items_exact p pos size abs (keep abs l) R ltac:(lia) ltac:(lia) L2) (ex_intro _ l (conj Ai eq_refl))). cbn [bind]. replace (start + rs <=? pos + size) with false by lia.
          rewrite (proj2 (header_exact p (pos + size) va' size' R) (conj U1 (conj U2 Sh))). cbn [bind]. reflexivity. }
        etransitivity; [exact E|rewrite <- app_assoc; reflexivity]. }
    destruct (K _ _ _ _ Bt [] ltac:(lia) Hz) as [E Hn]. rewrite Z.sub_diag in E. eapply mloop_exec; [exact E|]. change (Zpos big_fuel) with (2^33 + 1). unfold zlen in Hn. lia.
Qed.
Lemma relocations_exact p : readable p -> forall rva size abs l, dir_is p dir_basereloc (rva, size) -> dir_basereloc < nrva p -> rva <> 0 -> Z.land (chars p) 1 = 0 ->
  (get_relocations p abs = Ok l <-> relocations_shown p rva size abs l).
Proof.
  intros R rva size abs l D N Hr Hc. destruct (dir_get p dir_basereloc R ltac:(unfold dir_basereloc; lia)) as (rva' & size' & Ur & Us & D' & Er & Es & Ex).
  assert (rva' = rva /\ size' = size) as [-> ->] by (unfold dir_is in *; destruct D as [_ D], D' as [_ D']; rewrite D in D'; injection D'; split; congruence).
  unfold get_relocations, has_reloc. rewrite (Ex N), Er, Es. replace (nrva p <=? dir_basereloc) with false by lia. cbn [bind]. replace (rva =? 0) with false by lia. cbn [negb andb bind].
  replace (check_characteristics_flag image_file_relocs_stripped p) with false by (unfold check_characteristics_flag, image_file_relocs_stripped; rewrite Hc; symmetry; reflexivity). cbn [negb bind]. unfold is_u32 in *.
  unfold relocations_shown. destruct (length_rva p rva rva VirtData true) as [n| | |] eqn:El; cbn [bind]; try (split; [discriminate|intros (? & ? & ? & ? & H & _); discriminate H]). split.
  - intros H. thr H C. destruct (read_reloc_header p rva) as [[va size0]| | |] eqn:Eh; try discriminate. cbn [bind] in H. thr H C2. apply header_exact in Eh; [|assumption]. destruct Eh as (U1 & U2 & Sh).
    apply blocks_exact in H; [|try assumption; unfold is_u32; lia..]. destruct H as (t & Bt & ->). exists n, va, size0, t. split; [reflexivity|]. split; [lia|]. split; [exact U1|]. split; [exact U2|]. split; [lia|]. tauto.
  - intros (n' & va & size0 & t & E1 & L & U1 & U2 & Ev & Sh & Bt & ->). injection E1 as ->. replace (n' <? 8) with false by lia. cbn [throw_if bind].
    rewrite (proj2 (header_exact p rva va size0 R) (conj U1 (conj U2 Sh))). cbn [bind]. rewrite Ev. cbn [Z.eqb negb throw_if bind]. apply blocks_exact; [assumption|lia|unfold is_u32; lia|exact U2|]. exists t. split; [exact Bt|reflexivity].
Qed.
Lemma relocations_absent p abs : directory_exists p dir_basereloc = Ok false -> get_relocations p abs = Ok [].
Proof. intros H. unfold get_relocations, has_reloc. rewrite H. reflexivity. Qed.

(** ** Bound imports *)
Section Bound.
Variables (d : list Z) (off len : Z).
Hypotheses (Bd : bytes d) (Ho : 0 <= off) (Hl : 0 < len -> off + len <= zlen d) (H32 : len < 2^32).
Lemma bound_name_exact o name : 0 <= o -> (bound_name d off len o = Ok name <-> bound_name_at d off len o name).
Proof.
  intros Hn. unfold bound_name, bound_name_at. split.
  - intros H. thr H C. destruct (c_string_safe d (off + o) (len - o) ltac:(lia) ltac:(lia)) as (r & Er & Hc). rewrite Er in H. cbn [bind] in H. destruct r as [s|]; [|discriminate]. injection H as ->.
    destruct (Hc name eq_refl) as (C1 & C2 & _ & _ & C5). rewrite zlen_app in C5. change (zlen [0]) with 1 in C5. split; [lia|]. split; assumption.
  - intros (H1 & H2 & H3). pose proof (zlen_nonneg name). replace (len <=? o) with false by lia. cbn [throw_if bind]. rewrite (c_string_ok d (off + o) name (len - o)); [reflexivity| |exact H3|lia].
    unfold holds. rewrite zlen_app. change (zlen [0]) with 1. split; [lia|]. split; [lia|exact H2].
Qed.
Lemma record_exact pos time o third : 0 <= pos -> pos + 8 <= len ->
  exists t, rd d (off + pos) 8 = Ok t /\ is_u32 (unle (slice t 0 4)) /\ is_u16 (unle (slice t 4 2)) /\ is_u16 (unle (slice t 6 2)) /\
    (bound_record d off pos time o third <-> time = unle (slice t 0 4) /\ o = unle (slice t 4 2) /\ third = unle (slice t 6 2)).
Proof.
  intros Hp Hp8. exists (slice d (off + pos) 8). split; [apply rd_ok; lia|]. set (t := slice d (off + pos) 8). assert (Bt : bytes t) by (apply bytes_slice, Bd). assert (Lt : zlen t = 8) by (apply zlen_slice; lia).
  assert (U : forall k n, 0 <= k -> k + Z.of_nat n <= 8 -> 0 <= unle (slice t k (Z.of_nat n)) < 256 ^ Z.of_nat n /\ le n (unle (slice t k (Z.of_nat n))) = slice t k (Z.of_nat n)).
  { intros k n Hk Hn. pose proof (unle_bound (slice t k (Z.of_nat n)) (bytes_slice _ _ _ Bt)) as Hb. rewrite zlen_slice in Hb by lia. split; [exact Hb|]. apply le_unle_n; [apply bytes_slice, Bt|].
    pose proof (zlen_slice t k (Z.of_nat n) ltac:(lia) ltac:(lia) ltac:(lia)) as Q. unfold zlen in Q. lia. }
  pose proof (U 0 4%nat ltac:(lia) ltac:(lia)) as [U1 V1]. pose proof (U 4 2%nat ltac:(lia) ltac:(lia)) as [U2 V2]. pose proof (U 6 2%nat ltac:(lia) ltac:(lia)) as [U3 V3].
  change (Z.of_nat 4) with 4 in *. change (Z.of_nat 2) with 2 in *. split; [exact U1|]. split; [exact U2|]. split; [exact U3|]. unfold bound_record. fold t. split.
  - intros (H1 & H2 & H3 & H4). rewrite H4. rewrite (slice_app_l _ _ 0 4) by (rewrite ?zlen_le; lia). rewrite !(slice_app_r (le 4 time)) by (rewrite zlen_le; lia). rewrite !zlen_le. change (4 - Z.of_nat 4) with 0. change (6 - Z.of_nat 4) with 2.
    rewrite (slice_app_l _ _ 0 2) by (rewrite ?zlen_le; lia). rewrite (slice_app_r _ _ 2 2) by (rewrite zlen_le; lia). rewrite zlen_le. change (2 - Z.of_nat 2) with 0. rewrite !slice_all by (rewrite zlen_le; lia).
    rewrite !unle_le_small by assumption. tauto.
  - intros (-> & -> & ->). split; [exact U1|]. split; [exact U2|]. split; [exact U3|]. rewrite V1, V2, V3. rewrite <- (slice_all t 8) at 1 by lia. change 8 with (4 + (2 + 2)) at 1. rewrite !slice_split by lia. reflexivity.
Qed.
Lemma refs_exact n : forall pos pos' l, 0 <= pos -> pos + 8 * Z.of_nat n < 2^32 ->
  (bound_refs d off len n pos = Ok (pos', l) <-> length l = n /\ pos' = pos + 8 * Z.of_nat n /\ refs_at d off len pos l).
Proof.
  induction n as [|n IH]; intros pos pos' l Hp H.
  - cbn [bound_refs]. split.
    + intros E. injection E as <- <-. split; [reflexivity|]. split; [lia|exact I].
    + intros (E & -> & _). destruct l; [|discriminate]. f_equal. f_equal. lia.
  - cbn [bound_refs]. destruct (Z.ltb_spec len (pos + 8)) as [L|L]; cbn [throw_if bind].
    { split; [discriminate|]. intros (E & _ & A). destruct l as [|[nm tm] l]; [discriminate|]. cbn [refs_at] in A. lia. }
    split.
    + intros E. destruct (record_exact pos 0 0 0 Hp L) as (t & Et & U1 & U2 & U3 & _). rewrite Et in E. cbn [bind] in E. unfold is_u16 in U2. bnd E name En. apply bound_name_exact in En; [|lia].
      rewrite u32_small in E by lia. bnd E x Ex. destruct x as [q refs]. apply IH in Ex; [|lia..]. destruct Ex as (E1 & E2 & E3). injection E as <- <-.
      split; [cbn [length]; lia|]. split; [lia|]. cbn [refs_at]. split; [lia|]. split; [|exact E3]. exists (unle (slice t 4 2)), (unle (slice t 6 2)). split; [|exact En].
      destruct (record_exact pos (unle (slice t 0 4)) (unle (slice t 4 2)) (unle (slice t 6 2)) Hp L) as (t' & Et' & _ & _ & _ & Q). rewrite Et in Et'. injection Et' as <-. apply Q. tauto.
    + intros (E & -> & A). destruct l as [|[nm tm] l]; [discriminate|]. cbn [refs_at] in A. destruct A as (_ & (o & r & Rc & Nm) & A). destruct (record_exact pos tm o r Hp L) as (t & Et & U1 & U2 & U3 & Q).
      apply Q in Rc. destruct Rc as (-> & -> & ->). rewrite Et. cbn [bind]. unfold is_u16 in U2. rewrite (proj2 (bound_name_exact (unle (slice t 4 2)) nm ltac:(lia)) Nm). cbn [bind]. rewrite u32_small by lia.
      rewrite (proj2 (IH (pos + 8) (pos + 8 + 8 * Z.of_nat n) l ltac:(lia) ltac:(lia))); [|cbn [length] in E; split; [lia|]; split; [reflexivity|exact A]]. cbn [bind]. f_equal. f_equal. lia.
Qed.
Lemma bound_loop_exact l : 8 <= len -> (bound_loop d off len = Ok l <-> modules_at d off len 0 l).
Proof.
  intros L8. unfold bound_loop.
  set (body := fun st : Z * list bound_import => let '(pos, acc) := st in
    t <- rd d (off + pos) 8 ;;
    let name_off := unle (slice t 4 2) in
    if name_off =? 0 then Ok (inr acc)
    else
      name <- bound_name d off len name_off ;;
      let n := unle (slice t 6 2) in
      throw_if ((0xFFFFFFFF / 8 <=? n) || negb (is_sum_safe pos (u32 (16 + n * 8)))) incorrect_bound_import_directory ;;;
      ' (pos', refs) <- bound_refs d off len (Z.to_nat n) (u32 (pos + 8)) ;;
      throw_if (len <? pos' + 8) incorrect_bound_import_directory ;;;
      Ok (@inl _ (list bound_import) (pos', acc ++ [(name, unle (slice t 0 4), refs)]))).
  split.
  - intros H. rewrite mloop_nloop in H. destruct (nloop (Pos.to_nat big_fuel) body (0, [])) as [[st|x]| | |] eqn:N; try discriminate. injection H as ->.
    assert (K : forall n pos acc r, 0 <= pos -> pos + 8 <= len -> nloop n body (pos, acc) = Ok (inr r) -> exists t, modules_at d off len pos t /\ r = acc ++ t).
    { clear N l. induction n as [|n IH]; intros pos acc r Hp Hq H; [discriminate|]. cbn [nloop] in H. unfold body at 1 in H.
      destruct (record_exact pos 0 0 0 Hp Hq) as (t & Et & U1 & U2 & U3 & _). rewrite Et in H. cbn [bind] in H. cbv zeta in H.
      assert (Rc : bound_record d off pos (unle (slice t 0 4)) (unle (slice t 4 2)) (unle (slice t 6 2))).
      { destruct (record_exact pos (unle (slice t 0 4)) (unle (slice t 4 2)) (unle (slice t 6 2)) Hp Hq) as (t' & Et' & _ & _ & _ & Q). rewrite Et in Et'. injection Et' as <-. apply Q. tauto. }
      unfold is_u16 in U2, U3. destruct (Z.eqb_spec (unle (slice t 4 2)) 0) as [E0|E0].
      - injection H as <-. exists []. split; [|rewrite app_nil_r; reflexivity]. rewrite E0 in Rc. apply (modules_end _ _ _ _ _ _ Hq Rc).
      - destruct (bound_name d off len (unle (slice t 4 2))) as [name| | |] eqn:En; try discriminate. cbn [bind] in H. apply bound_name_exact in En; [|lia].
        destruct ((0xFFFFFFFF / 8 <=? unle (slice t 6 2)) || negb (is_sum_safe pos (u32 (16 + unle (slice t 6 2) * 8)))) eqn:C; [discriminate|]. cbn [throw_if bind] in H.
        rewrite orb_false_iff in C. destruct C as [_ C]. apply negb_false_iff in C. rewrite u32_small in C by lia. apply is_sum_safe_spec in C; [|lia]. rewrite u32_small in H by lia.
        destruct (bound_refs d off len (Z.to_nat (unle (slice t 6 2))) (pos + 8)) as [[pos' refs]| | |] eqn:Er; try discriminate. cbn [bind] in H. apply refs_exact in Er; [|lia..]. destruct Er as (Lr & -> & Ar).
        destruct (Z.ltb_spec len (pos + 8 + 8 * Z.of_nat (Z.to_nat (unle (slice t 6 2))) + 8)) as [Q|Q]; [discriminate|]. cbn [throw_if bind] in H.
        assert (Zr : zlen refs = unle (slice t 6 2)) by (unfold zlen; lia).
        assert (P1 : 0 <= pos + 8 + 8 * Z.of_nat (Z.to_nat (unle (slice t 6 2)))) by lia. assert (P2 : pos + 8 + 8 * Z.of_nat (Z.to_nat (unle (slice t 6 2))) + 8 <= len) by lia.
        destruct (IH _ _ _ P1 P2 H) as (u & Mu & ->). exists ((name, unle (slice t 0 4), refs) :: u). split; [|rewrite <- app_assoc; reflexivity].
        apply (modules_next _ _ _ _ _ (unle (slice t 4 2))); try assumption; [rewrite Zr; exact Rc|lia|]. replace (pos + 8 * (zlen refs + 1)) with (pos + 8 + 8 * Z.of_nat (Z.to_nat (unle (slice t 6 2)))) by lia. exact Mu. }
    destruct (K _ 0 [] l ltac:(lia) ltac:(lia) N) as (t & Mt & ->). exact Mt.
  - intros M. assert (K : forall pos l, modules_at d off len pos l -> forall acc, 0 <= pos -> nloop (S (length l)) body (pos, acc) = Ok (inr (acc ++ l)) /\ zlen l <= len - pos).
    { clear l M. induction 1 as [pos time n Hq Rc|pos time o name refs l Hq N0 Rc Nm Ar Hs M IH]; intros acc Hp.
      - split; [|change (@zlen bound_import []) with 0; lia]. destruct (record_exact pos time 0 n Hp Hq) as (t & Et & _ & _ & _ & Q). apply Q in Rc. destruct Rc as (_ & E0 & _).
        cbn [length nloop]. unfold body. rewrite Et. cbn [bind]. cbv zeta. rewrite <- E0. cbn [Z.eqb]. rewrite app_nil_r. reflexivity.
      - pose proof (zlen_nonneg refs) as Zr. destruct (IH (acc ++ [(name, time, refs)]) ltac:(lia)) as [E Hn]. split; [|rewrite zlen_cons; lia].
        destruct (record_exact pos time o (zlen refs) Hp Hq) as (t & Et & U1 & U2 & U3 & Q). apply Q in Rc. destruct Rc as (E1 & E2 & E3). unfold is_u16 in U2, U3. rewrite <- E2, <- E3 in *.
        assert (P : pos + 8 * (zlen refs + 1) + 8 <= len) by (inversion M; lia).
        cbn [length]. erewrite nloop_next; cycle 1.
        { unfold body. rewrite Et. cbn [bind]. cbv zeta. rewrite <- E2, <- E3, <- E1. replace (o =? 0) with false by lia. rewrite (proj2 (bound_name_exact o name ltac:(lia)) Nm). cbn [bind].
          replace (0xFFFFFFFF / 8 <=? zlen refs) with false by (change (0xFFFFFFFF / 8) with 536870911; lia). rewrite (u32_small (16 + _)) by lia. replace (is_sum_safe pos (16 + zlen refs * 8)) with true by (symmetry; apply is_sum_safe_spec; lia).
          cbn [orb negb throw_if bind]. rewrite u32_small by lia. rewrite (proj2 (refs_exact (Z.to_nat (zlen refs)) (pos + 8) (pos + 8 * (zlen refs + 1)) refs ltac:(lia) ltac:(lia))); [|split; [unfold zlen; lia|]; split; [lia|exact Ar]]. cbn [bind].
          replace (len <? pos + 8 * (zlen refs + 1) + 8) with false by lia. cbn [throw_if bind]. reflexivity. }
        etransitivity; [exact E|rewrite <- app_assoc; reflexivity]. }
    destruct (K _ _ M [] ltac:(lia)) as [E Hn]. eapply mloop_exec; [exact E|]. change (Zpos big_fuel) with (2^33 + 1). unfold zlen in Hn. lia.
Qed.
End Bound.
Lemma bound_exact p : readable p -> forall rva size l, dir_is p dir_bound_import (rva, size) -> dir_bound_import < nrva p -> rva <> 0 ->
  (get_bound_imports p = Ok l <-> bound_shown p rva size l).
Proof.
  intros R rva size l D N Hr. destruct (dir_get p dir_bound_import R ltac:(unfold dir_bound_import; lia)) as (rva' & size' & Ur & Us & D' & Er & Es & Ex).
  assert (rva' = rva /\ size' = size) as [-> ->] by (unfold dir_is in *; destruct D as [_ D], D' as [_ D']; rewrite D in D'; injection D'; split; congruence).
  unfold get_bound_imports. rewrite (Ex N), Er, Es. replace (nrva p <=? dir_bound_import) with false by lia. cbn [bind]. replace (rva =? 0) with false by lia. cbn [negb bind]. unfold bound_shown.
  destruct (length_rva p rva rva RawData true) as [len| | |] eqn:E; cbn [bind]; try (split; [discriminate|intros (? & ? & ? & H & _); discriminate H]).
  destruct (ptr_room p rva RawData len R (or_introl eq_refl) Ur E) as (d & off & -> & Ho & Bd & L1 & L2). split.
  - intros H. thr H C. cbn [bind] in H. thr H C2. apply bound_loop_exact in H; try assumption; try lia. exists d, off, len. split; [reflexivity|]. split; [lia|]. split; [reflexivity|exact H].
  - intros (d' & off' & len' & E1 & E2 & E3 & M). injection E1 as ->. injection E3 as <- <-. replace (len' <? size) with false by lia. cbn [throw_if bind].
    assert (8 <= len') by (inversion M; lia). replace (len' <? 8) with false by lia. cbn [throw_if bind]. apply bound_loop_exact; try assumption; lia.
Qed.
