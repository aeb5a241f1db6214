(** Lemmas on relocations. *)
From Verif Require Export SpecReloc DirFacts.

(** ** Items *)
Lemma entry_of_item_eq v : is_u16 v -> entry_of_item v = (v mod 4096, v / 4096).
Proof.
  unfold is_u16; intros H. unfold entry_of_item. change 0xFFF with (Z.ones 12). rewrite Z.land_ones by lia. rewrite Z.shiftr_div_pow2 by lia. reflexivity.
Qed.
Lemma item_of_entry_eq e : valid_entry e -> item_of_entry e = fst e + 4096 * snd e.
Proof.
  destruct e as [r t]; unfold valid_entry, item_of_entry; cbn [fst snd]; intros [Hr Ht].
  assert (E : Z.lor r (Z.shiftl t 12) = r + 4096 * t).
  { rewrite Z.shiftl_mul_pow2 by lia. change (2^12) with 4096. rewrite <- Z.lxor_lor, <- Z.add_nocarry_lxor; try lia.
    - apply Z.bits_inj'. intros n Hn. rewrite Z.land_spec, Z.bits_0. replace (t * 4096) with (Z.shiftl t 12) by (rewrite Z.shiftl_mul_pow2 by lia; reflexivity).
      destruct (Z.ltb_spec n 12) as [L|L]; [rewrite Z.shiftl_spec_low by lia; apply andb_false_r|].
      rewrite (Z.bits_above_log2 r n); [reflexivity|lia|]. destruct (Z.eqb_spec r 0) as [->|N0]; [cbn; lia|].
      apply Z.log2_lt_pow2; [lia|]. apply Z.lt_le_trans with (2^12); [change (2^12) with 4096; lia|apply Z.pow_le_mono_r; lia].
    - apply Z.bits_inj'. intros n Hn. rewrite Z.land_spec, Z.bits_0. replace (t * 4096) with (Z.shiftl t 12) by (rewrite Z.shiftl_mul_pow2 by lia; reflexivity).
      destruct (Z.ltb_spec n 12) as [L|L]; [rewrite Z.shiftl_spec_low by lia; apply andb_false_r|].
      rewrite (Z.bits_above_log2 r n); [reflexivity|lia|]. destruct (Z.eqb_spec r 0) as [->|N0]; [cbn; lia|].
      apply Z.log2_lt_pow2; [lia|]. apply Z.lt_le_trans with (2^12); [change (2^12) with 4096; lia|apply Z.pow_le_mono_r; lia]. }
  rewrite E. unfold u16. rewrite Z.mod_small; [reflexivity|]. change (2^16) with 65536. lia.
Qed.
Lemma item_round v : is_u16 v -> item_of_entry (entry_of_item v) = v.
Proof.
  intros H. rewrite (entry_of_item_eq v H). unfold is_u16 in H. rewrite item_of_entry_eq by (unfold valid_entry; cbn [fst snd]; lia). cbn [fst snd]. lia.
Qed.
Lemma entry_round r t : is_u16 r -> is_u16 t -> (entry_of_item (item_of_entry (r, t)) = (r, t) <-> r < 4096 /\ t < 16).
Proof.
  unfold is_u16; intros Hr Ht. split.
  - intros E. assert (U : is_u16 (item_of_entry (r, t))) by (unfold item_of_entry; apply u16_range).
    rewrite (entry_of_item_eq _ U) in E. unfold is_u16 in U. set (v := item_of_entry (r, t)) in *. clearbody v.
    assert (v mod 4096 = r) by congruence. assert (v / 4096 = t) by congruence. change (2^16) with 65536 in *. clear E. lia.
  - intros H. rewrite item_of_entry_eq by (unfold valid_entry; cbn [fst snd]; lia). cbn [fst snd].
    rewrite entry_of_item_eq by (unfold is_u16; lia). f_equal; lia.
Qed.

(** ** Reading is safe *)
Lemma reloc_items_safe p pos size abs : readable p -> 0 < pos -> pos + size < 2^32 -> 0 <= size -> safe (reloc_items p pos size abs).
Proof.
  intros R H1 H2 H3. unfold reloc_items.
  apply mloop_safe with (Inv := fun st : Z * list reloc_entry => 8 <= fst st < 2^32 /\ fst st mod 2 = 0)
    (m := fun st => 2^32 - fst st); [|cbn [fst]; split; [lia|reflexivity]|cbn [fst]; unfold big_fuel; lia].
  intros [i acc] (I1 & I2). cbn [fst] in *. split; [lia|]. destruct (Z.ltb_spec i size) as [L|L]; [|exact I].
  pose proof R as (_ & _ & W & _). pose proof (read_rva_safe p (u32 (pos + i)) 2 VirtData true W (u32_range _) ltac:(lia)) as S.
  destruct (read_rva p (u32 (pos + i)) 2 VirtData true); cbn [bind]; try exact S. rewrite u32_small by lia. cbn [fst]. lia.
Qed.
Lemma read_header_safe p pos : readable p -> is_u32 pos ->
  match read_reloc_header p pos with Ok (va, size) => is_u32 va /\ is_u32 size | Throw _ => True | _ => False end.
Proof.
  intros R U. pose proof R as (_ & _ & W & _). unfold read_reloc_header.
  pose proof (read_rva_safe p pos 8 VirtData true W U ltac:(lia)) as S.
  destruct (read_rva p pos 8 VirtData true) as [bs| | |] eqn:E; cbn [bind]; try exact S.
  pose proof (read_rva_len _ _ _ _ _ _ E) as L. pose proof (read_rva_bytes _ _ _ _ _ _ R E) as B.
  split.
  - pose proof (unle_bound (slice bs 0 4) (bytes_slice _ _ _ B)) as H. rewrite zlen_slice in H by lia. exact H.
  - pose proof (unle_bound (slice bs 4 4) (bytes_slice _ _ _ B)) as H. rewrite zlen_slice in H by lia. exact H.
Qed.
Lemma reloc_blocks_safe p start va size rs abs : readable p -> 0 < start < 2^32 -> is_u32 size -> is_u32 rs ->
  safe (reloc_blocks p start va size rs abs).
Proof.
  unfold is_u32; intros R H1 H2 H3. unfold reloc_blocks.
  apply mloop_safe with (Inv := fun st : Z * Z * Z * Z * list reloc_table => let '(pos, rd, va, size, _) := st in 0 < pos < 2^32 /\ 0 <= rd /\ rd <= pos /\ is_u32 size)
    (m := fun st => let '(pos, _, _, _, _) := st in 2^32 - pos); [|unfold is_u32; lia|unfold big_fuel; lia].
  intros [[[[pos rd] v] sz] acc] (I1 & I2 & I3 & I4). unfold is_u32 in I4. split; [lia|].
  destruct (negb (sz =? 0) && (rd <? rs)) eqn:C; [|exact I].
  destruct (is_sum_safe pos sz) eqn:SS; cbn [negb throw_if bind]; [|exact I].
  apply is_sum_safe_spec in SS; [|lia].
  pose proof (reloc_items_safe p pos sz abs R ltac:(lia) ltac:(lia) ltac:(lia)) as S.
  destruct (reloc_items p pos sz abs); cbn [bind]; try exact S.
  rewrite !u32_small by lia. destruct (Z.leb_spec rs (rd + sz)); [exact I|].
  pose proof (read_header_safe p (pos + sz) R ltac:(unfold is_u32; lia)) as Hh.
  destruct (read_reloc_header p (pos + sz)) as [[va' sz']| | |]; cbn [bind]; try exact Hh. unfold is_u32 in *. lia.
Qed.
Lemma get_relocations_safe p abs : readable p -> safe (get_relocations p abs).
Proof.
  intros R. unfold get_relocations, has_reloc. pose proof R as (D & N & W & _).
  destruct (directory_exists_safe p dir_basereloc R ltac:(unfold dir_basereloc; lia)) as [b Eb]. rewrite Eb. cbn [bind].
  case_if C; [|exact I].
  destruct (dir_get p dir_basereloc R ltac:(unfold dir_basereloc; lia)) as (rva & size & Ur & Us & Di & G1 & G2 & G3).
  rewrite G1, G2. destruct (Z.leb_spec (nrva p) dir_basereloc); cbn [bind]; [exact I|].
  rewrite (G3 ltac:(lia)) in Eb. inversion Eb; subst b. clear Eb.
  pose proof (length_rva_safe p rva rva VirtData true W) as S1. destruct (length_rva p rva rva VirtData true); cbn [bind]; try exact S1.
  case_throw T; [exact I|]. pose proof (read_header_safe p rva R Ur) as Hh.
  destruct (read_reloc_header p rva) as [[va sz]| | |]; cbn [bind]; try exact Hh.
  case_throw T2; [exact I|]. unfold is_u32 in *. apply reloc_blocks_safe; unfold is_u32; try assumption; try lia; try tauto.
Qed.

(** ** Writing *)
Definition items_bytes (l : list reloc_entry) : list Z := concat (map (fun e => le 2 (fst e + 4096 * snd e)) l).
Lemma zlen_items l : zlen (items_bytes l) = 2 * zlen l.
Proof. induction l as [|e l IH]; [reflexivity|]. unfold items_bytes in *. cbn [map concat]. rewrite zlen_app, IH, zlen_le, zlen_cons. lia. Qed.
Lemma items_app a b : items_bytes (a ++ b) = items_bytes a ++ items_bytes b.
Proof. unfold items_bytes. rewrite map_app, concat_app. reflexivity. Qed.
Lemma zlen_block t : zlen (block_bytes t) = block_size t.
Proof. unfold block_bytes. fold (items_bytes (snd t ++ padding t)). rewrite !zlen_app, !zlen_le, zlen_items. unfold block_size. lia. Qed.
Lemma zlen_padding t : zlen (padding t) = zlen (snd t) mod 2.
Proof. unfold padding. destruct (Z.eqb_spec (zlen (snd t) mod 2) 0) as [E|E]; [rewrite E; reflexivity|]. change (zlen [(0, 0)]) with 1. lia. Qed.
Lemma block_size_eq t : block_size t = 8 + 2 * (zlen (snd t) + zlen (snd t) mod 2).
Proof. unfold block_size. rewrite zlen_app, zlen_padding. lia. Qed.
Lemma block_size_pos t : 8 <= block_size t /\ block_size t mod 4 = 0.
Proof. rewrite block_size_eq. pose proof (zlen_nonneg (snd t)). lia. Qed.
Lemma blocks_size_pos l : 0 <= blocks_size l /\ blocks_size l mod 4 = 0.
Proof. induction l as [|t l IH]; cbn [blocks_size fold_right]; [split; [lia|reflexivity]|]. fold (blocks_size l). pose proof (block_size_pos t). lia. Qed.
Lemma zlen_blocks l : zlen (concat (map block_bytes l)) = blocks_size l.
Proof. induction l as [|t l IH]; [reflexivity|]. cbn [map concat]. rewrite zlen_app, zlen_block, IH. reflexivity. Qed.
Lemma bytes_items l : bytes (items_bytes l).
Proof. induction l; [constructor|]. unfold items_bytes in *. cbn [map concat]. apply bytes_app. split; [apply bytes_le|assumption]. Qed.
Lemma bytes_blocks l : bytes (concat (map block_bytes l)).
Proof.
  induction l; [constructor|]. cbn [map concat]. apply bytes_app. split; [|assumption]. unfold block_bytes.
  apply bytes_app. split; [apply bytes_le|]. apply bytes_app. split; [apply bytes_le|]. apply bytes_items.
Qed.
Lemma write_items_ok l : forall d pos out, Forall valid_entry l -> 0 <= pos -> pos + zlen out + 2 * zlen l <= zlen d -> zlen d < 2^32 ->
  write_items (splice d pos out, pos + zlen out) l = Ok (splice d pos (out ++ items_bytes l), pos + zlen (out ++ items_bytes l)).
Proof.
  unfold write_items. induction l as [|e l IH]; intros d pos out V Hp Hl Hd; cbn [mfold].
  - unfold items_bytes. cbn [map concat]. rewrite app_nil_r. reflexivity.
  - apply Forall_cons_iff in V as [V1 V2]. rewrite zlen_cons in Hl. pose proof (zlen_nonneg l). pose proof (zlen_nonneg out). cbn [fst snd].
    rewrite item_of_entry_eq by exact V1.
    rewrite wr_append by (rewrite ?zlen_le; lia). cbn [bind].
    replace (u32 (pos + zlen out + 2)) with (pos + zlen (out ++ le 2 (fst e + 4096 * snd e))) by (rewrite zlen_app, zlen_le, u32_small by lia; lia).
    rewrite IH; try assumption; [|rewrite zlen_app, zlen_le; lia].
    unfold items_bytes. cbn [map concat]. rewrite <- app_assoc. reflexivity.
Qed.
Lemma write_table_ok t d pos out : valid_table t -> 0 <= pos -> pos mod 4 = 0 -> zlen out mod 4 = 0 -> pos + zlen out + block_size t <= zlen d -> zlen d < 2^32 ->
  write_table (splice d pos out, pos + zlen out) t = Ok (splice d pos (out ++ block_bytes t), pos + zlen (out ++ block_bytes t)).
Proof.
  intros [V1 V2] Hp H4 Ho Hl Hd. pose proof (zlen_nonneg out). pose proof (zlen_nonneg (snd t)) as Ln. rewrite block_size_eq in Hl. unfold write_table. cbn [fst snd].
  assert (S : (if (2 * zlen (snd t)) mod 4 =? 0 then u32 (8 + 2 * zlen (snd t)) else u32 (u32 (8 + 2 * zlen (snd t)) + 2)) = block_size t).
  { rewrite block_size_eq. destruct (Z.eqb_spec ((2 * zlen (snd t)) mod 4) 0); rewrite (u32_small (8 + 2 * zlen (snd t))) by lia; [lia|]. rewrite u32_small by lia. lia. }
  rewrite S. rewrite wr_append by (rewrite ?zlen_app, ?zlen_le; lia). cbn [bind]. set (hd := le 4 (fst t) ++ le 4 (block_size t)).
  assert (Lh : zlen hd = 8) by (unfold hd; rewrite zlen_app, !zlen_le; reflexivity).
  replace (u32 (pos + zlen out + 8)) with (pos + zlen (out ++ hd)) by (rewrite zlen_app, Lh, u32_small by lia; lia).
  rewrite write_items_ok; [|exact V2|exact Hp|rewrite zlen_app, Lh; lia|exact Hd]. cbn [bind].
  rewrite !zlen_app, Lh, zlen_items. 
  assert (Bb : block_bytes t = hd ++ items_bytes (snd t) ++ items_bytes (padding t)).
  { unfold block_bytes. fold (items_bytes (snd t ++ padding t)). rewrite items_app. unfold hd. rewrite <- !app_assoc. reflexivity. }
  destruct (Z.eqb_spec ((pos + (zlen out + 8 + 2 * zlen (snd t))) mod 4) 0) as [E|E].
  - assert (Pd : padding t = []) by (unfold padding; replace (zlen (snd t) mod 2 =? 0) with true by lia; reflexivity).
    rewrite Bb, Pd. change (items_bytes []) with (@nil Z). rewrite app_nil_r, <- app_assoc, !zlen_app, Lh, zlen_items. do 2 f_equal. lia.
  - assert (Pd : padding t = [(0,0)]) by (unfold padding; replace (zlen (snd t) mod 2 =? 0) with false by lia; reflexivity).
    set (o2 := (out ++ hd) ++ items_bytes (snd t)). replace (pos + (zlen out + 8 + 2 * zlen (snd t))) with (pos + zlen o2) by (unfold o2; rewrite !zlen_app, Lh, zlen_items; lia).
    assert (L2 : zlen o2 = zlen out + 8 + 2 * zlen (snd t)) by (unfold o2; rewrite !zlen_app, Lh, zlen_items; lia).
    rewrite wr_append by (rewrite ?L2; change (zlen [0;0]) with 2; lia). cbn [bind]. rewrite u32_small by lia.
    rewrite Bb, Pd. change (items_bytes [(0,0)]) with [0;0]. unfold o2. rewrite <- !app_assoc, !zlen_app, Lh, zlen_items. change (zlen [0;0]) with 2. do 2 f_equal. lia.
Qed.
Lemma write_tables_ok l : forall d pos out, Forall valid_table l -> 0 <= pos -> pos mod 4 = 0 -> zlen out mod 4 = 0 -> pos + zlen out + blocks_size l <= zlen d -> zlen d < 2^32 ->
  mfold write_table l (splice d pos out, pos + zlen out) = Ok (splice d pos (out ++ concat (map block_bytes l)), pos + zlen (out ++ concat (map block_bytes l))).
Proof.
  induction l as [|t l IH]; intros d pos out V Hp H4 Ho Hl Hd; cbn [mfold].
  - cbn [map concat]. rewrite app_nil_r. reflexivity.
  - apply Forall_cons_iff in V as [V1 V2]. cbn [blocks_size fold_right] in Hl. fold (blocks_size l) in Hl. pose proof (blocks_size_pos l). pose proof (block_size_pos t).
    rewrite write_table_ok; try assumption; try lia. cbn [bind].
    rewrite IH; try assumption; try (rewrite zlen_app, zlen_block; lia). cbn [map concat]. rewrite <- app_assoc. reflexivity.
Qed.
Lemma reloc_needed_ok l : forall start delta acc, 0 <= start -> 0 <= delta -> start mod 4 = 0 -> (acc - delta) mod 4 = 0 -> delta <= acc -> start + acc + blocks_size l < 2^32 ->
  fold_left (fun needed t =>
    let n := u32 (needed + u32 (2 * zlen (snd t) + 8)) in
    if u32 (start + n - delta) mod 4 =? 0 then n else u32 (n + 2)) l acc = acc + blocks_size l.
Proof.
  induction l as [|t l IH]; intros start delta acc Hs Hd H4 Ha Hda Hb; cbn [fold_left]; [cbn; lia|].
  cbn [blocks_size fold_right] in *. fold (blocks_size l) in *. pose proof (blocks_size_pos l). pose proof (block_size_pos t). pose proof (zlen_nonneg (snd t)).
  pose proof (block_size_eq t) as Q.
  assert (E : (if u32 (start + u32 (acc + u32 (2 * zlen (snd t) + 8)) - delta) mod 4 =? 0 then u32 (acc + u32 (2 * zlen (snd t) + 8))
     else u32 (u32 (acc + u32 (2 * zlen (snd t) + 8)) + 2)) = acc + block_size t).
  { rewrite (u32_small (2 * zlen (snd t) + 8)) by lia. rewrite (u32_small (acc + _)) by lia. rewrite (u32_small (start + _ - delta)) by lia.
    destruct (Z.eqb_spec ((start + (acc + (2 * zlen (snd t) + 8)) - delta) mod 4) 0); [lia|]. rewrite u32_small by lia. lia. }
  cbv zeta. rewrite E. rewrite IH; lia.
Qed.

(** ** Reading the tables back *)
Definition shown (abs : bool) (l : list reloc_entry) : list reloc_entry :=
  if abs then l else filter (fun e => negb (snd e =? image_rel_based_absolute)) l.
Lemma shown_cons abs e l : shown abs (e :: l) = (if abs || negb (snd e =? image_rel_based_absolute) then [e] else []) ++ shown abs l.
Proof. unfold shown. destruct abs; cbn [filter orb app]; [reflexivity|]. destruct (negb _); reflexivity. Qed.
Lemma items_read p base v off size abs l : block p base v -> 0 <= off -> forall i acc,
  holds v (off + i) (items_bytes l) -> Forall valid_entry l -> 0 <= i -> i + 2 * zlen l = size ->
  nloop (S (length l)) (fun st : Z * list reloc_entry =>
    let '(i, acc) := st in
    if i <? size then
      bs <- read_rva p (u32 (base + off + i)) 2 VirtData true ;;
      let e := entry_of_item (unle bs) in
      Ok (inl (u32 (i + 2), if abs || negb (snd e =? image_rel_based_absolute) then acc ++ [e] else acc))
    else Ok (inr acc)) (i, acc) = Ok (inr (acc ++ shown abs l)).
Proof.
  intros B Ho. induction l as [|e l IH]; intros i acc H V Hi Hz.
  - cbn [length nloop]. change (@zlen reloc_entry []) with 0 in Hz. replace (i <? size) with false by lia. unfold shown. destruct abs; cbn [filter]; rewrite app_nil_r; reflexivity.
  - cbn [length]. remember (S (length l)) as n. cbn [nloop]. rewrite zlen_cons in Hz. pose proof (zlen_nonneg l). replace (i <? size) with true by lia.
    unfold items_bytes in H. cbn [map concat] in H. fold (items_bytes l) in H. apply holds_app in H as [H1 H2]. rewrite zlen_le in H2.
    pose proof (holds_range _ _ _ H1) as [R1 R2]. rewrite zlen_le in R2. pose proof B as (_ & _ & Hb & _). pose proof (block_base _ _ _ B).
    rewrite u32_small by lia. replace (base + off + i) with (base + (off + i)) by lia.
    rewrite (block_holds _ _ _ _ _ _ B H1) by (rewrite ?zlen_le; lia). cbn [bind].
    apply Forall_cons_iff in V as [V1 V2]. destruct V1 as [V1 V3].
    rewrite unle_le by lia. rewrite Z.mod_small by (change (256 ^ Z.of_nat 2) with 65536; lia). 
    assert (Ee : entry_of_item (fst e + 4096 * snd e) = e).
    { rewrite entry_of_item_eq by (unfold is_u16; change (2^16) with 65536; lia). destruct e as [r t]; cbn [fst snd] in *. f_equal; lia. }
    rewrite Ee. cbv zeta. rewrite u32_small by (pose proof (holds_range _ _ _ H2) as [Q1 Q2]; rewrite zlen_items in Q2; lia).
    subst n. rewrite IH; [|replace (off + (i + 2)) with (off + i + Z.of_nat 2) by lia; exact H2|exact V2|lia|lia].
    rewrite shown_cons. destruct (abs || negb (snd e =? image_rel_based_absolute)); rewrite <- ?app_assoc; reflexivity.
Qed.
Definition padded_items (t : reloc_table) : list reloc_entry := snd t ++ padding t.
Lemma valid_padded t : valid_table t -> Forall valid_entry (padded_items t).
Proof.
  intros [_ V]. unfold padded_items. apply Forall_app. split; [exact V|]. unfold padding. destruct (_ =? _); constructor; [|constructor]. unfold valid_entry; cbn [fst snd]; lia.
Qed.
Lemma items_read_table p base v off abs t : block p base v -> holds v off (block_bytes t) -> valid_table t ->
  reloc_items p (base + off) (block_size t) abs = Ok (shown abs (padded_items t)) /\
  read_reloc_header p (base + off) = Ok (fst t, block_size t).
Proof.
  intros B H V. unfold block_bytes in H. fold (items_bytes (snd t ++ padding t)) in H. fold (padded_items t) in H.
  pose proof (holds_range _ _ _ H) as [R1 R2]. rewrite !zlen_app, !zlen_le, zlen_items in R2. pose proof B as (_ & _ & Hb & _). pose proof (block_base _ _ _ B).
  assert (Bs : block_size t = 8 + 2 * zlen (padded_items t)) by reflexivity. pose proof (zlen_nonneg (padded_items t)).
  rewrite app_assoc in H. apply holds_app in H as [H1' H2]. rewrite zlen_app, !zlen_le in H2.
  split.
  - unfold reloc_items. eapply mloop_exec; [apply (items_read p base v off (block_size t) abs (padded_items t) B ltac:(lia))|].
    + replace (off + 8) with (off + (Z.of_nat 4 + Z.of_nat 4)) by lia. exact H2.
    + apply valid_padded, V.
    + lia.
    + lia.
    + unfold zlen in *. unfold big_fuel. lia.
  - unfold read_reloc_header. rewrite (block_holds _ _ _ _ _ _ B H1') by (rewrite ?zlen_app, ?zlen_le; lia). cbn [bind].
    assert (L4 : zlen (le 4 (fst t)) = 4) by apply zlen_le.
    rewrite slice_app_l by (rewrite ?zlen_le; lia). rewrite slice_all by (rewrite zlen_le; lia).
    rewrite slice_app_r by (rewrite zlen_le; lia). rewrite zlen_le. replace (4 - Z.of_nat 4) with 0 by lia. rewrite slice_all by (rewrite zlen_le; lia).
    destruct V as [V _]. unfold is_u32 in V. rewrite !unle_le by lia. change (256 ^ Z.of_nat 4) with (2^32). rewrite !Z.mod_small by lia. reflexivity.
Qed.
Lemma blocks_read p base v rs abs : block p base v -> forall l t off rd acc,
  holds v off (concat (map block_bytes (t :: l))) -> Forall valid_table (t :: l) -> 0 <= rd -> rd + blocks_size (t :: l) = rs -> rs < 2^32 ->
  nloop (S (length l)) (fun st : Z * Z * Z * Z * list reloc_table =>
    let '(pos, read_size, va, size, acc) := st in
    if negb (size =? 0) && (read_size <? rs) then
      throw_if (negb (is_sum_safe pos size)) incorrect_relocation_directory ;;;
      items <- reloc_items p pos size abs ;;
      let acc' := acc ++ [(va, items)] in
      throw_if (negb (is_sum_safe pos size)) incorrect_relocation_directory ;;;
      let pos' := u32 (pos + size) in
      let read_size' := u32 (read_size + size) in
      if rs <=? read_size' then Ok (inr acc')
      else
        ' (va', size') <- read_reloc_header p pos' ;;
        Ok (inl (pos', read_size', va', size', acc'))
    else Ok (inr acc)) (base + off, rd, fst t, block_size t, acc)
  = Ok (inr (acc ++ map (fun t => (fst t, shown abs (padded_items t))) (t :: l))).
Proof.
  intros B. induction l as [|u l IH]; intros t off rd acc H V Hr Hz Hs.
  all: cbn [blocks_size fold_right] in Hz; pose proof (block_size_pos t) as Bp; apply Forall_cons_iff in V as [V1 V2]; cbn [map concat] in H; apply holds_app in H as [H1 H2];
    pose proof (holds_range _ _ _ H1) as [R1 R2]; rewrite zlen_block in R2, H2; pose proof B as (_ & _ & Hb & _); pose proof (block_base _ _ _ B);
    destruct (items_read_table p base v off abs t B H1 V1) as [I1 _].
  - cbn [length nloop]. replace (negb (block_size t =? 0) && (rd <? rs)) with true by lia.
    assert (SS : is_sum_safe (base + off) (block_size t) = true) by (apply is_sum_safe_spec; lia). rewrite SS. cbn [negb throw_if bind].
    rewrite I1. cbn [bind]. rewrite !u32_small by lia. replace (rs <=? rd + block_size t) with true by lia. reflexivity.
  - cbn [length]. remember (S (length l)) as n. cbn [nloop]. fold (blocks_size l) in Hz. pose proof (blocks_size_pos l). pose proof (block_size_pos u).
    replace (negb (block_size t =? 0) && (rd <? rs)) with true by lia.
    assert (SS : is_sum_safe (base + off) (block_size t) = true) by (apply is_sum_safe_spec; lia). rewrite SS. cbn [negb throw_if bind].
    rewrite I1. cbn [bind]. rewrite !u32_small by lia. replace (rs <=? rd + block_size t) with false by lia.
    change (holds v (off + block_size t) (concat (map block_bytes (u :: l)))) in H2.
    assert (K3 : holds v (off + block_size t) (block_bytes u)) by (cbn [map concat] in H2; apply holds_app in H2; tauto).
    replace (base + off + block_size t) with (base + (off + block_size t)) by lia.
    pose proof V2 as V3. apply Forall_cons_iff in V3 as [V3 _].
    destruct (items_read_table p base v (off + block_size t) abs u B K3 V3) as [_ I2]. rewrite I2. cbn [bind].
    subst n. rewrite IH; [|exact H2|exact V2|lia|cbn [blocks_size fold_right]; fold (blocks_size l); lia|lia].
    rewrite <- app_assoc. reflexivity.
Qed.
Lemma set_opened s d0 d : set_s_data d (opened s d0) = opened s d.
Proof. reflexivity. Qed.
Lemma power4 : power_of_two 4.
Proof. exists 2. split; [lia|reflexivity]. Qed.
Definition flags_set (p : pe) : pe :=
  with_nt (fun h => set_h_dllchars (Z.lor (h_dllchars h) image_dllcharacteristics_dynamic_base) h)
          (clear_characteristics_flags image_file_relocs_stripped p).
Lemma flags_frame q : same_but_relocs q (flags_set q) /\ h_dirs (p_nt (flags_set q)) = h_dirs (p_nt q).
Proof. split; reflexivity. Qed.
Lemma store_dir_relocs q id d : same_but_relocs q (store_dir q id d).
Proof. reflexivity. Qed.
Lemma put_relocs q i s : same_but_relocs q (put_section q i s).
Proof. reflexivity. Qed.
Lemma same_relocs_trans p q r : same_but_relocs p q -> same_but_relocs q r -> same_but_relocs p r.
Proof. unfold same_but_relocs. cbv zeta. intros A B. rewrite B. exact A. Qed.
Lemma cleared_flag c : 0 <= c < 2^16 -> Z.land (Z.land c (u16 (Z.lnot image_file_relocs_stripped))) image_file_relocs_stripped = 0.
Proof. intros H. rewrite <- Z.land_assoc. replace (Z.land (u16 (Z.lnot image_file_relocs_stripped)) image_file_relocs_stripped) with 0 by reflexivity. apply Z.land_0_r. Qed.
(** What is read from a region that shows the blocks. *)
Lemma relocations_from r va v pos tables : tables <> [] -> Forall valid_table tables -> block r va v -> holds v pos (concat (map block_bytes tables)) -> blocks_size tables <= 2^31 ->
  has_reloc r = Ok true -> get_directory_rva r dir_basereloc = Ok (va + pos) -> get_directory_size r dir_basereloc = Ok (blocks_size tables) ->
  get_relocations r true = Ok (map with_padding tables) /\ get_relocations r false = Ok (map without_absolute tables).
Proof.
  intros Hn V Bk' Hh Hz Hr2 X2 X3. set (out := concat (map block_bytes tables)) in *. assert (Lo : zlen out = blocks_size tables) by apply zlen_blocks.
  assert (Bz : 8 <= blocks_size tables).
  { destruct tables as [|t l]; [congruence|]. cbn [blocks_size fold_right]. fold (blocks_size l). pose proof (block_size_pos t). pose proof (blocks_size_pos l). lia. }
  assert (G : forall abs, get_relocations r abs = Ok (map (fun t => (fst t, shown abs (padded_items t))) tables)).
  { intros abs. unfold get_relocations. rewrite Hr2. cbn [bind]. rewrite X2, X3. cbn [bind].
    pose proof (holds_range _ _ _ Hh) as [Hp2 Hv2]. pose proof Bk' as (_ & _ & Hb & _). pose proof (block_base _ _ _ Bk').
    rewrite (block_length r va v pos pos Bk') by lia. cbn [bind]. replace (zlen v - pos <? 8) with false by lia. cbn [throw_if bind].
    destruct tables as [|t0 l]; [congruence|].
    assert (Ht0 : holds v pos (block_bytes t0)) by (unfold out in Hh; cbn [map concat] in Hh; apply holds_app in Hh; tauto).
    pose proof V as V'. apply Forall_cons_iff in V' as [Vt0 _].
    destruct (items_read_table r va v pos abs t0 Bk' Ht0 Vt0) as [_ Rh]. rewrite Rh. cbn [bind].
    pose proof (block_size_pos t0). replace (block_size t0 mod 2 =? 0) with true by lia. cbn [negb throw_if bind].
    unfold reloc_blocks. eapply mloop_exec; [apply (blocks_read r va v (blocks_size (t0 :: l)) abs Bk' l t0 pos 0 [] Hh V); lia|].
    assert (Z.of_nat (S (length l)) <= blocks_size (t0 :: l)).
    { clear. revert t0. induction l as [|u l IH]; intros t0; cbn [blocks_size fold_right length] in *; pose proof (block_size_pos t0); [lia|]. specialize (IH u). lia. }
    unfold big_fuel. lia. }
  split.
  - rewrite G. reflexivity.
  - rewrite G. f_equal. apply map_ext. intros t1. unfold without_absolute, shown, padded_items. f_equal. rewrite filter_app. unfold padding.
    destruct (_ =? 0); cbn [filter]; apply app_nil_r.
Qed.
Lemma rebuild_relocations_strong p start i tables off save strip :
  let pos := ceil_mult off 4 in
  0 <= off -> tables <> [] -> Forall valid_table tables -> room p start i (2 * pos - off + blocks_size tables) ->
  dirs_ok p -> dir_basereloc < nrva p <= 16 ->
  exists p' s, nth_error (p_sections p) i = Some s /\
    rebuild_relocations p tables i off save strip = Ok (p', (s_va s + pos, blocks_size tables)) /\
    only_section p p' i pos (concat (map block_bytes tables)) /\ same_but_relocs p p' /\ image_ok p' start /\
    (if save then only_directory p p' dir_basereloc (s_va s + pos, blocks_size tables) else h_dirs (p_nt p') = h_dirs (p_nt p)) /\
    (exists v, block p' (s_va s) v /\ holds v pos (concat (map block_bytes tables))) /\
    (save = true -> is_u16 (chars p) -> check_characteristics_flag image_file_relocs_stripped p' = false).
Proof.
  intros pos Ho Hn V R D N. pose proof R as (IO & T & s & Hs & Hz & Hf & Hv & Hr & _).
  pose proof IO as ((Ps & Pf & L) & W & _). pose proof (nth_Forall _ _ _ _ W Hs) as Ws.
  pose proof (ceil_mult_least off 4 ltac:(lia)) as (Q1 & Q2 & Q3 & _). fold pos in Q1, Q2, Q3.
  assert (P4 : pos mod 4 = 0) by (apply divide_mod; [lia|exact Q1]).
  assert (Bz : 8 <= blocks_size tables).
  { destruct tables as [|t l]; [congruence|]. cbn [blocks_size fold_right]. fold (blocks_size l). pose proof (block_size_pos t). pose proof (blocks_size_pos l). lia. }
  pose proof (blocks_size_pos tables) as [_ Bz4]. change dir_basereloc with 5 in N.
  assert (Al : align_up off 4 = pos) by (apply align_up_small; [exact power4|lia|unfold is_u32; lia|fold pos; lia]).
  unfold rebuild_relocations. rewrite Al. rewrite (u32_small (pos - off)) by lia.
  assert (Ne : reloc_needed pos (pos - off) tables = pos - off + blocks_size tables).
  { unfold reloc_needed. apply reloc_needed_ok; lia. }
  rewrite Ne. rewrite (u32_small (pos - off + blocks_size tables + pos)) by lia. rewrite (u32_small (pos - off + blocks_size tables - (pos - off))) by lia.
  replace (pos - off + blocks_size tables - (pos - off)) with (blocks_size tables) by lia.
  replace (pos - off + blocks_size tables + pos) with (2 * pos - off + blocks_size tables) by lia. set (total := 2 * pos - off + blocks_size tables) in *. assert (Etot : total = 2 * pos - off + blocks_size tables) by reflexivity. clearbody total.
  pose proof (pow2_ceil31 total _ Pf ltac:(lia) ltac:(lia)) as T31.
  assert (Al2 : align_up total (falign p) = ceil_mult total (falign p)) by (apply align_up_small; [exact Pf|lia|unfold is_u32; lia|lia]). rewrite Al2.
  pose proof (ceil_mult_least total (falign p) (pow2_pos _ Pf)) as (C1 & C2 & _).
  destruct (open_room_ok p start i total (ceil_mult total (falign p)) R ltac:(lia)) as (s' & d0 & Hs' & Eo & Pd & L1 & L2 & L3).
  rewrite Hs in Hs'. inversion Hs'; subst s'; clear Hs'. rewrite Eo. cbn [bind].
  assert (Ld : zlen d0 <= 2^31) by (destruct L2; lia).
  set (out := concat (map block_bytes tables)).
  assert (Lo : zlen out = blocks_size tables) by apply zlen_blocks.
  assert (Wt : mfold write_table tables (s_data (opened s d0), pos) = Ok (splice d0 pos out, pos + zlen out)).
  { change (s_data (opened s d0)) with d0.
    pose proof (write_tables_ok tables d0 pos [] V ltac:(lia) P4 eq_refl ltac:(change (@zlen Z []) with 0; lia) ltac:(lia)) as E.
    cbn [app] in E. rewrite splice_nil in E by lia. change (@zlen Z []) with 0 in E. rewrite Z.add_0_r in E. exact E. }
  rewrite Wt. cbn [bind]. rewrite set_opened.
  assert (Bd : bytes (splice d0 pos out)).
  { apply bytes_splice; [apply (padded_bytes _ _ Pd), bytes_raw_view, Ws|apply bytes_blocks]. }
  assert (Ls : zlen (splice d0 pos out) = zlen d0) by (apply zlen_splice; lia).
  destruct (store_ok p start i total (ceil_mult total (falign p)) s d0 (splice d0 pos out) strip R ltac:(lia) Hs Eo Ls ltac:(lia) Bd) as (t & Er & St & Wt2 & IO' & Lt & Vt & Spt & Lrt & _ & Wz).
  rewrite Er. cbn [bind]. set (p2 := put_section p i t) in *.
  assert (Rv : rva_from_section_offset (opened s d0) pos = s_va s + pos).
  { unfold rva_from_section_offset. destruct (opened_fields s d0) as (_ & _ & -> & _). apply u32_small.
    destruct IO' as (_ & W' & _ & _ & Ch' & Ce'). pose proof (chain_upper _ _ _ (pow2_pos _ Ps) W' Ch') as Up.
    pose proof (nth_Forall _ _ _ _ Up (put_get p i t (nth_lt _ _ _ Hs))) as Ut. cbn beta in Ut. change (salign (put_section p i t)) with (salign p) in *.
    change (salign p2) with (salign p) in *. fold p2 in Ut.
    unfold send in Ut. destruct St as (_ & S2 & _). rewrite S2 in Ut. lia. }
  rewrite Rv. assert (Os : only_section p p2 i pos out) by (apply (stored_only p i s t d0 pos out Hs Pd); [lia|lia|exact St|exact Wz|exact Spt]).
  pose proof (store_block p start i t s (splice d0 pos out) IO' Hs Wt2 St Lt Bd Hf) as Bk. fold p2 in Bk.
  set (v := splice d0 pos out ++ zeros (span (salign p) t - zlen (splice d0 pos out))) in *.
  assert (Hh : holds v pos out) by (apply holds_ext, holds_splice; lia).
  destruct save; cbn [bind].
  - rewrite set_directory_ok; [|exact D|change dir_basereloc with 5; change (nrva p2) with (nrva p); lia|change (nrva p2) with (nrva p); lia]. cbn [bind].
    exists (flags_set (store_dir p2 dir_basereloc (s_va s + pos, blocks_size tables))), s.
    split; [exact Hs|]. split; [reflexivity|]. split; [exact Os|].
    split; [apply (same_relocs_trans _ p2); [apply put_relocs|]; apply (same_relocs_trans _ _ _ (store_dir_relocs p2 dir_basereloc (s_va s + pos, blocks_size tables))); apply flags_frame|].
    split; [exact IO'|]. 
    assert (Od : only_directory p (flags_set (store_dir p2 dir_basereloc (s_va s + pos, blocks_size tables))) dir_basereloc (s_va s + pos, blocks_size tables)).
    { pose proof (store_dir_only p p2 dir_basereloc (s_va s + pos, blocks_size tables) D ltac:(change dir_basereloc with 5; lia) eq_refl) as [A B].
      split; [exact A|exact B]. }
    split; [exact Od|]. split; [exists v; split; [apply (block_ext p2); [reflexivity|reflexivity|reflexivity|reflexivity|exact Bk]|exact Hh]|].
    intros _ Uc. unfold check_characteristics_flag. set (p' := flags_set (store_dir p2 dir_basereloc (s_va s + pos, blocks_size tables))) in *.
    replace (Z.land (chars p') image_file_relocs_stripped) with 0; [reflexivity|]. symmetry. apply (cleared_flag (chars p)). exact Uc.
  - exists p2, s. split; [exact Hs|]. split; [reflexivity|]. split; [exact Os|]. split; [apply put_relocs|]. split; [exact IO'|]. split; [reflexivity|]. split; [exists v; split; assumption|]. discriminate.
Qed.
Lemma rebuild_relocations_ok p start i tables off save strip :
  let pos := ceil_mult off 4 in
  0 <= off -> tables <> [] -> Forall valid_table tables -> room p start i (2 * pos - off + blocks_size tables) ->
  dirs_ok p -> dir_basereloc < nrva p <= 16 ->
  exists p' s, nth_error (p_sections p) i = Some s /\
    rebuild_relocations p tables i off save strip = Ok (p', (s_va s + pos, blocks_size tables)) /\
    only_section p p' i pos (concat (map block_bytes tables)) /\ same_but_relocs p p' /\ image_ok p' start /\
    (if save then only_directory p p' dir_basereloc (s_va s + pos, blocks_size tables) else h_dirs (p_nt p') = h_dirs (p_nt p)) /\
    (save = true -> is_u16 (chars p) ->
       get_relocations p' true = Ok (map with_padding tables) /\ get_relocations p' false = Ok (map without_absolute tables)).
Proof.
  intros pos Ho Hn V R D N. destruct (rebuild_relocations_strong p start i tables off save strip Ho Hn V R D N) as (p' & s & Hs & E1 & E2 & E3 & E4 & E5 & (v & Bv & Hv) & E6).
  exists p', s. do 6 (split; [assumption|]). intros -> Uc. specialize (E6 eq_refl Uc). pose proof R as (_ & T & s' & Hs' & Hz & _). rewrite Hs in Hs'. injection Hs' as <-.
  pose proof (ceil_mult_least off 4 ltac:(lia)) as (_ & Q2 & _). pose proof (blocks_size_pos tables) as [Zb _]. fold pos in Q2, T. destruct E5 as [Od _].
  assert (Nr : nrva p' = nrva p) by exact (f_equal (fun q => h_nrva (p_nt q)) E3).
  assert (Dn : nth_ub (h_dirs (p_nt p')) dir_basereloc = Ok (s_va s + pos, blocks_size tables)) by (destruct Od as [_ A]; apply nth_ub_ok; [exact A|unfold dir_basereloc; lia]).
  change dir_basereloc with 5 in *.
  apply (relocations_from p' (s_va s) v pos tables Hn V Bv Hv ltac:(lia)); unfold has_reloc, directory_exists, get_directory_rva, get_directory_size; change dir_basereloc with 5; rewrite Dn, Nr.
  - rewrite u32_small by lia. replace (5 <=? nrva p - 1) with true by lia. cbn [bind fst]. rewrite E6. replace (s_va s + pos =? 0) with false by lia. reflexivity.
  - replace (nrva p <=? 5) with false by lia. reflexivity.
  - replace (nrva p <=? 5) with false by lia. reflexivity.
Qed.

(** ** Refusals *)
Lemma relocations_detached p tables i off save strip : nth_error (p_sections p) i = None ->
  rebuild_relocations p tables i off save strip = Throw section_is_not_attached.
Proof. intros H. unfold rebuild_relocations. cbv zeta. rewrite open_room_detached by exact H. reflexivity. Qed.
Lemma relocations_full p tables i off save strip :
  let pos := ceil_mult off 4 in let endpos := 2 * pos - off + blocks_size tables in
  0 <= off -> endpos < 2^32 -> no_room p i endpos -> rebuild_relocations p tables i off save strip = Throw insufficient_space.
Proof.
  intros pos endpos Ho He R. unfold rebuild_relocations.
  pose proof (ceil_mult_least off 4 ltac:(lia)) as (Q1 & Q2 & Q3 & _). fold pos in Q1, Q2, Q3.
  assert (P4 : pos mod 4 = 0) by (apply divide_mod; [lia|exact Q1]). pose proof (blocks_size_pos tables) as [Bz Bz4].
  assert (Al : align_up off 4 = pos) by (apply align_up_small; [exact power4|lia|unfold is_u32; lia|fold pos; unfold endpos in He; lia]).
  unfold endpos in *. clear endpos. cbv zeta. rewrite Al. rewrite (u32_small (pos - off)) by lia.
  assert (Ne : reloc_needed pos (pos - off) tables = pos - off + blocks_size tables).
  { unfold reloc_needed. apply reloc_needed_ok; lia. }
  rewrite Ne. rewrite (u32_small (pos - off + blocks_size tables + pos)) by lia.
  rewrite open_room_full; [reflexivity|]. replace (pos - off + blocks_size tables + pos) with (2 * pos - off + blocks_size tables) by lia. exact R.
Qed.
