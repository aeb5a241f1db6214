(** Lemmas on the exception directory and rich data readers. *)
From Verif Require Export SpecReaders DirFacts.

(** ** Exception directory *)
Lemma in_section_no_wrap sa rva s : is_u32 rva -> wf_section s -> in_section sa rva s = true -> s_va s <= rva < s_va s + aligned_vsize sa s /\ s_va s + aligned_vsize sa s < 2^32.
Proof.
  intros Hr W H. unfold in_section in H. apply andb_prop in H as [A B]. unfold u32, is_u32 in *.
  assert (0 <= aligned_vsize sa s < 2^32).
  { unfold aligned_vsize. assert (forall x, 0 <= x < 2^32 -> 0 <= align_up x sa < 2^32) as Q.
    { intros x Hx. unfold align_up, align_up_w. destruct (_ =? 0); [lia|]. apply Z.mod_pos_bound. lia. }
    unfold wf_section, is_u32 in W. destruct (negb _ && _); apply Q; tauto. }
  assert (0 <= s_va s < 2^32) by (unfold wf_section, is_u32 in W; tauto). lia.
Qed.
Lemma read_rva_end p rva n hdrs bs : readable p -> addressable p -> is_u32 rva -> 0 <= n -> read_rva p rva n VirtData hdrs = Ok bs -> rva + n < 2^32.
Proof.
  intros (_ & _ & W & _ & Fl) A Hr Hn H. unfold read_rva in H. destruct (hdrs && is_sum_safe rva n && (rva + n <? zlen (p_full p))) eqn:C; [lia|].
  bnd H i E1. bnd H s E2. thr H E3. apply rd_inv in H as (B & _ & D & _). apply get_section_inv in E2.
  pose proof (nth_Forall _ _ _ _ A E2) as As. cbn beta in As. cbn [view] in *. lia.
Qed.
Lemma read_fields e : bytes e -> zlen e = 12 ->
  is_u32 (unle (slice e 0 4)) /\ is_u32 (unle (slice e 4 4)) /\ is_u32 (unle (slice e 8 4)).
Proof.
  intros B L. unfold is_u32. repeat split; match goal with |- context [slice e ?o 4] => pose proof (unle_bound (slice e o 4) (bytes_slice _ _ _ B)) as Q; rewrite zlen_slice in Q by lia; change (256 ^ 4) with (2^32) in Q end; lia.
Qed.
Lemma split12 e : zlen e = 12 -> bytes e -> e = le 4 (unle (slice e 0 4)) ++ le 4 (unle (slice e 4 4)) ++ le 4 (unle (slice e 8 4)).
Proof.
  intros L B. assert (N : forall o, 0 <= o <= 8 -> length (slice e o 4) = 4%nat) by (intros o Ho; apply Nat2Z.inj; change (Z.of_nat (length (slice e o 4))) with (zlen (slice e o 4)); rewrite zlen_slice; lia).
  rewrite !le_unle_n by (first [apply bytes_slice, B|apply N; lia]).
  rewrite <- (slice_all e 12) at 1 by lia. change 12 with (4 + (4 + 4)) at 1. rewrite !slice_split by lia. reflexivity.
Qed.
Lemma shows_12 p pos e b e1 u : shows p pos (le 4 b ++ le 4 e1 ++ le 4 u) -> read_rva p pos 12 VirtData true = Ok e -> is_u32 b -> is_u32 e1 -> is_u32 u ->
  unle (slice e 0 4) = b /\ unle (slice e 4 4) = e1 /\ unle (slice e 8 4) = u.
Proof.
  unfold shows. rewrite !zlen_app, !zlen_le. change (Z.of_nat 4 + (Z.of_nat 4 + Z.of_nat 4)) with 12. intros S E Hb He Hu. assert (e = le 4 b ++ le 4 e1 ++ le 4 u) as -> by congruence.
  assert (Z4 : forall v, zlen (le 4 v) = 4) by (intros v; rewrite zlen_le; reflexivity).
  rewrite (slice_app_l _ _ 0 4) by (rewrite ?Z4; lia). rewrite (slice_app_r _ _ 4 4) by (rewrite Z4; lia). rewrite (slice_app_r _ _ 8 4) by (rewrite Z4; lia).
  rewrite Z4. rewrite (slice_app_l _ _ (4 - 4) 4) by (rewrite ?Z4; lia). rewrite (slice_app_r _ _ (8 - 4) 4) by (rewrite Z4; lia). rewrite Z4.
  change (4 - 4) with 0. change (8 - 4 - 4) with 0. rewrite !slice_all by (rewrite Z4; lia). rewrite !unle_le_small by assumption. tauto.
Qed.
Section Exc.
Variable p : pe.
Hypothesis R : readable p.
Hypothesis A : addressable p.
Let body := (fun st : Z * list Z * list exception_entry =>
    let '(pos, e, acc) := st in
    let begin := unle (slice e 0 4) in
    if begin =? 0 then Ok (inr acc)
    else
      throw_if (unle (slice e 4 4) <? begin) incorrect_exception_directory ;;;
      u <- read_rva p (unle (slice e 8 4)) 6 VirtData true ;;
      let pos' := u32 (pos + 12) in
      e' <- read_rva p pos' 12 VirtData true ;;
      Ok (@inl _ (list exception_entry) (pos', e', acc ++ [exc_entry e u]))).
Lemma exc_loop_safe start : is_u32 start -> safe (exception_loop p start).
Proof.
  intros Hs. pose proof R as (_ & _ & W & _). unfold exception_loop. apply safe_bind; [apply read_rva_safe; [exact W|exact Hs|lia]|].
  intros e0 E0. fold body.
  apply (mloop_safe body big_fuel (fun st => let '(pos, e, _) := st in is_u32 pos /\ read_rva p pos 12 VirtData true = Ok e) (fun st => let '(pos, e, _) := st in 2^32 - pos)).
  - intros [[pos e] acc] [Hp E]. unfold is_u32 in Hp. split; [lia|]. unfold body. cbv zeta.
    pose proof (read_rva_bytes _ _ _ _ _ _ R E) as B. pose proof (read_rva_len _ _ _ _ _ _ E) as L. pose proof (read_fields e B L) as (F1 & F2 & F3).
    pose proof (read_rva_end p pos 12 true e R A Hp ltac:(lia) E) as End.
    case_if C; [exact I|]. case_throw D; [exact I|]. cbn [bind].
    destruct (read_rva p (unle (slice e 8 4)) 6 VirtData true) as [u|x| |] eqn:Eu; cbn [bind]; try exact I; try (pose proof (read_rva_safe p (unle (slice e 8 4)) 6 VirtData true W F3 ltac:(lia)) as S; rewrite Eu in S; exact S).
    rewrite (u32_small (pos + 12)) by lia.
    destruct (read_rva p (pos + 12) 12 VirtData true) as [e'|x| |] eqn:Ee; cbn [bind]; try exact I; try (pose proof (read_rva_safe p (pos + 12) 12 VirtData true W ltac:(unfold is_u32; lia) ltac:(lia)) as S; rewrite Ee in S; exact S).
    split; [split; [unfold is_u32; lia|exact Ee]|lia].
  - split; assumption.
  - unfold is_u32 in Hs. unfold big_fuel. lia.
Qed.
Lemma exc_unwind u : bytes u -> zlen u = 6 -> exists version flags prolog codes freg foff rest, 0 <= version < 8 /\ 0 <= flags < 32 /\ is_u8 prolog /\ is_u8 codes /\
    0 <= freg < 16 /\ 0 <= foff < 16 /\ zlen rest = 2 /\ u = [version + 8 * flags; prolog; codes; freg + 16 * foff] ++ rest.
Proof.
  intros B L. unfold zlen in L. destruct u as [|b0 [|b1 [|b2 [|b3 [|b4 [|b5 [|]]]]]]]; try (cbn in L; lia).
  unfold bytes in B. rewrite !Forall_cons_iff in B. destruct B as (B0 & B1 & B2 & B3 & _).
  exists (b0 mod 8), (b0 / 8), b1, b2, (b3 mod 16), (b3 / 16), [b4; b5]. unfold is_u8. repeat split; try lia. cbn [app]. repeat f_equal; lia.
Qed.
Lemma land_mod x k : 0 <= x -> 0 <= k -> Z.land x (2^k - 1) = x mod 2^k.
Proof. intros. replace (2^k - 1) with (Z.ones k) by (rewrite Z.ones_equiv; lia). apply Z.land_ones; lia. Qed.
Lemma exc_entry_fields e version flags prolog codes freg foff rest : 0 <= version < 8 -> 0 <= flags < 32 -> is_u8 prolog -> is_u8 codes ->
    0 <= freg < 16 -> 0 <= foff < 16 ->
  exc_entry e ([version + 8 * flags; prolog; codes; freg + 16 * foff] ++ rest) =
  mk_exc (unle (slice e 0 4)) (unle (slice e 4 4)) (unle (slice e 8 4)) version flags prolog codes freg foff.
Proof.
  intros. unfold exc_entry. set (u := _ ++ rest).
  change (slice u 0 1) with [version + 8 * flags]. change (slice u 1 1) with [prolog]. change (slice u 2 1) with [codes]. change (slice u 3 1) with [freg + 16 * foff].
  cbn [unle]. change 7 with (2^3 - 1). change 15 with (2^4 - 1).
  rewrite !Z.mul_0_r, !Z.add_0_r. rewrite (land_mod _ 3), (land_mod _ 4) by lia. rewrite !Z.shiftr_div_pow2 by lia. f_equal; lia.
Qed.
Lemma exc_loop_table : forall n pos e acc r, is_u32 pos -> read_rva p pos 12 VirtData true = Ok e -> nloop n body (pos, e, acc) = Ok (inr r) ->
  exists l, r = acc ++ l /\ function_table p pos l.
Proof.
  pose proof R as (_ & _ & W & _).
  induction n as [|n IH]; intros pos e acc r Hp E H; [discriminate|]. cbn [nloop] in H. unfold body at 1 in H. cbv zeta in H.
  pose proof (read_rva_bytes _ _ _ _ _ _ R E) as B. pose proof (read_rva_len _ _ _ _ _ _ E) as L. pose proof (read_fields e B L) as (F1 & F2 & F3).
  pose proof (read_rva_end p pos 12 true e R A Hp ltac:(lia) E) as End. pose proof (split12 e L B) as Se. unfold is_u32 in Hp.
  assert (Sh : shows p pos (le 4 (unle (slice e 0 4)) ++ le 4 (unle (slice e 4 4)) ++ le 4 (unle (slice e 8 4)))) by (unfold shows; rewrite <- Se, L; exact E).
  destruct (unle (slice e 0 4) =? 0) eqn:C.
  - injection H as <-. exists []. split; [rewrite app_nil_r; reflexivity|]. apply (table_end p pos _ _ F2 F3). replace 0 with (unle (slice e 0 4)) by lia. exact Sh.
  - destruct (throw_if _ _) as [[]| | |] eqn:T; cbn [bind] in H; try discriminate. unfold throw_if in T. destruct (unle (slice e 4 4) <? unle (slice e 0 4)) eqn:D; try discriminate.
    destruct (read_rva p (unle (slice e 8 4)) 6 VirtData true) as [u| | |] eqn:Eu; cbn [bind] in H; try discriminate.
    rewrite (u32_small (pos + 12)) in H by lia.
    destruct (read_rva p (pos + 12) 12 VirtData true) as [e'| | |] eqn:Ee; cbn [bind] in H; try discriminate.
    destruct (IH (pos + 12) e' _ r ltac:(unfold is_u32; lia) Ee H) as (l & -> & Tl).
    pose proof (read_rva_bytes _ _ _ _ _ _ R Eu) as Bu. pose proof (read_rva_len _ _ _ _ _ _ Eu) as Lu.
    destruct (exc_unwind u Bu Lu) as (version & flags & prolog & codes & freg & foff & rest & V1 & V2 & V3 & V4 & V5 & V6 & V7 & Hu).
    eexists. split; [rewrite <- app_assoc; reflexivity|]. rewrite Hu. rewrite exc_entry_fields by assumption. cbn [app].
    apply (table_entry p pos _ _ _ _ _ _ _ _ _ rest); try assumption; try lia. change (_ :: _ :: _ :: _ :: rest) with ([version + 8 * flags; prolog; codes; freg + 16 * foff] ++ rest). rewrite <- Hu. unfold shows. rewrite Lu. exact Eu.
Qed.
Lemma table_exc_loop pos l : function_table p pos l -> is_u32 pos -> forall acc, exists e n, read_rva p pos 12 VirtData true = Ok e /\
  12 * Z.of_nat n <= 2^32 - pos + 12 /\ nloop n body (pos, e, acc) = Ok (inr (acc ++ l)).
Proof.
  pose proof R as (_ & _ & W & _).
  induction 1 as [pos e u Ue Uu Sh|pos b e u version flags prolog codes freg foff rest l Ub Nb Le Ue Uu V1 V2 V3 V4 V5 V6 V7 Sh Su T IH]; intros Hp acc;
  pose proof Sh as Rd; unfold shows in Rd; rewrite !zlen_app, !zlen_le in Rd; change (Z.of_nat 4 + (Z.of_nat 4 + Z.of_nat 4)) with 12 in Rd.
  - eexists. exists 1%nat. split; [exact Rd|]. unfold is_u32 in Hp. split; [lia|]. cbn [nloop].
    destruct (shows_12 _ _ _ _ _ _ Sh Rd ltac:(unfold is_u32; lia) Ue Uu) as (Q1 & Q2 & Q3). unfold body. cbv zeta. rewrite Q1. cbn [Z.eqb]. rewrite app_nil_r. reflexivity.
  - pose proof (read_rva_end p pos 12 true _ R A Hp ltac:(lia) Rd) as End. unfold is_u32 in Hp.
    destruct (IH ltac:(unfold is_u32; lia) (acc ++ [mk_exc b e u version flags prolog codes freg foff])) as (e' & n & Re & Hn & Hl).
    eexists. exists (S n). split; [exact Rd|]. split; [lia|]. cbn [nloop]. unfold body at 1. cbv zeta.
    destruct (shows_12 _ _ _ _ _ _ Sh Rd Ub Ue Uu) as (Q1 & Q2 & Q3). rewrite Q1, Q2, Q3.
    replace (b =? 0) with false by lia. replace (e <? b) with false by lia. cbn [throw_if bind].
    unfold shows in Su. rewrite zlen_app, V7 in Su. change (zlen [version + 8 * flags; prolog; codes; freg + 16 * foff] + 2) with 6 in Su. rewrite Su. cbn [bind].
    rewrite (u32_small (pos + 12)) by lia. rewrite Re. cbn [bind]. rewrite exc_entry_fields by assumption. rewrite Q1, Q2, Q3. rewrite Hl, <- app_assoc. reflexivity.
Qed.
Lemma exception_loop_table start l : is_u32 start -> (exception_loop p start = Ok l <-> function_table p start l).
Proof.
  intros Hs. unfold exception_loop. fold body. split.
  - intros H. bnd H e0 E0. rewrite mloop_nloop in H.
    destruct (nloop (Pos.to_nat big_fuel) body (start, e0, [])) as [[st|r]| | |] eqn:N; try discriminate. injection H as <-.
    destruct (exc_loop_table _ _ _ _ _ Hs E0 N) as (l & -> & T). exact T.
  - intros T. destruct (table_exc_loop start l T Hs []) as (e & n & Re & Hn & Hl). rewrite Re. cbn [bind]. apply (mloop_exec _ _ n); [exact Hl|]. unfold is_u32 in Hs. unfold big_fuel. lia.
Qed.
Lemma exception_data_safe : safe (get_exception_directory_data p).
Proof.
  pose proof R as (_ & _ & W & _). unfold get_exception_directory_data. destruct (directory_exists_safe p dir_exception R ltac:(unfold dir_exception; lia)) as [b ->]. cbn [bind].
  destruct b; [|exact I]. destruct (dir_get p dir_exception R ltac:(unfold dir_exception; lia)) as (rva & size & Hr & _ & _ & -> & _).
  case_if C; [exact I|]. cbn [bind]. apply safe_bind; [apply length_rva_safe, W|]. intros n _. case_throw D1; [exact I|]. cbn [bind]. case_throw D2; [exact I|]. cbn [bind].
  apply exc_loop_safe, Hr.
Qed.
Lemma exception_data_table rva size n l : dir_is p dir_exception (rva, size) -> dir_exception < nrva p -> rva <> 0 -> rva mod 4 = 0 ->
  length_rva p rva rva VirtData true = Ok n -> 12 <= n ->
  (get_exception_directory_data p = Ok l <-> function_table p rva l).
Proof.
  intros D N Hr H4 HL Hn. unfold get_exception_directory_data.
  destruct (dir_get p dir_exception R ltac:(unfold dir_exception; lia)) as (rva' & size' & Ur & _ & D' & Er & _ & Ex).
  assert (rva' = rva) by (unfold dir_is in *; destruct D as [_ D], D' as [_ D']; congruence). subst rva'.
  rewrite (Ex N), Er. replace (nrva p <=? dir_exception) with false by lia. cbn [bind]. replace (rva =? 0) with false by lia. cbn [negb].
  rewrite HL. cbn [bind]. replace (n <? 12) with false by lia. rewrite H4. cbn [throw_if bind Z.eqb negb]. apply exception_loop_table, Ur.
Qed.
End Exc.

(** ** Rich data *)
Lemma lxor_u32 a b : is_u32 a -> is_u32 b -> is_u32 (Z.lxor a b).
Proof.
  unfold is_u32. intros Ha Hb. assert (N : 0 <= Z.lxor a b) by (apply Z.lxor_nonneg; lia). split; [exact N|].
  destruct (Z.eq_dec (Z.lxor a b) 0) as [->|Nz]; [lia|].
  apply Z.log2_lt_pow2; [lia|]. pose proof (Z.log2_lxor a b ltac:(lia) ltac:(lia)) as Q.
  assert (Z.log2 a < 32) by (destruct (Z.eq_dec a 0) as [->|]; [cbn; lia|apply Z.log2_lt_pow2; lia]).
  assert (Z.log2 b < 32) by (destruct (Z.eq_dec b 0) as [->|]; [cbn; lia|apply Z.log2_lt_pow2; lia]). lia.
Qed.
Lemma lxor_back a k : Z.lxor (Z.lxor a k) k = a.
Proof. rewrite Z.lxor_assoc, Z.lxor_nilpotent, Z.lxor_0_r. reflexivity. Qed.
Lemma rd_le_ok d off n : 0 <= off -> off + Z.of_nat n <= zlen d -> rd_le d off n = Ok (unle (slice d off (Z.of_nat n))).
Proof. intros H1 H2. unfold rd_le. rewrite rd_ok by lia. reflexivity. Qed.
Lemma dword_eq d off v : bytes d -> 0 <= off -> off + 4 <= zlen d -> is_u32 v -> (unle (slice d off 4) = v <-> slice d off 4 = le 4 v).
Proof.
  intros B H1 H2 V. split.
  - intros <-. symmetry. apply le_unle_n; [apply bytes_slice, B|]. apply Nat2Z.inj. change (Z.of_nat (length (slice d off 4))) with (zlen (slice d off 4)). rewrite zlen_slice by lia. reflexivity.
  - intros ->. apply unle_le_small. exact V.
Qed.
Lemma find_dword_from d v pos : bytes d -> is_u32 v -> first_dword d v pos -> pos + 4 <= zlen d -> forall n k, Z.of_nat n = pos - k -> 0 <= k <= pos ->
  find_dword v (zdrop k d) k = Ok (Some pos).
Proof.
  intros B V (F1 & F2) L. induction n as [|n IH]; intros k Hn Hk.
  - assert (k = pos) by lia. subst k. destruct (zdrop pos d) as [|x t] eqn:Q.
    + apply (f_equal zlen) in Q. rewrite zlen_zdrop in Q by lia. change (@zlen Z []) with 0 in Q. lia.
    + cbn [find_dword]. rewrite <- Q. rewrite rd_le_ok by (rewrite ?zlen_zdrop by lia; lia). cbn [bind].
      change (Z.of_nat 4) with 4. assert (slice (zdrop pos d) 0 4 = slice d pos 4) as -> by (rewrite !slice_take_drop, zdrop_0; reflexivity).
      rewrite F1, unle_le_small by exact V. rewrite Z.eqb_refl. reflexivity.
  - destruct (zdrop k d) as [|x t] eqn:Q.
    + apply (f_equal zlen) in Q. rewrite zlen_zdrop in Q by lia. change (@zlen Z []) with 0 in Q. lia.
    + cbn [find_dword]. rewrite <- Q. rewrite rd_le_ok by (rewrite ?zlen_zdrop by lia; lia). cbn [bind].
      change (Z.of_nat 4) with 4. assert (slice (zdrop k d) 0 4 = slice d k 4) as -> by (rewrite !slice_take_drop, zdrop_0; reflexivity).
      destruct (Z.eqb_spec (unle (slice d k 4)) v) as [Ev|Nv].
      * exfalso. apply (F2 k); [lia|]. apply dword_eq; try assumption; lia.
      * replace t with (zdrop (k + 1) d); [apply IH; lia|]. replace (k + 1) with (1 + k) by lia. rewrite <- zdrop_zdrop by lia. rewrite Q. reflexivity.
Qed.
Lemma find_dword_ok d v pos : bytes d -> is_u32 v -> first_dword d v pos -> 0 <= pos -> pos + 4 <= zlen d -> find_dword v d 0 = Ok (Some pos).
Proof.
  intros B V F H L. pose proof (find_dword_from d v pos B V F L (Z.to_nat pos) 0 ltac:(lia) ltac:(lia)) as Q. rewrite zdrop_0 in Q by lia. exact Q.
Qed.
Lemma zlen_record key r : zlen (record_bytes key r) = 8.
Proof. unfold record_bytes. rewrite zlen_app, !zlen_le. reflexivity. Qed.
Lemma zlen_records key l : zlen (concat (map (record_bytes key) l)) = 8 * zlen l.
Proof. induction l as [|r l IH]; [reflexivity|]. cbn [map concat]. rewrite zlen_app, zlen_record, zlen_cons, IH. lia. Qed.
Lemma nloop_cont {S R} n (f : S -> res (S + R)) s s' : f s = Ok (inl s') -> nloop (Datatypes.S n) f s = nloop n f s'.
Proof. intros H. cbn [nloop]. rewrite H. reflexivity. Qed.
Lemma rich_records_ok d key : bytes d -> is_u32 key -> forall l b acc, Forall valid_record l -> 0 <= b ->
  holds d (b + 4) (concat (map (record_bytes key) l) ++ le 4 rich_overlay_id ++ le 4 key) ->
  (forall j, b + 4 <= j < b + 4 + 8 * zlen l -> slice d j 4 <> le 4 rich_overlay_id) ->
  nloop (S (length l)) (fun st : Z * list rich_record =>
    let '(b, acc) := st in
    if zlen d <=? b then Ok (inr acc)
    else if zlen d <=? b + 4 then Ok (inr acc)
    else
      x <- rd_le d (b + 4) 4 ;;
      if x =? rich_overlay_id then Ok (inr acc)
      else if zlen d <=? b + 8 then Ok (inr acc)
      else
        y <- rd_le d (b + 8) 4 ;;
        Ok (@inl _ (list rich_record) (b + 8, acc ++ [(Z.shiftr (Z.lxor x key) 16, Z.land (Z.lxor x key) 0xFFFF, Z.lxor y key)]))) (b, acc) = Ok (inr (acc ++ l)).
Proof.
  intros B K. induction l as [|r l IH]; intros b acc V Hb H N.
  - cbn [map concat app] in H. apply holds_app in H as [H1 H2]. pose proof (holds_range _ _ _ H2) as Rg. rewrite !zlen_le in Rg.
    pose proof (holds_slice _ _ _ _ H1 eq_refl) as S1. rewrite zlen_le in S1. cbn [length nloop].
    replace (zlen d <=? b) with false by lia. replace (zlen d <=? b + 4) with false by lia.
    rewrite rd_le_ok by lia. cbn [bind]. rewrite S1. rewrite unle_le_small by (vm_compute; intuition congruence). rewrite Z.eqb_refl, app_nil_r. reflexivity.
  - apply Forall_cons_iff in V as [Vr V]. destruct r as [[num ver] times]. unfold valid_record in Vr. cbn [fst snd] in Vr. destruct Vr as (V1 & V2 & V3).
    cbn [map concat] in H. rewrite <- app_assoc in H. apply holds_app in H as [H1 H2]. rewrite zlen_record in H2.
    unfold record_bytes in H1. cbn [fst snd] in H1. apply holds_app in H1 as [Hx Hy]. rewrite zlen_le in Hy. change (b + 4 + Z.of_nat 4) with (b + 4 + 4) in Hy.
    pose proof (holds_range _ _ _ Hy) as Rg. rewrite zlen_le in Rg.
    pose proof (holds_slice _ _ _ _ Hx eq_refl) as Sx. pose proof (holds_slice _ _ _ _ Hy eq_refl) as Sy. rewrite zlen_le in Sx, Sy. replace (b + 4 + 4) with (b + 8) in * by lia.
    assert (Ux : is_u32 (Z.lxor (num * 65536 + ver) key)) by (apply lxor_u32; [unfold is_u32, is_u16 in *; lia|exact K]).
    assert (Uy : is_u32 (Z.lxor times key)) by (apply lxor_u32; assumption).
    rewrite zlen_cons in N. change (length (_ :: l)) with (S (length l)).
    rewrite (nloop_cont _ _ _ (b + 8, acc ++ [(num, ver, times)])).
    { etransitivity; [apply IH|rewrite <- app_assoc; reflexivity]; [exact V|lia|replace (b + 8 + 4) with (b + 4 + 8) by lia; exact H2|intros j Hj; apply N; lia]. }
    cbv beta iota.
    replace (zlen d <=? b) with false by lia. replace (zlen d <=? b + 4) with false by lia.
    rewrite rd_le_ok by lia. cbn [bind]. rewrite Sx. rewrite unle_le_small by exact Ux.
    destruct (Z.eqb_spec (Z.lxor (num * 65536 + ver) key) rich_overlay_id) as [Q|Q].
    { exfalso. apply (N (b + 4)); [pose proof (zlen_nonneg l); lia|]. rewrite <- Q. exact Sx. }
    replace (zlen d <=? b + 8) with false by lia. rewrite rd_le_ok by lia. cbn [bind]. rewrite Sy. rewrite unle_le_small by exact Uy.
    rewrite !lxor_back. replace (Z.shiftr (num * 65536 + ver) 16) with num by (rewrite Z.shiftr_div_pow2 by lia; unfold is_u16 in *; lia).
    change 0xFFFF with (2^16 - 1). rewrite (land_mod _ 16) by (unfold is_u16 in *; lia). replace ((num * 65536 + ver) mod 2 ^ 16) with ver by (unfold is_u16 in *; lia).
    reflexivity.
Qed.
Lemma rich_ok a key l b : let stub := a ++ rich_header key l ++ b in
  bytes a -> bytes b -> is_u32 key -> Forall valid_record l -> zlen stub < 2^32 ->
  first_dword stub (Z.lxor rich_dans key) (zlen a) -> first_dword stub rich_overlay_id (zlen a + 16 + 8 * zlen l) ->
  get_rich_data stub = Ok l.
Proof.
  intros stub Ba Bb K V L F1 F2. pose proof (zlen_nonneg a) as Za. pose proof (zlen_nonneg b) as Zb. pose proof (zlen_nonneg l) as Zl.
  assert (Hd : holds stub (zlen a) (rich_header key l)) by (unfold stub, holds; pose proof (zlen_nonneg (rich_header key l)); rewrite !zlen_app; split; [lia|]; split; [lia|]; rewrite slice_app_r by lia; rewrite Z.sub_diag, slice_app_l by lia; apply slice_all; lia).
  assert (B : bytes stub).
  { unfold stub, rich_header. rewrite !bytes_app. repeat split; try assumption; try apply bytes_le. clear. induction l as [|r l IH]; [constructor|]. cbn [map concat]. apply bytes_app. split; [|exact IH]. unfold record_bytes. apply bytes_app. split; apply bytes_le. }
  assert (Z4 : forall v, zlen (le 4 v) = 4) by (intros v; rewrite zlen_le; reflexivity).
  unfold rich_header in Hd. apply holds_app in Hd as [_ Hd]. apply holds_app in Hd as [_ Hd]. apply holds_app in Hd as [_ Hd]. apply holds_app in Hd as [_ Hd]. rewrite !Z4 in Hd.
  pose proof Hd as Hd2. apply holds_app in Hd2 as [_ Hk]. rewrite zlen_records in Hk. apply holds_app in Hk as [Hr Hk]. rewrite Z4 in Hk.
  replace (zlen a + 4 + 4 + 4 + 4) with (zlen a + 16) in * by lia.
  pose proof (holds_range _ _ _ Hk) as Rk. rewrite Z4 in Rk. pose proof (holds_slice _ _ _ _ Hk eq_refl) as Sk. rewrite Z4 in Sk.
  unfold get_rich_data. replace (zlen stub <? 4) with false by lia.
  rewrite (find_dword_ok stub _ (zlen a + 16 + 8 * zlen l) B); [|vm_compute; intuition congruence|exact F2|lia|lia]. cbn [bind].
  replace (zlen stub - (zlen a + 16 + 8 * zlen l) <? 4) with false by lia. rewrite rd_le_ok by lia. cbn [bind]. change (Z.of_nat 4) with 4. rewrite Sk. rewrite unle_le_small by exact K.
  rewrite (find_dword_ok stub _ (zlen a) B); [|apply lxor_u32; [vm_compute; intuition congruence|exact K]|exact F1|lia|lia]. cbn [bind].
  unfold rich_records. apply (mloop_exec _ _ (S (length l))).
  - pose proof (rich_records_ok stub key B K l (zlen a + 12) [] V ltac:(lia)) as Q. cbn [app] in Q. apply Q.
    + replace (zlen a + 12 + 4) with (zlen a + 16) by lia. exact Hd.
    + intros j Hj. apply F2. lia.
  - unfold big_fuel. unfold zlen in *. lia.
Qed.
