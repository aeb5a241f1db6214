(** Proofs that the resource reader returns what the directory says (C73). *)
From Verif Require Export SpecExactRes ExactExports ResDataFacts ResTree ResFacts.

Section Resources.
Variables (p : pe) (rva : Z).
Hypotheses (R : readable p) (V : viewable p) (Hr : is_u32 rva).
(** ** Names *)
Lemma wide_exact a s : 0 <= a -> a + 2 < 2^32 ->
  ((bs <- read_rva p a 2 VirtData true ;; len <- length_rva p (a + 2) (a + 2) VirtData true ;; throw_if (len <? unle bs) incorrect_resource_directory ;;;
    ' (d, o) <- ptr_rva p (a + 2) VirtData true ;; s <- rd_units d o (unle bs) ;; Ok (Named s)) = Ok (Named s) <-> wide_at p a s).
Proof.
  intros Ha Hl. unfold wide_at. split.
  - intros H. bnd H bs Eb. bnd H len El. thr H C. bnd H q Ep. destruct q as [d o]. bnd H u Eu. injection H as ->.
    destruct (proj1 (shows_word p a 2 (unle bs) R) (ex_intro _ bs (conj Eb eq_refl))) as [Ub Sb]. change (256 ^ Z.of_nat 2) with (2^16) in Ub.
    destruct (virt_room p (a + 2) len R V ltac:(unfold is_u32; lia) El) as (d' & o' & Ep' & Ho & Bd & Hln & _). rewrite Ep in Ep'. injection Ep' as <- <-.
    unfold rd_units in Eu. bnd Eu raw Er. injection Eu as <-. apply rd_inv in Er as (A1 & A2 & A3 & ->). pose proof (bytes_slice d o (2 * unle bs) Bd) as Bs.
    assert (Ls : zlen (slice d o (2 * unle bs)) = 2 * unle bs) by (apply zlen_slice; lia).
    destruct (wide_units _ Bs ltac:(rewrite Ls; lia)) as [W Wo]. assert (Lu : zlen (units (slice d o (2 * unle bs))) = unle bs).
    { pose proof (f_equal zlen W) as Q. rewrite Ls, zlen_wide in Q. lia. }
    rewrite Lu. split; [exact Wo|]. split; [lia|]. split; [exact Sb|]. exists len, d, o. split; [exact El|]. split; [lia|]. split; [exact Ep|]. symmetry. exact W.
  - intros (Wo & L & S & n & d & o & El & Ln & Ep & Sl). pose proof (zlen_nonneg s). destruct (proj2 (shows_word p a 2 (zlen s) R) (conj (conj (zlen_nonneg s) L) S)) as (bs & Eb & Ev).
    change (Z.of_nat 2) with 2 in Eb. rewrite Eb. cbn [bind]. rewrite El. cbn [bind]. rewrite Ev. replace (n <? zlen s) with false by lia. cbn [throw_if bind]. rewrite Ep. cbn [bind].
    destruct (virt_room p (a + 2) n R V ltac:(unfold is_u32; lia) El) as (d' & o' & Ep' & Ho & Bd & Hln & Hro). rewrite Ep in Ep'. injection Ep' as <- <-.
    assert (o + 2 * zlen s <= zlen d).
    { destruct (Z.le_gt_cases (o + 2 * zlen s) (zlen d)) as [Q|Q]; [exact Q|]. exfalso. pose proof (f_equal zlen Sl) as K. rewrite zlen_wide in K. unfold slice, zlen in K. rewrite firstn_length, skipn_length in K. unfold zlen in *. lia. }
    unfold rd_units. rewrite rd_ok by lia. cbn [bind]. rewrite Sl, units_wide by exact Wo. reflexivity.
Qed.

(** Fields of known widths. *)
Lemma fields_exact a ws vs : ((exists e, read_rva p a (widths ws) VirtData true = Ok e /\ dec_fields ws e = vs) <-> fits ws vs /\ zlen (enc_fields ws vs) = widths ws /\ shows p a (enc_fields ws vs)).
Proof.
  unfold shows. split.
  - intros (e & E & <-). pose proof (read_rva_bytes _ _ _ _ _ _ R E) as B. pose proof (read_rva_len _ _ _ _ _ _ E) as L. rewrite (enc_dec_fields ws e B L). split; [apply dec_fields_fits, B|]. split; [exact L|]. rewrite L. exact E.
  - intros (F & L & E). rewrite L in E. exists (enc_fields ws vs). split; [exact E|]. rewrite <- (app_nil_r (enc_fields ws vs)). apply dec_enc_fields, F.
Qed.
Lemma rname_exact w n : rva + 2 < 2^32 -> is_u32 w -> (read_rname p rva w = Ok n <-> rname_at p rva w n).
Proof.
  intros Hr2 Hw. unfold is_u32 in *. unfold read_rname, rname_at, flag31, low31. destruct (Z.leb_spec (2^31) w) as [C|C].
  - assert (w mod 2^31 = w - 2^31) as -> by lia. rewrite (u32_small (rva + 2)) by lia. pose proof (is_sum_safe_spec (rva + 2) (w - 2^31) ltac:(lia)) as S. split.
    + intros H. thr H Q. apply negb_false_iff in Q. apply S in Q. rewrite !u32_small in H by lia. left. split; [lia|].
      assert (exists s, n = Named s) as (s & ->). { bnd H bs Eb. bnd H len El. thr H C1. bnd H q Ep. destruct q as [d o]. bnd H u Eu. injection H as <-. eexists. reflexivity. }
      exists s. split; [reflexivity|]. split; [lia|]. apply wide_exact; [lia|lia|]. exact H.
    + intros [(_ & s & -> & Hs & Ws)|[X _]]; [|lia]. replace (is_sum_safe (rva + 2) (w - 2^31)) with true by (symmetry; apply S; lia). cbn [negb throw_if bind]. rewrite !u32_small by lia. apply wide_exact; [lia|lia|exact Ws].
  - split.
    + intros H. injection H as <-. right. split; [exact C|reflexivity].
    + intros [(X & _)|[_ ->]]; [lia|reflexivity].
Qed.
Lemma rdata_exact w c : (read_rdata p rva w = Ok c <-> rdata_at p rva w c).
Proof.
  unfold read_rdata, rdata_at. split.
  - intros H. bnd H e Ee. destruct (proj1 (fields_exact _ [4;4;4;4]%nat _) (ex_intro _ e (conj Ee eq_refl))) as (Ft & _ & Sh).
    destruct (dec_fields [4;4;4;4]%nat e) as [|a [|size [|cp [|rsv [|? ?]]]]] eqn:Ed; try discriminate H. cbn [fits] in Ft. change (256 ^ Z.of_nat 4) with (2^32) in Ft.
    bnd H len El. thr H C. bnd H q Ep. destruct q as [d o]. bnd H data Er. injection H as <-.
    destruct (virt_room p a len R V ltac:(unfold is_u32; lia) El) as (d' & o' & Ep' & Ho & Bd & Hln & _). rewrite Ep in Ep'. injection Ep' as <- <-.
    apply rd_inv in Er as (A1 & A2 & A3 & ->). assert (Ls : zlen (slice d o size) = size) by (apply zlen_slice; lia).
    exists a, (slice d o size), cp, rsv. rewrite Ls. cbn [enc_fields] in Sh. rewrite app_nil_r in Sh. unfold is_u32. repeat (split; [first [reflexivity|lia]|]). split; [exact Sh|].
    exists len, d, o. rewrite Ls. repeat split; [exact El|lia|exact Ep].
  - intros (a & data & cp & rsv & -> & Ua & Uc & Ur & Ld & Sh & n & d & o & El & Ln & Ep & Sl). pose proof (zlen_nonneg data). unfold is_u32 in Ua, Uc, Ur.
    destruct (proj2 (fields_exact (u32 (rva + w)) [4;4;4;4]%nat [a; zlen data; cp; rsv])) as (e & Ee & Ed).
    { split; [cbn [fits]; change (256 ^ Z.of_nat 4) with (2^32); lia|]. split; [reflexivity|]. cbn [enc_fields]. rewrite app_nil_r. exact Sh. }
    change (widths [4;4;4;4]%nat) with 16 in Ee. rewrite Ee. cbn [bind]. rewrite Ed, El. cbn [bind]. replace (n <? zlen data) with false by lia. cbn [throw_if bind]. rewrite Ep. cbn [bind].
    destruct (virt_room p a n R V ltac:(unfold is_u32; lia) El) as (d' & o' & Ep' & Ho & Bd & Hln & Hro). rewrite Ep in Ep'. injection Ep' as <- <-.
    rewrite rd_ok by lia. cbn [bind]. rewrite Sl. reflexivity.
Qed.
(** One entry. *)
Lemma rentry_sound off f l0 seen i r : rva + 2 < 2^32 -> 0 <= rva + off + 16 + 8 * i < 2^32 -> read_rentry p rva off f (l0, seen) i = Ok r ->
  exists w1 w2 n c, is_u32 w1 /\ is_u32 w2 /\ shows p (rva + off + 16 + 8 * i) (le 4 w1 ++ le 4 w2) /\ rname_at p rva w1 n /\ fst r = l0 ++ [(n, c)] /\
    ((w2 < 2^31 /\ rdata_at p rva w2 c /\ snd r = seen) \/ (2^31 <= w2 /\ f (w2 - 2^31, seen) = Ok (c, snd r))).
Proof.
  intros Hr2 Hp H. unfold read_rentry in H. replace (rva + 16 + i * 8 + off) with (rva + off + 16 + 8 * i) in H by lia. rewrite u32_small in H by lia.
  bnd H e Ee. bnd H n En. set (w1 := unle (slice e 0 4)) in *. set (w2 := unle (slice e 4 4)) in *.
  assert (Hd : read_reloc_header p (rva + off + 16 + 8 * i) = Ok (w1, w2)) by (unfold read_reloc_header; rewrite Ee; reflexivity). apply header_exact in Hd as (U1 & U2 & Sh); [|exact R].
  apply rname_exact in En; [|exact Hr2|exact U1]. bnd H q Ek. destruct q as [c seen']. injection H as <-. exists w1, w2, n, c. cbn [fst snd].
  split; [exact U1|]. split; [exact U2|]. split; [exact Sh|]. split; [exact En|]. split; [reflexivity|]. unfold flag31, low31, is_u32 in *. destruct (Z.leb_spec (2^31) w2) as [C|C].
  - right. split; [exact C|]. replace (w2 - 2^31) with (w2 mod 2^31) by lia. exact Ek.
  - left. split; [exact C|]. bnd Ek c' Ec. injection Ek as <- <-. split; [apply rdata_exact, Ec|reflexivity].
Qed.
Lemma rentry_complete off f l0 seen i w1 w2 n c seen' : rva + 2 < 2^32 -> 0 <= rva + off + 16 + 8 * i < 2^32 -> is_u32 w1 -> is_u32 w2 -> shows p (rva + off + 16 + 8 * i) (le 4 w1 ++ le 4 w2) -> rname_at p rva w1 n ->
  (w2 < 2^31 /\ rdata_at p rva w2 c /\ seen' = seen) \/ (2^31 <= w2 /\ f (w2 - 2^31, seen) = Ok (c, seen')) -> read_rentry p rva off f (l0, seen) i = Ok (l0 ++ [(n, c)], seen').
Proof.
  intros Hr2 Hp U1 U2 Sh Nm H. unfold read_rentry. replace (rva + 16 + i * 8 + off) with (rva + off + 16 + 8 * i) by lia. rewrite u32_small by lia.
  assert (Hd : read_reloc_header p (rva + off + 16 + 8 * i) = Ok (w1, w2)) by (apply header_exact; [exact R|]; split; [exact U1|split; [exact U2|exact Sh]]).
  unfold read_reloc_header in Hd. destruct (read_rva p (rva + off + 16 + 8 * i) 8 VirtData true) as [e| | |]; cbn [bind] in *; try discriminate Hd. injection Hd as E1 E2. rewrite E1, E2.
  apply rname_exact in Nm; [|exact Hr2|exact U1]. rewrite Nm. cbn [bind]. unfold flag31, low31, is_u32 in *. destruct H as [(C & D & ->)|(C & D)].
  - replace (2^31 <=? w2) with false by lia. apply rdata_exact in D. rewrite D. reflexivity.
  - replace (2^31 <=? w2) with true by lia. replace (w2 mod 2^31) with (w2 - 2^31) by lia. rewrite D. reflexivity.
Qed.
(** ** Soundness *)
Definition sound (f : Z * list Z -> res (rnode * list Z)) : Prop := forall off seen t seen', 0 <= off < 2^31 -> f (off, seen) = Ok (t, seen') -> NoDup seen ->
  exists vs, seen' = rev vs ++ seen /\ rdir_at p rva off vs t /\ NoDup seen'.
Lemma rentries_sound off f : sound f -> rva + 2 < 2^32 -> 0 <= off -> forall m i l0 seen r, rva + off + 16 + 8 * (Z.of_nat i + Z.of_nat m) < 2^32 ->
  mfold (read_rentry p rva off f) (map Z.of_nat (seq i m)) (l0, seen) = Ok r -> NoDup seen ->
  exists l vs, fst r = l0 ++ l /\ zlen l = Z.of_nat m /\ snd r = rev vs ++ seen /\ NoDup (snd r) /\ rentries_at p rva (rva + off + 16 + 8 * Z.of_nat i) l vs.
Proof.
  intros Hf Hr2 Ho. unfold is_u32 in Hr. induction m as [|m IH]; intros i l0 seen r Hb H Nd; cbn [seq map mfold] in H.
  - injection H as <-. exists [], []. cbn [fst snd]. rewrite app_nil_r. repeat split; [exact Nd|constructor].
  - bnd H r1 E1. apply rentry_sound in E1 as (w1 & w2 & n & c & U1 & U2 & Sh & Nm & Er & Cs); [|lia|lia]. destruct r1 as [l1 seen1]. cbn [fst snd] in *. subst l1. unfold is_u32 in U2.
    destruct Cs as [(C & D & ->)|(C & D)].
    + apply IH in H as (l & vs & E1 & E2 & E3 & E4 & E5); [|lia|exact Nd]. exists ((n, c) :: l), vs. rewrite E1, <- app_assoc. split; [reflexivity|]. rewrite zlen_cons. split; [lia|]. split; [exact E3|]. split; [exact E4|].
      apply (rentries_data p rva _ w1 w2); try assumption; try lia. replace (rva + off + 16 + 8 * Z.of_nat i + 8) with (rva + off + 16 + 8 * Z.of_nat (S i)) by lia. exact E5.
    + destruct (Hf (w2 - 2^31) seen c seen1 ltac:(lia) D Nd) as (v & Es & Dt & Nd1). apply IH in H as (l & vs & E1 & E2 & E3 & E4 & E5); [|lia|exact Nd1]. exists ((n, c) :: l), (v ++ vs). rewrite E1, <- app_assoc. split; [reflexivity|]. rewrite zlen_cons. split; [lia|].
      split; [rewrite E3, Es, rev_app_distr, app_assoc; reflexivity|]. split; [exact E4|]. apply (rentries_dir p rva _ w1 w2); try assumption; try lia. replace (rva + off + 16 + 8 * Z.of_nat i + 8) with (rva + off + 16 + 8 * Z.of_nat (S i)) by lia. exact E5.
Qed.
Lemma counts_le l : 0 <= count_named l <= zlen l /\ 0 <= count_ids l <= zlen l.
Proof.
  assert (X : forall f : rentry -> bool, 0 <= zlen (filter f l) <= zlen l); [|split; apply X]. intros f. induction l as [|x l IH]; [cbn [filter]; change (@zlen rentry []) with 0; lia|]. cbn [filter]. destruct (f x); rewrite ?zlen_cons; lia.
Qed.
Lemma rdir_sound f : sound f -> sound (read_rdir p rva f).
Proof.
  intros Hf off seen t seen' Ho H Nd. unfold is_u32 in *. unfold read_rdir in H. thr H C1. apply existsb_notin in C1. thr H C2. apply negb_false_iff in C2. apply is_sum_safe_spec in C2; [|lia].
  bnd H e Ee. destruct (proj1 (fields_exact _ rdir_widths _) (ex_intro _ e (conj Ee eq_refl))) as (Ft & _ & Sh).
  destruct (dec_fields rdir_widths e) as [|chars [|time [|major [|minor [|named [|ids [|? ?]]]]]]] eqn:Ed; try discriminate H. unfold rdir_widths in *. cbn [fits] in Ft. change (256 ^ Z.of_nat 4) with (2^32) in Ft. change (256 ^ Z.of_nat 2) with (2^16) in Ft.
  cbv zeta in H. thr H C3. thr H C4. apply orb_false_iff in C4 as [C4 C5]. apply negb_false_iff in C4, C5. apply is_sum_safe_spec in C4; [|lia]. rewrite u32_small in C5 by lia. apply is_sum_safe_spec in C5; [|lia].
  bnd H r Er. destruct r as [l sn]. injection H as <- <-. unfold zrange in Er. apply (rentries_sound off f Hf) in Er as (l' & vs & E1 & E2 & E3 & E4 & E5); [|lia|lia|lia|constructor; assumption].
  cbn [fst snd app] in *. subst l'. exists (off :: vs). cbn [rev]. rewrite <- app_assoc. split; [exact E3|]. split; [|exact E4]. pose proof (counts_le l). rewrite !u32_small by lia.
  cbn [enc_fields] in Sh. rewrite app_nil_r in Sh. replace (rva + off + 16 + 8 * Z.of_nat 0) with (rva + off + 16) in E5 by lia.
  apply rdir with (named := named) (ids := ids); unfold is_u32, is_u16; try lia; assumption.
Qed.
Lemma process_sound : sound (process_resources p rva).
Proof.
  unfold process_resources. assert (X : sound (fun _ => Fuel)) by (intros ? ? ? ? _ H; discriminate H).
  exact (pfun_ind (read_rdir p rva) (fun _ f => sound f) big_fuel (fun k f _ => rdir_sound f) 0 _ ltac:(lia) X).
Qed.

(** ** Completeness *)
Definition complete (k : Z) (f : Z * list Z -> res (rnode * list Z)) : Prop := forall off vs t seen, 0 <= off < 2^31 -> rdir_at p rva off vs t -> NoDup (rev vs ++ seen) -> zlen vs <= k ->
  f (off, seen) = Ok (t, rev vs ++ seen).
Lemma nodup_tail {A} (l m : list A) : NoDup (l ++ m) -> NoDup m.
Proof. induction l as [|x l IH]; cbn [app]; intros H; [exact H|]. inversion H. apply IH. assumption. Qed.
Lemma rentries_complete off k f : complete k f -> rva + 2 < 2^32 -> 0 <= off -> forall l vs pos i l0 seen, rentries_at p rva pos l vs -> pos = rva + off + 16 + 8 * Z.of_nat i -> rva + off + 16 + 8 * (Z.of_nat i + zlen l) < 2^32 ->
  zlen vs <= k -> NoDup (rev vs ++ seen) -> mfold (read_rentry p rva off f) (map Z.of_nat (seq i (length l))) (l0, seen) = Ok (l0 ++ l, rev vs ++ seen).
Proof.
  intros Hf Hr2 Ho. unfold is_u32 in Hr. induction l as [|[n c] l IH]; intros vs pos i l0 seen H -> Hb Hk Nd.
  - inversion H; subst. cbn. rewrite app_nil_r. reflexivity.
  - rewrite zlen_cons in Hb. pose proof (zlen_nonneg l). cbn [length seq map mfold]. inversion H as [|? w1 w2 ? ? ? ? U1 C C0 Sh Nm Dt Tl|? w1 w2 ? ? v ? vs2 U1 C Sh Nm Dt Tl]; subst.
    + rewrite (rentry_complete off f l0 seen (Z.of_nat i) w1 w2 n c seen); try assumption; try (unfold is_u32; lia); [|left; split; [exact C|split; [exact Dt|reflexivity]]].
      cbn [bind]. rewrite (IH vs (rva + off + 16 + 8 * Z.of_nat i + 8) (S i)); try assumption; try lia. rewrite <- app_assoc. reflexivity.
    + rewrite zlen_app in Hk. pose proof (zlen_nonneg v). pose proof (zlen_nonneg vs2). rewrite rev_app_distr, <- app_assoc in *.
      rewrite (rentry_complete off f l0 seen (Z.of_nat i) w1 w2 n c (rev v ++ seen)); try assumption; try (unfold is_u32; lia); [|right; split; [lia|]; apply Hf; [lia|exact Dt|exact (nodup_tail _ _ Nd)|lia]].
      cbn [bind]. rewrite (IH vs2 (rva + off + 16 + 8 * Z.of_nat i + 8) (S i)); try assumption; try lia. rewrite <- app_assoc. reflexivity.
Qed.
Lemma rdir_complete k f : 0 <= k -> complete k f -> complete (k + 1) (read_rdir p rva f).
Proof.
  intros Hk Hf off vs t seen Ho H Nd Hl. unfold is_u32 in Hr. inversion H as [? chars time major minor named ids l vs0 U1 U2 U3 U4 U5 U6 Sh Ln Hb Tl]; subst. unfold is_u32, is_u16 in *.
  rewrite zlen_cons in Hl. cbn [rev] in *. rewrite <- app_assoc in *. cbn [app] in *. pose proof (nodup_tail _ _ Nd) as Nd1. inversion Nd1 as [|? ? Ni Nd2]; subst.
  unfold read_rdir. replace (existsb (Z.eqb off) seen) with false.
  2: { symmetry. destruct (existsb (Z.eqb off) seen) eqn:Q; [|reflexivity]. apply existsb_exists in Q as (x & Hx & Ex). apply Z.eqb_eq in Ex. subst x. contradiction. }
  cbn [throw_if bind]. rewrite (proj2 (is_sum_safe_spec rva off ltac:(lia)) ltac:(lia)). cbn [negb throw_if bind].
  destruct (proj2 (fields_exact (rva + off) rdir_widths [chars; time; major; minor; named; ids])) as (e & Ee & Ed).
  { split; [unfold rdir_widths; cbn [fits]; change (256 ^ Z.of_nat 4) with (2^32); change (256 ^ Z.of_nat 2) with (2^16); lia|]. split; [reflexivity|]. unfold rdir_widths. cbn [enc_fields]. rewrite app_nil_r. exact Sh. }
  change (widths rdir_widths) with 16 in Ee. rewrite Ee. cbn [bind]. rewrite Ed. cbv zeta.
  rewrite (proj2 (is_sum_safe_spec ids named ltac:(lia)) ltac:(lia)). change (max_dword / 8 + 16) with 536870927. replace (536870927 <=? ids + named) with false by lia. cbn [negb orb throw_if bind].
  rewrite (proj2 (is_sum_safe_spec off (16 + (ids + named) * 8) ltac:(lia)) ltac:(lia)). rewrite (u32_small (off + 16 + (ids + named) * 8)) by lia. rewrite (proj2 (is_sum_safe_spec rva (off + 16 + (ids + named) * 8) ltac:(lia)) ltac:(lia)). cbn [negb orb throw_if bind].
  unfold zrange. replace (Z.to_nat (ids + named)) with (length l) by (unfold zlen in Ln; lia).
  rewrite (rentries_complete off k f Hf ltac:(lia) ltac:(lia) l vs0 (rva + off + 16) 0); try assumption; try lia.
  cbn [bind app]. pose proof (counts_le l). rewrite !u32_small by lia. reflexivity.
Qed.
Scheme rdir_min := Minimality for rdir_at Sort Prop with rentries_min := Minimality for rentries_at Sort Prop.
Lemma offsets_bound off vs t : rdir_at p rva off vs t -> 0 <= off < 2^31 -> Forall (fun x => 0 <= x < 2^31) vs.
Proof.
  apply (rdir_min p rva (fun off vs _ => 0 <= off < 2^31 -> Forall (fun x => 0 <= x < 2^31) vs) (fun _ _ vs => Forall (fun x => 0 <= x < 2^31) vs)); intros; try assumption.
  - constructor; assumption.
  - constructor.
  - apply Forall_app. split; [|assumption]. match goal with H : 0 <= _ - _ < _ -> _ |- _ => apply H end. lia.
Qed.
Lemma process_complete vs t : rdir_at p rva 0 vs t -> NoDup vs -> process_resources p rva (0, []) = Ok (t, rev vs ++ []).
Proof.
  intros H Nd. assert (Z0 : 0 <= 0 < 2^31) by lia. assert (L : zlen vs <= 2^31) by (apply nodup_bound; [lia|exact Nd|exact (offsets_bound 0 vs t H Z0)]).
  assert (X : complete 0 (fun _ => Fuel)).
  { intros off v t' seen _ D _ K. inversion D; subst. rewrite zlen_cons in K. match type of K with zlen ?l + 1 <= 0 => pose proof (zlen_nonneg l) | 1 + zlen ?l <= 0 => pose proof (zlen_nonneg l) end. lia. }
  unfold process_resources. refine (pfun_ind (read_rdir p rva) complete big_fuel (fun k f Hk Hf => rdir_complete k f Hk Hf) 0 _ ltac:(lia) X 0 vs t [] Z0 H _ _).
  - rewrite app_nil_r. apply NoDup_rev. exact Nd.
  - change (Zpos big_fuel) with (2^33 + 1). lia.
Qed.
Lemma process_exact t : ((' (t, _) <- process_resources p rva (0, []) ;; Ok t) = Ok t <-> resources_shown p rva t).
Proof.
  split.
  - intros H. bnd H r E. destruct r as [t' seen']. injection H as ->. destruct (process_sound 0 [] t seen' ltac:(lia) E ltac:(constructor)) as (vs & -> & D & Nd). exists vs. split; [exact D|].
    rewrite app_nil_r in Nd. rewrite <- (rev_involutive vs). apply NoDup_rev. exact Nd.
  - intros (vs & D & Nd). rewrite (process_complete vs t D Nd). reflexivity.
Qed.
End Resources.

Lemma resources_exact p : readable p -> viewable p -> forall rva size t, dir_is p dir_resource (rva, size) -> dir_resource < nrva p -> rva <> 0 ->
  (get_resources p = Ok t <-> resources_shown p rva t).
Proof.
  intros R V rva size t D N Hr. destruct (dir_get p dir_resource R ltac:(unfold dir_resource; lia)) as (rva' & size' & Ur & _ & D' & Er & _ & Ex).
  assert (rva' = rva) by (unfold dir_is in *; destruct D as [_ D], D' as [_ D']; congruence). subst rva'.
  unfold get_resources. rewrite (Ex N), Er. replace (rva =? 0) with false by lia. replace (nrva p <=? dir_resource) with false by lia. cbn [negb bind]. apply process_exact; assumption.
Qed.
Lemma resources_absent p : directory_exists p dir_resource = Ok false -> get_resources p = Ok (RDir (mk_rhead 0 0 0 0 0 0) []).
Proof. intros H. unfold get_resources. rewrite H. reflexivity. Qed.
Lemma absent_rest p : readable p -> 1 <= nrva p -> forall size,
  (dir_is p dir_resource (0, size) \/ nrva p <= dir_resource -> get_resources p = Ok (RDir (mk_rhead 0 0 0 0 0 0) [])) /\
  (dir_is p dir_import (0, size) \/ nrva p <= dir_import -> get_imports p = Ok []).
Proof.
  intros R Hn size. split.
  - intros H. apply resources_absent, (dir_gone _ _ size); try assumption. unfold dir_resource; lia.
  - intros H. unfold get_imports. rewrite (dir_gone p dir_import size R ltac:(unfold dir_import; lia) Hn H). reflexivity.
Qed.
