(** Proofs about the debug directory reader: the data of one entry, the directory, safety. *)
From Verif Require Export DebugMore.

Lemma field4 d off v : is_u32 v -> holds d off (le 4 v) -> unle (slice d off 4) = v.
Proof. exact (field_of d off 4 v). Qed.

(** ** COFF data *)
Lemma header_dec n lva r : zlen r = 6 -> Forall is_u32 (n :: lva :: r) -> let h := concat (map (le 4) (n :: lva :: r)) in
  zlen h = 32 /\ dec_fields [4; 4; 4; 4; 4; 4; 4; 4]%nat h = n :: lva :: r /\ unle (slice h 0 4) = n /\ unle (slice h 4 4) = lva.
Proof.
  intros L F h. do 6 (destruct r as [|? r]; [discriminate L|]). destruct r as [|? r]; [|exfalso; unfold zlen in L; cbn [length] in L; lia].
  repeat match goal with H : Forall _ (_ :: _) |- _ => inversion H; subst; clear H end.
  assert (Z32 : zlen h = 32) by (unfold h; cbn [map concat]; rewrite !zlen_app, !zlen_le; reflexivity). split; [exact Z32|].
  split.
  - unfold h. cbn [map concat]. cbn [dec_fields]. 
    assert (D : forall v t, is_u32 v -> unle (firstn 4 (le 4 v ++ t)) = v /\ skipn 4 (le 4 v ++ t) = t).
    { intros v t Hv. split; [|reflexivity]. change (firstn 4 (le 4 v ++ t)) with (le 4 v). apply unle_le_small, Hv. }
    do 7 match goal with |- context [unle (firstn 4 (le 4 ?v ++ ?t))] => destruct (D v t) as [-> ->]; [assumption|] end.
    destruct (D z4 []) as [-> _]; [assumption|]. reflexivity.
  - pose proof (holds_self h) as Hh. unfold h in Hh at 2. cbn [map concat] in Hh. apply holds_app in Hh as [K1 Hh]. apply holds_app in Hh as [K2 _]. rewrite zlen_le in K2.
    split; [exact (field_of h 0 4 n ltac:(assumption) K1)|exact (field_of h 4 4 lva ltac:(assumption) K2)].
Qed.
Lemma coff_info_safe d : bytes d -> safe (coff_info d).
Proof.
  intros B. unfold coff_info. case_throw C; [exact I|]. cbn [bind]. rewrite rd_ok by lia. cbn [bind]. cbv zeta. rewrite !slice_slice by lia. cbn [Z.add].
  pose proof (field_bound d 0 4 B ltac:(lia) ltac:(lia)) as U1. pose proof (field_bound d 4 4 B ltac:(lia) ltac:(lia)) as U2. change (256 ^ Z.of_nat 4) with (2^32) in *. change (Z.of_nat 4) with 4 in *. change (0 + 4) with 4.
  case_throw C1; [exact I|]. apply orb_false_iff in C1 as [C1 C2]. unfold sizeof_symbol, max_dword in *. rewrite sum_safe in C2 by exact U2. cbn [bind].
  rewrite u32_small in C2 by lia. case_throw C3; [exact I|]. cbn [bind]. apply safe_bind; [|intros; exact I]. apply coff_safe; try assumption; lia.
Qed.
Lemma coff_info_spec d a : bytes d -> (coff_info d = Ok a <-> describes 1 d a).
Proof.
  intros B. split.
  - intros H. unfold coff_info in H. thr H C. rewrite rd_ok in H by lia. cbn [bind] in H. cbv zeta in H.
    assert (L : zlen (slice d 0 32) = 32) by (apply zlen_slice; lia).
    destruct (header_fields (slice d 0 32) (bytes_slice _ _ _ B) L) as (n & lva & r & Lr & F & E & D & F0 & F4). rewrite F0, F4, D in H.
    pose proof F as F'. inversion F' as [|? ? Un F'']; subst. inversion F'' as [|? ? Ul _]; subst. clear F' F''.
    set (n := unle (slice (slice d 0 32) 0 4)) in *. set (lva := unle (slice (slice d 0 32) 4 4)) in *. clearbody n lva.
    thr H C1. apply orb_false_iff in C1 as [C1 C2]. unfold sizeof_symbol, max_dword, is_u32 in *. rewrite sum_safe in C2 by exact Ul. 
    rewrite u32_small in C2 by lia. thr H C3. bnd H l El. apply (coff_loop d n lva B) in El; try lia. assert (a = AdvCoff (n :: lva :: r) l) as -> by congruence.
    apply d_coff; try assumption; try lia. apply stands_holds. rewrite <- E. apply holds_part; lia.
  - intros H. inversion H as [| | | | |d' n lva r l Lr F St N1 N2 N3 Cl|]; subst; [|lia]. apply stands_holds in St.
    destruct (header_dec n lva r Lr F) as (Lh & D & F0 & F4). pose proof (holds_range _ _ _ St) as [_ R]. rewrite Lh in R.
    pose proof (holds_slice _ _ _ 32 St ltac:(lia)) as Sl. inversion F as [|? ? Un F'']; subst. inversion F'' as [|? ? Ul _]; subst.
    unfold coff_info. replace (zlen d <? 32) with false by lia. cbn [throw_if bind]. rewrite rd_ok by lia. cbn [bind]. rewrite Sl. cbv zeta. rewrite F0, F4, D.
    unfold sizeof_symbol, max_dword, is_u32 in *. rewrite sum_safe by exact Ul. rewrite u32_small by lia.
    replace (4294967295 / 18 <=? n) with false by lia. replace (n * 18 + lva <? 2^32) with true by lia. cbn [negb orb throw_if bind].
    replace (zlen d <? n * 18 + lva) with false by lia. cbn [throw_if bind].
    apply (coff_loop d n lva B) in Cl; try lia. rewrite Cl. reflexivity.
Qed.

(** ** CodeView data *)
Lemma sig_eq_true a b : sig_eq a b = true <-> a = b.
Proof. unfold sig_eq. destruct (list_eq_dec Z.eq_dec a b); split; congruence. Qed.
Lemma sig_eq_false a b : a <> b -> sig_eq a b = false.
Proof. unfold sig_eq. destruct (list_eq_dec Z.eq_dec a b); congruence. Qed.
Lemma codeview_safe d : safe (codeview_info d).
Proof.
  unfold codeview_info. case_throw C; [exact I|]. cbn [bind]. rewrite rd_ok by lia. cbn [bind].
  case_if S1. { case_throw C1; [exact I|]. cbn [bind]. destruct (c_string_safe d 24 (zlen d - 24) ltac:(lia) ltac:(lia)) as (r & -> & _). cbn [bind]. destruct r; [|exact I]. rewrite rd_ok by lia. exact I. }
  case_if S2. { case_throw C1; [exact I|]. cbn [bind]. destruct (c_string_safe d 16 (zlen d - 16) ltac:(lia) ltac:(lia)) as (r & -> & _). cbn [bind]. destruct r; [|exact I]. rewrite rd_ok by lia. exact I. }
  case_if S3; [exact I|]. case_if S4; [exact I|]. case_if S5; exact I.
Qed.
(** [d] is what stands at its beginning and the rest. *)
Lemma holds_start d a : holds d 0 a -> exists r, d = a ++ r.
Proof. intros H. apply stands_holds in H as (x & r & E & L). apply zlen_zero in L. subst x. exists r. exact E. Qed.
Lemma codeview_to d a : bytes d -> codeview_info d = Ok a -> describes 2 d a.
Proof.
  intros B H. unfold codeview_info in H. thr H C. rewrite rd_ok in H by lia. cbn [bind] in H.
  destruct (sig_eq (slice d 0 4) sig_rsds) eqn:S1.
  { apply sig_eq_true in S1. thr H C1. destruct (c_string_safe d 24 (zlen d - 24) ltac:(lia) ltac:(lia)) as (r & Er & Hr). rewrite Er in H. cbn [bind] in H. destruct r as [name|]; [|discriminate].
    destruct (Hr name eq_refl) as (N & L & Hh). rewrite rd_ok in H by lia. cbn [bind] in H. rewrite !slice_slice in H by lia. cbn [Z.add] in H. change (0 + 4) with 4 in H. change (0 + 20) with 20 in H.
    assert (a = AdvPdb7 (slice d 4 16) (unle (slice d 20 4)) name) as -> by congruence. clear H.
    assert (L16 : zlen (slice d 4 16) = 16) by (apply zlen_slice; lia).
    assert (holds d 0 (sig_rsds ++ slice d 4 16 ++ le 4 (unle (slice d 20 4)) ++ name ++ [0])) as Hd.
    { apply holds_app. split; [rewrite <- S1; apply holds_part; lia|]. apply holds_app. split; [change (0 + zlen sig_rsds) with 4; apply holds_part; lia|].
      apply holds_app. rewrite L16. change (0 + zlen sig_rsds + 16) with 20. split; [apply (holds_field d 20 4 B); lia|]. rewrite zlen_le. exact Hh. }
    apply holds_start in Hd as [rest Ed]. set (g := slice d 4 16) in *. set (age := unle (slice d 20 4)) in *.
    assert (is_u32 age) as Ua by (exact (field_bound d 20 4 B ltac:(lia) ltac:(lia))). clearbody g age. rewrite Ed. rewrite <- !app_assoc. cbn [app]. apply d_pdb7; assumption. }
  destruct (sig_eq (slice d 0 4) sig_nb10) eqn:S2.
  { apply sig_eq_true in S2. thr H C1. destruct (c_string_safe d 16 (zlen d - 16) ltac:(lia) ltac:(lia)) as (r & Er & Hr). rewrite Er in H. cbn [bind] in H. destruct r as [name|]; [|discriminate].
    destruct (Hr name eq_refl) as (N & L & Hh). rewrite rd_ok in H by lia. cbn [bind] in H. rewrite !slice_slice in H by lia. change (0 + 8) with 8 in H. change (0 + 12) with 12 in H.
    assert (a = AdvPdb2 (unle (slice d 8 4)) (unle (slice d 12 4)) name) as -> by congruence. clear H.
    assert (L4 : zlen (slice d 4 4) = 4) by (apply zlen_slice; lia).
    assert (holds d 0 (sig_nb10 ++ slice d 4 4 ++ le 4 (unle (slice d 8 4)) ++ le 4 (unle (slice d 12 4)) ++ name ++ [0])) as Hd.
    { apply holds_app. split; [rewrite <- S2; apply holds_part; lia|]. apply holds_app. split; [change (0 + zlen sig_nb10) with 4; apply holds_part; lia|].
      apply holds_app. rewrite L4. change (0 + zlen sig_nb10 + 4) with 8. split; [apply (holds_field d 8 4 B); lia|]. rewrite zlen_le. change (8 + Z.of_nat 4) with 12.
      apply holds_app. split; [apply (holds_field d 12 4 B); lia|]. rewrite zlen_le. exact Hh. }
    apply holds_start in Hd as [rest Ed]. set (g := slice d 4 4) in *. set (age := unle (slice d 12 4)) in *. set (sg := unle (slice d 8 4)) in *.
    assert (is_u32 age) as Ua by (exact (field_bound d 12 4 B ltac:(lia) ltac:(lia))). assert (is_u32 sg) as Us by (exact (field_bound d 8 4 B ltac:(lia) ltac:(lia))). clearbody g age sg. rewrite Ed. rewrite <- !app_assoc. cbn [app]. apply d_pdb2; assumption. }
  assert (a = AdvNone) as ->.
  { unfold set_advanced_type in H. cbn [advanced_type] in H. change (5 <=? 0) with false in H. destruct (sig_eq (slice d 0 4) sig_nb09); [congruence|]. destruct (sig_eq (slice d 0 4) sig_nb11); [congruence|]. destruct (sig_eq (slice d 0 4) sig_nb05); congruence. }
  unfold sig_rsds in S1. unfold sig_nb10 in S2. apply d_codeview; [lia| |]; intros K; apply sig_eq_true in K; congruence.
Qed.
Lemma slice_app4 (a b : list Z) : zlen a = 4 -> slice (a ++ b) 0 4 = a.
Proof. intros L. rewrite slice_app_l by lia. apply slice_all. lia. Qed.
Lemma codeview_from d a : describes 2 d a -> codeview_info d = Ok a.
Proof.
  intros H. remember 2 as t eqn:Et. destruct H as [g age name rest L Ua N|off sg age name rest L Us Ua N|d L N1 N2| | | |ty d N1 N2 N3]; try discriminate Et.
  - change [82; 83; 68; 83] with sig_rsds in *. set (d := sig_rsds ++ g ++ le 4 age ++ name ++ 0 :: rest). assert (Hd : holds d 0 (sig_rsds ++ g ++ le 4 age ++ name ++ [0])).
    { apply stands_holds. exists [], rest. split; [|reflexivity]. cbn [app]. rewrite <- !app_assoc. reflexivity. }
    assert (Ld : 25 <= zlen d) by (apply holds_range in Hd as [_ Hd]; rewrite !zlen_app, zlen_le, L in Hd; change (zlen sig_rsds) with 4 in Hd; change (zlen [0]) with 1 in Hd; pose proof (zlen_nonneg name); lia).
    unfold codeview_info. replace (zlen d <? 8) with false by lia. cbn [throw_if bind]. rewrite rd_ok by lia. cbn [bind].
    replace (slice d 0 4) with sig_rsds by (symmetry; apply slice_app4; reflexivity). replace (sig_eq sig_rsds sig_rsds) with true by reflexivity.
    replace (zlen d <? 25) with false by lia. cbn [throw_if bind]. rewrite !holds_app, zlen_le, L in Hd. change (0 + zlen sig_rsds) with 4 in Hd. change (4 + 16) with 20 in Hd. change (20 + Z.of_nat 4) with 24 in Hd.
    destruct Hd as (H0 & H4 & H20 & H24 & H25). rewrite (c_string_ok d 24 name) by (try exact N; try (apply holds_app; split; assumption); apply holds_range in H25 as [_ H25]; change (zlen [0]) with 1 in H25; lia). cbn [bind].
    rewrite rd_ok by lia. cbn [bind]. rewrite !slice_slice by lia. change (0 + 4) with 4. change (0 + 20) with 20. rewrite (holds_slice d 4 g) by (try exact H4; lia).
    rewrite (field4 d 20 age Ua H20). reflexivity.
  - change [78; 66; 49; 48] with sig_nb10 in *. set (d := sig_nb10 ++ off ++ le 4 sg ++ le 4 age ++ name ++ 0 :: rest). assert (Hd : holds d 0 (sig_nb10 ++ off ++ le 4 sg ++ le 4 age ++ name ++ [0])).
    { apply stands_holds. exists [], rest. split; [|reflexivity]. cbn [app]. rewrite <- !app_assoc. reflexivity. }
    assert (Ld : 17 <= zlen d) by (apply holds_range in Hd as [_ Hd]; rewrite !zlen_app, !zlen_le, L in Hd; change (zlen sig_nb10) with 4 in Hd; change (zlen [0]) with 1 in Hd; pose proof (zlen_nonneg name); lia).
    unfold codeview_info. replace (zlen d <? 8) with false by lia. cbn [throw_if bind]. rewrite rd_ok by lia. cbn [bind].
    replace (slice d 0 4) with sig_nb10 by (symmetry; apply slice_app4; reflexivity). replace (sig_eq sig_nb10 sig_rsds) with false by reflexivity. replace (sig_eq sig_nb10 sig_nb10) with true by reflexivity.
    replace (zlen d <? 17) with false by lia. cbn [throw_if bind]. rewrite !holds_app, !zlen_le, L in Hd. change (0 + zlen sig_nb10) with 4 in Hd. change (4 + 4) with 8 in Hd. change (8 + Z.of_nat 4) with 12 in Hd. change (12 + Z.of_nat 4) with 16 in Hd.
    destruct Hd as (H0 & H4 & H8 & H12 & H16 & H17). rewrite (c_string_ok d 16 name) by (try exact N; try (apply holds_app; split; assumption); apply holds_range in H17 as [_ H17]; change (zlen [0]) with 1 in H17; lia). cbn [bind].
    rewrite rd_ok by lia. cbn [bind]. rewrite !slice_slice by lia. change (0 + 8) with 8. change (0 + 12) with 12.
    rewrite (field4 d 12 age Ua H12), (field4 d 8 sg Us H8). reflexivity.
  - unfold codeview_info. replace (zlen d <? 8) with false by lia. cbn [throw_if bind]. rewrite rd_ok by lia. cbn [bind]. rewrite (sig_eq_false _ sig_rsds N1), (sig_eq_false _ sig_nb10 N2).
    unfold set_advanced_type. cbn [advanced_type]. change (5 <=? 0) with false. destruct (sig_eq (slice d 0 4) sig_nb09); [reflexivity|]. destruct (sig_eq (slice d 0 4) sig_nb11); [reflexivity|]. destruct (sig_eq (slice d 0 4) sig_nb05); reflexivity.
  - contradiction.
Qed.

(** ** Misc data *)
Lemma misc_safe d : bytes d -> safe (misc_info d).
Proof.
  intros B. unfold misc_info. case_throw C; [exact I|]. cbn [bind]. rewrite rd_ok by lia. cbn [bind]. cbv zeta. case_throw C1; [exact I|]. cbn [bind]. case_throw C2; [exact I|]. cbn [bind].
  pose proof (field_bound d 4 4 B ltac:(lia) ltac:(lia)) as U. case_if S0; [unfold rd_units|]; rewrite rd_ok by lia; exact I.
Qed.
Lemma misc_to d a : bytes d -> misc_info d = Ok a -> describes 4 d a.
Proof.
  intros B H. unfold misc_info in H. thr H C. rewrite rd_ok in H by lia. cbn [bind] in H. cbv zeta in H. rewrite !slice_slice in H by lia. change (0 + 4) with 4 in H. change (0 + 0) with 0 in H. change (0 + 8) with 8 in H.
  thr H C1. thr H C2. pose proof (field_bound d 4 4 B ltac:(lia) ltac:(lia)) as Ul. pose proof (field_bound d 0 4 B ltac:(lia) ltac:(lia)) as Ut. pose proof (field_bound d 8 1 B ltac:(lia) ltac:(lia)) as Uf.
  change (256 ^ Z.of_nat 4) with (2^32) in *. change (256 ^ Z.of_nat 1) with 256 in Uf. change (Z.of_nat 4) with 4 in *. change (Z.of_nat 1) with 1 in *.
  pose proof (holds_field d 0 4 B ltac:(lia) ltac:(lia)) as H0. pose proof (holds_field d 4 4 B ltac:(lia) ltac:(lia)) as H4. pose proof (holds_field d 8 1 B ltac:(lia) ltac:(lia)) as H8. change (Z.of_nat 4) with 4 in *. change (Z.of_nat 1) with 1 in *.
  rewrite le_1 in H8 by exact Uf. pose proof (holds_part d 9 3 ltac:(lia) ltac:(lia) ltac:(lia)) as H9. assert (L3 : zlen (slice d 9 3) = 3) by (apply zlen_slice; lia).
  set (len := unle (slice d 4 4)) in *. set (ty := unle (slice d 0 4)) in *. set (flag := unle (slice d 8 1)) in *. set (res := slice d 9 3) in *. clearbody len ty flag res.
  destruct (Z.eqb_spec flag 0) as [F0|F]; cbn [negb] in H; [subst flag|].
  - rewrite rd_ok in H by lia. cbn [bind] in H. pose proof (holds_part d 12 (len - 12) ltac:(lia) ltac:(lia) ltac:(lia)) as H12. assert (Lb : zlen (slice d 12 (len - 12)) = len - 12) by (apply zlen_slice; lia).
    set (body := slice d 12 (len - 12)) in *. clearbody body. assert (a = AdvMisc ty false (strip_nullbytes body)) as -> by congruence. clear H.
    assert (holds d 0 (le 4 ty ++ le 4 (12 + zlen body) ++ [0] ++ res ++ body)) as Hd.
    { rewrite !holds_app, !zlen_le, L3, Lb. change (0 + Z.of_nat 4) with 4. change (4 + Z.of_nat 4) with 8. change (8 + zlen [0]) with 9. change (9 + 3) with 12. replace (12 + (len - 12)) with len by lia. do 4 (split; [assumption|]). auto. }
    apply holds_start in Hd as [rest Ed]. assert (zlen d = 12 + zlen body + zlen rest) as Ld by (rewrite Ed, !zlen_app, !zlen_le, L3; change (zlen [0]) with 1; lia).
    rewrite Ed. rewrite <- !app_assoc. cbn [app]. apply d_misc_ansi; try assumption; [lia|rewrite zlen_app; lia|apply strip_trimmed].
  - bnd H s Es. apply rd_units_inv in Es as (W & Ls & Hs); [|exact B|lia]. assert (a = AdvMisc ty true (strip_nullbytes s)) as -> by congruence. clear H.
    pose proof (holds_part d (12 + 2 * zlen s) (len - 12 - 2 * zlen s) ltac:(lia) ltac:(lia) ltac:(lia)) as Ho. assert (Lo : zlen (slice d (12 + 2 * zlen s) (len - 12 - 2 * zlen s)) = len - 12 - 2 * zlen s) by (apply zlen_slice; lia).
    set (odd := slice d (12 + 2 * zlen s) (len - 12 - 2 * zlen s)) in *. clearbody odd.
    assert (Lw : zlen (wide s ++ odd) = len - 12) by (rewrite zlen_app, zlen_wide; lia).
    assert (holds d 0 (le 4 ty ++ le 4 (12 + zlen (wide s ++ odd)) ++ [flag] ++ res ++ wide s ++ odd)) as Hd.
    { rewrite !holds_app, !zlen_le, L3, Lw, zlen_wide. change (0 + Z.of_nat 4) with 4. change (4 + Z.of_nat 4) with 8. change (8 + zlen [flag]) with 9. change (9 + 3) with 12. replace (12 + (len - 12)) with len by lia. do 4 (split; [assumption|]). auto. }
    apply holds_start in Hd as [rest Ed]. assert (zlen d = len + zlen rest) as Ld by (rewrite Ed at 1; rewrite !zlen_app, !zlen_le, L3 in *; change (zlen [flag]) with 1; lia).
    rewrite Ed. rewrite <- !app_assoc. cbn [app]. apply d_misc_unicode; try assumption; [lia|lia|rewrite app_assoc, zlen_app; lia|apply strip_trimmed].
Qed.
Lemma misc_from d a : describes 4 d a -> misc_info d = Ok a.
Proof.
  intros H. remember 4 as t eqn:Et. destruct H as [| | |ty res body text rest Ut L3 Ul Lr T|ty flag res s text odd rest Ut Uf F L3 W Lo Ul Lr T| |ty d N1 N2 N3]; try discriminate Et.
  - set (d := le 4 ty ++ le 4 (12 + zlen body) ++ 0 :: res ++ body ++ rest). assert (Hd : holds d 0 (le 4 ty ++ le 4 (12 + zlen body) ++ [0] ++ res ++ body)).
    { apply stands_holds. exists [], rest. split; [|reflexivity]. cbn [app]. rewrite <- !app_assoc. cbn [app]. rewrite <- !app_assoc. reflexivity. }
    assert (Ld : zlen d = 12 + zlen body + zlen rest) by (unfold d; rewrite !zlen_app, !zlen_le, zlen_cons, !zlen_app, L3; lia). rewrite zlen_app in Lr. pose proof (zlen_nonneg body) as Zb. pose proof (zlen_nonneg rest) as Zr.
    rewrite !holds_app, !zlen_le, L3 in Hd. change (0 + Z.of_nat 4) with 4 in Hd. change (4 + Z.of_nat 4) with 8 in Hd. change (8 + zlen [0]) with 9 in Hd. change (9 + 3) with 12 in Hd. destruct Hd as (H0 & H4 & H8 & H9 & H12).
    unfold misc_info. replace (zlen d <? 13) with false by lia. cbn [throw_if bind]. rewrite rd_ok by lia. cbn [bind]. cbv zeta. rewrite !slice_slice by lia. change (0 + 4) with 4. change (0 + 0) with 0. change (0 + 8) with 8.
    assert (U12 : is_u32 (12 + zlen body)) by (unfold is_u32; lia). rewrite (field4 d 0 ty Ut H0). rewrite (field4 d 4 _ U12 H4). rewrite (holds_slice d 8 [0] 1 H8 eq_refl).
    replace (zlen d <? 12 + zlen body) with false by lia. replace (12 + zlen body <? 12) with false by lia. cbn [throw_if bind unle]. change (negb (0 + 256 * 0 =? 0)) with false. cbv iota.
    replace (12 + zlen body - 12) with (zlen body) by lia. rewrite rd_ok by lia. cbn [bind]. rewrite (holds_slice d 12 body _ H12 eq_refl). rewrite <- (trimmed_unique _ _ T). reflexivity.
  - set (d := le 4 ty ++ le 4 (12 + zlen (wide s ++ odd)) ++ flag :: res ++ wide s ++ odd ++ rest). assert (Hd : holds d 0 (le 4 ty ++ le 4 (12 + zlen (wide s ++ odd)) ++ [flag] ++ res ++ wide s ++ odd)).
    { apply stands_holds. exists [], rest. split; [|reflexivity]. cbn [app]. rewrite <- !app_assoc. cbn [app]. rewrite <- !app_assoc. reflexivity. }
    assert (Ld : zlen d = 12 + 2 * zlen s + zlen odd + zlen rest) by (unfold d; rewrite !zlen_app, !zlen_le, zlen_cons, !zlen_app, zlen_wide, L3; lia). rewrite !zlen_app, zlen_wide in *. pose proof (zlen_nonneg s) as Zb. pose proof (zlen_nonneg rest) as Zr.
    rewrite !holds_app, !zlen_le, L3 in Hd. change (0 + Z.of_nat 4) with 4 in Hd. change (4 + Z.of_nat 4) with 8 in Hd. change (8 + zlen [flag]) with 9 in Hd. change (9 + 3) with 12 in Hd. destruct Hd as (H0 & H4 & H8 & H9 & H12 & _).
    unfold misc_info. replace (zlen d <? 13) with false by lia. cbn [throw_if bind]. rewrite rd_ok by lia. cbn [bind]. cbv zeta. rewrite !slice_slice by lia. change (0 + 4) with 4. change (0 + 0) with 0. change (0 + 8) with 8.
    assert (U12 : is_u32 (12 + (2 * zlen s + zlen odd))) by (unfold is_u32; lia). rewrite (field4 d 0 ty Ut H0). rewrite (field4 d 4 _ U12 H4). rewrite (holds_slice d 8 [flag] 1 H8 eq_refl).
    replace (zlen d <? 12 + (2 * zlen s + zlen odd)) with false by lia. replace (12 + (2 * zlen s + zlen odd) <? 12) with false by lia. cbn [throw_if bind unle].
    replace (flag + 256 * 0 =? 0) with false by lia. cbn [negb].
    replace ((12 + (2 * zlen s + zlen odd) - 12) / 2) with (zlen s) by lia. rewrite rd_units_ok by assumption. cbn [bind]. rewrite <- (trimmed_unique _ _ T). reflexivity.
  - contradiction.
Qed.
