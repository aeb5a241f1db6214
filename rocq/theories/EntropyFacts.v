(** Proofs about entropy. *)
From Coq Require Import Lra FinFun.
From Verif Require Export SpecEntropy SectionFacts.

Lemma nth_upd_same {A} (l : list A) i x d : (i < length l)%nat -> nth i (upd l i x) d = x.
Proof. intros H. apply nth_error_nth with (d := d). apply nth_error_upd_same, H. Qed.
Lemma nth_upd_other {A} (l : list A) i j x d : i <> j -> nth j (upd l i x) d = nth j l d.
Proof. revert i j. induction l as [|h t IH]; intros [|i] [|j] H; cbn [upd nth]; try reflexivity; try congruence. apply IH. congruence. Qed.
Lemma count_byte_length h b : length (count_byte h b) = length h.
Proof. apply upd_length. Qed.
Lemma histogram_length d : forall h, length (histogram_from h d) = length h.
Proof. unfold histogram_from. induction d as [|b d IH]; intros h; cbn [fold_left]; [reflexivity|]. rewrite IH. apply count_byte_length. Qed.
Lemma histogram_nth d : bytes d -> forall h k, length h = 256%nat -> (k < 256)%nat -> (forall j, 0 <= nth j h 0) -> nth k h 0 + zlen d < 2^32 ->
  nth k (histogram_from h d) 0 = nth k h 0 + occurrences (Z.of_nat k) d.
Proof.
  unfold histogram_from, occurrences. induction d as [|b d IH]; intros B h k L K P M; cbn [fold_left count_occ]; [lia|].
  apply Forall_cons_iff in B as [Bb B]. rewrite zlen_cons in M. pose proof (zlen_nonneg d) as Zd.
  destruct (Z.eq_dec b (Z.of_nat k)) as [->|N].
  - assert (E : nth k (count_byte h (Z.of_nat k)) 0 = nth k h 0 + 1).
    { unfold count_byte. rewrite Nat2Z.id, nth_upd_same by lia. specialize (P k). apply u32_small. lia. }
    rewrite IH; [rewrite E; lia|exact B|rewrite count_byte_length; exact L|exact K| |rewrite E; lia].
    intros j. unfold count_byte. destruct (Nat.eq_dec j (Z.to_nat (Z.of_nat k))) as [->|Nj]; [rewrite nth_upd_same by lia; apply u32_range|rewrite nth_upd_other by congruence; apply P].
  - assert (E : nth k (count_byte h b) 0 = nth k h 0) by (unfold count_byte; apply nth_upd_other; lia).
    rewrite IH; [rewrite E; lia|exact B|rewrite count_byte_length; exact L|exact K| |rewrite E; lia].
    intros j. unfold count_byte. destruct (Nat.eq_dec j (Z.to_nat b)) as [->|Nj]; [rewrite nth_upd_same by lia; apply u32_range|rewrite nth_upd_other by congruence; apply P].
Qed.
Lemma list_nth_map {A} (l : list A) d : l = map (fun k => nth k l d) (seq 0 (length l)).
Proof.
  apply nth_ext with (d := d) (d' := nth 0 l d); [rewrite map_length, seq_length; reflexivity|]. intros n Hn.
  rewrite (map_nth (fun k => nth k l d)). rewrite seq_nth by exact Hn. reflexivity.
Qed.
Lemma histogram_counts d : bytes d -> zlen d < 2^32 -> histogram_from byte_count0 d = map (fun b => occurrences b d) all_bytes.
Proof.
  intros B L. rewrite (list_nth_map (histogram_from byte_count0 d) 0) at 1. rewrite histogram_length. change (length byte_count0) with 256%nat. unfold all_bytes. rewrite map_map.
  apply map_ext_in. intros k Hk. apply in_seq in Hk. pose proof (zlen_nonneg d).
  assert (Z0 : forall j, nth j byte_count0 0 = 0).
  { intros j. unfold byte_count0. destruct (Nat.lt_ge_cases j 256) as [G|G]; [|apply nth_overflow; rewrite repeat_length; exact G].
    apply (@repeat_spec Z 256 0). apply nth_In. rewrite repeat_length. exact G. }
  rewrite histogram_nth; [rewrite Z0; lia|exact B|reflexivity|lia|intros j; rewrite Z0; lia|rewrite Z0; lia].
Qed.
Lemma zsum_app a b : zsum (a ++ b) = zsum a + zsum b.
Proof. induction a as [|x a IH]; cbn [app zsum]; [reflexivity|]. rewrite IH. lia. Qed.
Lemma zsum_indicator b : forall l, NoDup l -> zsum (map (fun x => if Z.eq_dec b x then 1 else 0) l) = if in_dec Z.eq_dec b l then 1 else 0.
Proof.
  induction l as [|x l IH]; intros N; [reflexivity|]. inversion N as [|x' l' Nx Nl]; subst. cbn [map zsum]. rewrite IH by exact Nl.
  destruct (Z.eq_dec b x) as [->|Nb].
  - destruct (in_dec Z.eq_dec x l) as [G|G]; [contradiction|]. destruct (in_dec Z.eq_dec x (x :: l)) as [|G2]; [lia|]. exfalso; apply G2; left; reflexivity.
  - destruct (in_dec Z.eq_dec b l) as [G|G]; destruct (in_dec Z.eq_dec b (x :: l)) as [G2|G2]; try lia.
    + exfalso; apply G2; right; exact G.
    + destruct G2 as [G2|G2]; [congruence|contradiction].
Qed.
Lemma all_bytes_nodup : NoDup all_bytes.
Proof. apply Injective_map_NoDup; [intros a b H; lia|apply seq_NoDup]. Qed.
Lemma all_bytes_in b : 0 <= b < 256 -> In b all_bytes.
Proof. intros H. apply in_map_iff. exists (Z.to_nat b). split; [lia|]. apply in_seq. lia. Qed.
Lemma zsum_add {A} (f g : A -> Z) l : zsum (map (fun x => f x + g x) l) = zsum (map f l) + zsum (map g l).
Proof. induction l as [|x l IH]; cbn [map zsum]; [reflexivity|]. rewrite IH. lia. Qed.
Lemma occurrences_sum d : bytes d -> zsum (map (fun b => occurrences b d) all_bytes) = zlen d.
Proof.
  unfold occurrences. induction d as [|b d IH]; intros B.
  - cbn [count_occ]. clear. unfold all_bytes. generalize (seq 0 256) as l. induction l as [|x l IH]; [reflexivity|]. cbn [map zsum]. change (@zlen Z []) with 0 in *. rewrite IH. reflexivity.
  - apply Forall_cons_iff in B as [Bb B]. rewrite zlen_cons, <- (IH B). rewrite (map_ext _ (fun x => (if Z.eq_dec b x then 1 else 0) + Z.of_nat (count_occ Z.eq_dec d x))).
    + rewrite zsum_add, zsum_indicator by apply all_bytes_nodup. destruct (in_dec Z.eq_dec b all_bytes) as [|G]; [lia|]. exfalso. apply G, all_bytes_in, Bb.
    + intros x. cbn [count_occ]. destruct (Z.eq_dec b x); lia.
Qed.

Local Open Scope R_scope.
Lemma ln2_pos : 0 < ln 2.
Proof. rewrite <- ln_1. apply ln_increasing; lra. Qed.
Lemma contribution_ge p : 0 <= p <= 1 -> 0 <= contribution p.
Proof.
  intros H. unfold contribution. destruct (Req_EM_T p 0) as [E|N]; [lra|].
  assert (Hl : ln p <= 0). { destruct (Req_dec p 1) as [->|N1]; [rewrite ln_1; lra|]. left. rewrite <- ln_1. apply ln_increasing; lra. }
  pose proof ln2_pos. assert (0 < / ln 2) by (apply Rinv_0_lt_compat; assumption). unfold Rdiv. rewrite Ropp_mult_distr_l_reverse, <- Ropp_mult_distr_r_reverse, <- Ropp_mult_distr_l_reverse.
  apply Rmult_le_pos; [lra|]. apply Rmult_le_pos; lra.
Qed.
Lemma contribution_zero p : 0 <= p <= 1 -> contribution p = 0 -> p = 0 \/ p = 1.
Proof.
  intros H E. unfold contribution in E. destruct (Req_EM_T p 0) as [E0|N]; [left; exact E0|right]. pose proof ln2_pos as L2.
  assert (0 < / ln 2) by (apply Rinv_0_lt_compat; assumption).
  assert (Q : p * (ln p / ln 2) = 0) by lra. apply Rmult_integral in Q as [Q|Q]; [lra|]. unfold Rdiv in Q. apply Rmult_integral in Q as [Q|Q]; [|lra].
  apply ln_inv; [lra|lra|]. rewrite ln_1. exact Q.
Qed.
Lemma contribution_abs t : 0 < t <= 1 -> Rabs (t * (ln t * log_2)) = contribution t.
Proof.
  intros H. pose proof (contribution_ge t ltac:(lra)) as G. unfold contribution in *. destruct (Req_EM_T t 0) as [|N]; [lra|]. unfold log_2.
  replace (t * (ln t * (1 / ln 2))) with (- (- t * (ln t / ln 2))) by (pose proof ln2_pos; field; lra). rewrite Rabs_Ropp. apply Rabs_right. lra.
Qed.
Lemma entropy_fold n : forall l e, (forall c, In c l -> (0 <= c <= n)%Z) -> (0 < n)%Z ->
  fold_left (fun e c => let t := (IZR c / IZR n) in if Rlt_dec 0 t then e + Rabs (t * (ln t * log_2)) else e) l e = e + rsum (map (fun c => contribution (IZR c / IZR n)) l).
Proof.
  induction l as [|c l IH]; intros e H Hn; cbn [fold_left map rsum]; [lra|]. rewrite IH by (try exact Hn; intros x Hx; apply H; right; exact Hx).
  pose proof (H c (or_introl eq_refl)) as Hc. assert (N : 0 < IZR n) by (apply (IZR_lt 0); lia).
  assert (C0 : 0 <= IZR c / IZR n <= 1).
  { split; [apply Rmult_le_pos; [apply (IZR_le 0); lia|left; apply Rinv_0_lt_compat, N]|]. apply (Rmult_le_reg_r (IZR n)); [exact N|]. unfold Rdiv. rewrite Rmult_assoc, Rinv_l by lra. rewrite Rmult_1_r, Rmult_1_l. apply IZR_le. lia. }
  cbv zeta. destruct (Rlt_dec 0 (IZR c / IZR n)) as [P|P].
  - rewrite contribution_abs by lra. lra.
  - assert (IZR c / IZR n = 0) as -> by lra. unfold contribution. destruct (Req_EM_T 0 0); lra.
Qed.
Lemma occurrences_range b d : (0 <= occurrences b d <= zlen d)%Z.
Proof. unfold occurrences, zlen. pose proof (count_occ_bound Z.eq_dec b d). lia. Qed.
Lemma entropy_shannon d : bytes d -> (0 < zlen d < 2^32)%Z -> calculate_entropy d = Ok (shannon d).
Proof.
  intros B L. unfold calculate_entropy. replace (zlen d =? 0)%Z with false by lia. cbn [throw_if bind]. f_equal. unfold entropy_of. rewrite histogram_counts by (try assumption; lia).
  rewrite entropy_fold; [|intros c Hc; apply in_map_iff in Hc as (b & <- & _); apply occurrences_range|lia]. rewrite map_map. unfold shannon, share. lra.
Qed.
Lemma share_range d b : (0 < zlen d)%Z -> 0 <= share d b <= 1.
Proof.
  intros L. pose proof (occurrences_range b d) as [O1 O2]. assert (N : 0 < IZR (zlen d)) by (apply (IZR_lt 0); lia). unfold share, Rdiv.
  split; [apply Rmult_le_pos; [apply (IZR_le 0); lia|left; apply Rinv_0_lt_compat, N]|]. apply (Rmult_le_reg_r (IZR (zlen d))); [exact N|]. rewrite Rmult_assoc, Rinv_l by lra. rewrite Rmult_1_r, Rmult_1_l. apply IZR_le. lia.
Qed.
Lemma rsum_shares d : bytes d -> (0 < zlen d)%Z -> forall l, rsum (map (share d) l) = IZR (zsum (map (fun b => occurrences b d) l)) / IZR (zlen d).
Proof.
  intros B L. assert (N : 0 < IZR (zlen d)) by (apply (IZR_lt 0); lia). induction l as [|b l IH]; cbn [map rsum zsum]; [unfold Rdiv; lra|]. rewrite IH, plus_IZR. unfold share. field. lra.
Qed.
Lemma shares_one d : bytes d -> (0 < zlen d)%Z -> rsum (map (share d) all_bytes) = 1.
Proof. intros B L. rewrite rsum_shares, occurrences_sum by assumption. apply Rinv_r. apply Rgt_not_eq. apply (IZR_lt 0). lia. Qed.
Lemma rsum_ge {A} (f : A -> R) l : (forall x, In x l -> 0 <= f x) -> 0 <= rsum (map f l).
Proof. induction l as [|x l IH]; intros H; cbn [map rsum]; [lra|]. pose proof (H x (or_introl eq_refl)). specialize (IH (fun y Hy => H y (or_intror Hy))). lra. Qed.
Lemma rsum_zero {A} (f : A -> R) l : (forall x, In x l -> 0 <= f x) -> rsum (map f l) = 0 -> forall x, In x l -> f x = 0.
Proof.
  induction l as [|x l IH]; intros H E y Hy; [destruct Hy|]. cbn [map rsum] in E. pose proof (H x (or_introl eq_refl)) as Hx. pose proof (rsum_ge f l (fun z Hz => H z (or_intror Hz))) as Hl.
  destruct Hy as [->|Hy]; [lra|]. apply IH; [intros z Hz; apply H; right; exact Hz|lra|exact Hy].
Qed.
Lemma rsum_le {A} (f g : A -> R) l : (forall x, In x l -> f x <= g x) -> rsum (map f l) <= rsum (map g l).
Proof. induction l as [|x l IH]; intros H; cbn [map rsum]; [lra|]. pose proof (H x (or_introl eq_refl)). specialize (IH (fun y Hy => H y (or_intror Hy))). lra. Qed.
Lemma ln_le_minus x : 0 < x -> ln x <= x - 1.
Proof. intros H. pose proof (exp_ineq1_le (ln x)) as E. rewrite exp_ln in E by exact H. lra. Qed.
(** Gibbs: each contribution is at most 8 p + (1/256 - p) / ln 2. *)
Lemma contribution_le p : 0 <= p <= 1 -> contribution p <= 8 * p + (/ 256 - p) * / ln 2.
Proof.
  intros H. pose proof ln2_pos as L2. assert (I2 : 0 < / ln 2) by (apply Rinv_0_lt_compat; assumption).
  unfold contribution. destruct (Req_EM_T p 0) as [->|N].
  - rewrite Rmult_0_r, Rminus_0_r, Rplus_0_l. apply Rmult_le_pos; lra.
  - assert (P : 0 < p) by lra. assert (Q : ln (/ 256 * / p) = - (8 * ln 2) - ln p).
    { assert (0 < / p) by (apply Rinv_0_lt_compat, P). rewrite ln_mult by lra. rewrite !ln_Rinv by lra.
      replace 256 with (2 ^ 8) by lra. assert (E : ln (2 ^ 8) = 8 * ln 2) by (rewrite <- Rpower_pow by lra; unfold Rpower; rewrite ln_exp; cbn [INR]; lra). rewrite E. lra. }
    assert (G : ln (/ 256 * / p) <= / 256 * / p - 1) by (apply ln_le_minus; apply Rmult_lt_0_compat; [lra|apply Rinv_0_lt_compat, P]).
    rewrite Q in G. assert (M : p * (- (8 * ln 2) - ln p) <= p * (/ 256 * / p - 1)) by (apply Rmult_le_compat_l; lra).
    replace (p * (/ 256 * / p - 1)) with (/ 256 - p) in M by (field; lra).
    assert (M2 : - p * ln p <= 8 * p * ln 2 + (/ 256 - p)) by lra.
    apply (Rmult_le_compat_r (/ ln 2)) in M2; [|lra]. replace ((8 * p * ln 2 + (/ 256 - p)) * / ln 2) with (8 * p + (/ 256 - p) * / ln 2) in M2 by (field; lra).
    unfold Rdiv. rewrite <- Rmult_assoc. exact M2.
Qed.
Lemma rsum_plus {A} (f g : A -> R) l : rsum (map (fun x => f x + g x) l) = rsum (map f l) + rsum (map g l).
Proof. induction l as [|x l IH]; cbn [map rsum]; [lra|]. rewrite IH. lra. Qed.
Lemma rsum_scale {A} (f : A -> R) c l : rsum (map (fun x => f x * c) l) = rsum (map f l) * c.
Proof. induction l as [|x l IH]; cbn [map rsum]; [lra|]. rewrite IH. lra. Qed.
Lemma rsum_const {A} c (l : list A) : rsum (map (fun _ => c) l) = INR (length l) * c.
Proof. induction l as [|x l IH]; cbn [map rsum length]; [cbn; lra|]. rewrite IH, S_INR. lra. Qed.
Lemma shannon_bounds d : bytes d -> (0 < zlen d)%Z -> 0 <= shannon d <= 8.
Proof.
  intros B L. split; [apply rsum_ge; intros b _; apply contribution_ge, share_range, L|].
  eapply Rle_trans; [apply rsum_le; intros b _; apply contribution_le, share_range, L|].
  rewrite (map_ext _ (fun b => share d b * 8 + (/ 256 + share d b * (-1)) * / ln 2)) by (intros b; lra).
  rewrite rsum_plus, (rsum_scale (share d)), (rsum_scale (fun b => / 256 + share d b * -1)), rsum_plus, (rsum_scale (share d)), rsum_const, shares_one by assumption.
  assert (E : INR (length all_bytes) = 256) by (unfold all_bytes; rewrite map_length, seq_length, INR_IZR_INZ; reflexivity). rewrite E.
  replace ((256 * / 256 + 1 * -1) * / ln 2) with 0 by (field; pose proof ln2_pos; lra). lra.
Qed.
Lemma shannon_zero d : bytes d -> (0 < zlen d)%Z -> (shannon d = 0 <-> exists b, Forall (eq b) d).
Proof.
  intros B L. assert (N : 0 < IZR (zlen d)) by (apply (IZR_lt 0); lia). split.
  - intros E. destruct d as [|b d]; [change (@zlen Z []) with 0%Z in L; lia|]. exists b. pose proof B as B'. apply Forall_cons_iff in B as [Bb _].
    pose proof (rsum_zero _ _ (fun x _ => contribution_ge _ (share_range (b :: d) x L)) E b (all_bytes_in b Bb)) as Z0.
    apply contribution_zero in Z0; [|apply share_range, L]. destruct Z0 as [Z0|Z0].
    + exfalso. unfold share, Rdiv in Z0. apply Rmult_integral in Z0 as [Z0|Z0]; [|apply Rinv_neq_0_compat in Z0; lra].
      apply eq_IZR in Z0. unfold occurrences in Z0. cbn [count_occ] in Z0. destruct (Z.eq_dec b b); [lia|congruence].
    + unfold share in Z0. assert (E1 : IZR (occurrences b (b :: d)) = IZR (zlen (b :: d))).
      { unfold Rdiv in Z0. apply (f_equal (fun x => x * IZR (zlen (b :: d)))) in Z0. rewrite Rmult_assoc, Rinv_l in Z0 by lra. lra. }
      apply eq_IZR in E1. unfold occurrences, zlen in E1. apply Nat2Z.inj in E1. clear -E1. revert E1. generalize (b :: d) as l. induction l as [|x l IH]; intros E; [constructor|].
      cbn [count_occ length] in E. pose proof (count_occ_bound Z.eq_dec b l). destruct (Z.eq_dec x b) as [->|]; [constructor; [reflexivity|apply IH; lia]|lia].
  - intros [b F]. unfold shannon. rewrite (map_ext _ (fun _ => 0)); [rewrite rsum_const; lra|]. intros x. unfold share.
    assert (O : occurrences x d = if Z.eq_dec b x then zlen d else 0%Z).
    { clear -F. unfold occurrences, zlen. induction F as [|y l <- F IH]; [destruct (Z.eq_dec b x); reflexivity|]. cbn [count_occ length]. destruct (Z.eq_dec b x); lia. }
    rewrite O. destruct (Z.eq_dec b x).
    + unfold Rdiv. rewrite Rinv_r by lra. unfold contribution. destruct (Req_EM_T 1 0); [lra|]. rewrite ln_1. unfold Rdiv. lra.
    + unfold Rdiv. rewrite Rmult_0_l. unfold contribution. destruct (Req_EM_T 0 0); lra.
Qed.
Lemma image_entropy_all p : let d := concat (map raw_view (p_sections p)) in bytes d -> (0 < zlen d < 2^32)%Z -> image_entropy p = shannon d.
Proof.
  intros d B L. pose proof (entropy_shannon d B L) as H. unfold calculate_entropy in H. replace (zlen d =? 0)%Z with false in H by lia. cbn [throw_if bind] in H. injection H as H. rewrite <- H.
  assert (E1 : forall l h, fold_left (fun h s => histogram_from h (raw_view s)) l h = histogram_from h (concat (map raw_view l))).
  { induction l as [|s l IH]; intros h; [reflexivity|]. cbn [fold_left map concat]. rewrite IH. unfold histogram_from. rewrite fold_left_app. reflexivity. }
  assert (E2 : forall l n, fold_left (fun n s => n + zlen (raw_view s))%Z l n = (n + zlen (concat (map raw_view l)))%Z).
  { induction l as [|s l IH]; intros n; cbn [fold_left map concat]; [change (@zlen Z []) with 0%Z; lia|]. rewrite IH, zlen_app. lia. }
  unfold image_entropy. rewrite E1, E2. reflexivity.
Qed.
Lemma entropy_empty d : (calculate_entropy d = Throw data_is_empty <-> d = []) /\ forall s, raw_view s = [] -> section_entropy s = Throw section_is_empty.
Proof.
  split.
  - unfold calculate_entropy. destruct d as [|b d]; [split; reflexivity|]. rewrite zlen_cons. pose proof (zlen_nonneg d). replace (1 + zlen d =? 0)%Z with false by lia. split; discriminate.
  - intros s H. unfold section_entropy. rewrite H. reflexivity.
Qed.
