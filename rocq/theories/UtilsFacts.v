(** Lemmas about UtilsModel.v. *)
From Verif Require Export BaseFacts UtilsModel SpecUtils.

Lemma land_mod_r w x y : 0 <= w -> 0 <= x < 2^w -> Z.land x (y mod 2^w) = Z.land x y.
Proof.
  intros Hw Hx.
  rewrite <- Z.land_ones by lia. rewrite Z.land_assoc, (Z.land_comm x y), <- Z.land_assoc.
  rewrite Z.land_ones, Z.mod_small by lia. reflexivity.
Qed.
Lemma align_down_w_spec w x k :
  0 <= k < w -> 0 <= x < 2^w -> align_down_w w x (2^k) = x - x mod 2^k.
Proof.
  intros Hk Hx. unfold align_down_w.
  assert (0 < 2^k) by (apply Z.pow_pos_nonneg; lia).
  assert (2^k < 2^w) by (apply Z.pow_lt_mono_r; lia).
  rewrite (Z.mod_small (2^k)) by lia.
  rewrite land_mod_r by lia.
  replace (2^k - 1) with (Z.ones k) by (rewrite Z.ones_equiv; lia).
  rewrite <- Z.ldiff_land, Z.ldiff_ones_r by lia.
  rewrite Z.shiftl_mul_pow2, Z.shiftr_div_pow2 by lia.
  pose proof (Z.div_mod x (2^k)); lia.
Qed.
Lemma align_up_mask w x k :
  0 <= k < w -> k <= 31 -> 0 <= x < 2^w -> Z.land x (u32 (2^k - 1) mod 2^w) = x mod 2^k.
Proof.
  intros Hk H31 Hx.
  assert (0 < 2^k) by (apply Z.pow_pos_nonneg; lia).
  assert (2^k <= 2^31) by (apply Z.pow_le_mono_r; lia).
  assert (2^k < 2^w) by (apply Z.pow_lt_mono_r; lia).
  rewrite u32_small by lia. rewrite (Z.mod_small (2^k - 1)) by lia.
  replace (2^k - 1) with (Z.ones k) by (rewrite Z.ones_equiv; lia).
  apply Z.land_ones; lia.
Qed.
Lemma align_up_w_spec w x k :
  0 <= k < w -> k <= 31 -> 0 <= x < 2^w ->
  align_up_w w x (2^k) =
    if x mod 2^k =? 0 then x else (x - x mod 2^k + 2^k) mod 2^w.
Proof.
  intros Hk H31 Hx. unfold align_up_w. rewrite align_up_mask by lia.
  destruct (x mod 2^k =? 0) eqn:E; [reflexivity|].
  rewrite align_down_w_spec by lia.
  assert (2^k < 2^w) by (apply Z.pow_lt_mono_r; lia).
  assert (0 < 2^k) by (apply Z.pow_pos_nonneg; lia).
  rewrite (Z.mod_small (2^k)) by lia. reflexivity.
Qed.

(** Rounding up as an arithmetic function. *)
Lemma ceil_mult_spec x a : 0 < a ->
  ceil_mult x a = if x mod a =? 0 then x else x - x mod a + a.
Proof.
  intros Ha. unfold ceil_mult.
  pose proof (Z.div_mod x a ltac:(lia)) as Hd.
  pose proof (Z.mod_pos_bound x a Ha) as Hm.
  destruct (x mod a =? 0) eqn:E.
  - replace (x + a - 1) with (a - 1 + (x / a) * a) by lia.
    rewrite Z.div_add by lia. rewrite (Z.div_small (a - 1)) by lia. lia.
  - replace (x + a - 1) with (x mod a - 1 + (x / a + 1) * a) by lia.
    rewrite Z.div_add by lia. rewrite (Z.div_small (x mod a - 1)) by lia. lia.
Qed.
Lemma ceil_mult_least x a : 0 < a ->
  (a | ceil_mult x a) /\ x <= ceil_mult x a /\ ceil_mult x a < x + a /\
  forall m, (a | m) -> x <= m -> ceil_mult x a <= m.
Proof.
  intros Ha. pose proof (ceil_mult_spec x a Ha) as E.
  pose proof (Z.mod_pos_bound x a Ha) as Hm.
  assert (B : x <= ceil_mult x a /\ ceil_mult x a < x + a).
  { rewrite E; destruct (x mod a =? 0) eqn:E1; lia. }
  split; [exists ((x + a - 1) / a); reflexivity|].
  split; [lia|]. split; [lia|].
  intros m [q Hq] Hx. unfold ceil_mult in *. subst m.
  apply Z.mul_le_mono_nonneg_r; [lia|].
  apply Z.lt_succ_r. apply Z.div_lt_upper_bound; lia.
Qed.
Lemma ceil_mult_mod x a : 0 < a -> ceil_mult x a mod a = 0.
Proof. intros; unfold ceil_mult; apply Z.mod_mul; lia. Qed.
Lemma ceil_mult_id x a : 0 < a -> x mod a = 0 -> ceil_mult x a = x.
Proof. intros Ha H; rewrite ceil_mult_spec by lia; rewrite H; reflexivity. Qed.
Lemma ceil_mult_mono x y a : 0 < a -> x <= y -> ceil_mult x a <= ceil_mult y a.
Proof.
  intros. unfold ceil_mult. apply Z.mul_le_mono_nonneg_r; [lia|].
  apply Z.div_le_mono; lia.
Qed.

(** Powers of two. *)
Notation pow2 := power_of_two.
Lemma is_power_of_2_spec x : 0 < x < 2^32 -> (is_power_of_2 x = true <-> pow2 x).
Proof.
  intros Hx. unfold is_power_of_2. rewrite u32_small by lia. rewrite Z.eqb_eq. split.
  - intros H. set (k := Z.log2 x).
    assert (Hk0 : 0 <= k) by apply Z.log2_nonneg.
    pose proof (Z.log2_spec x ltac:(lia)) as [H1 H2]. fold k in H1, H2.
    exists k; split; [lia|].
    destruct (Z.eq_dec x (2^k)) as [|Hne]; [assumption|exfalso].
    assert (B1 : Z.testbit x k = true) by (unfold k; apply Z.bit_log2; lia).
    assert (B2 : Z.testbit (x - 1) k = true).
    { assert (Hl : Z.log2 (x - 1) = k) by (apply Z.log2_unique; lia).
      rewrite <- Hl. apply Z.bit_log2.
      assert (0 < 2^k) by (apply Z.pow_pos_nonneg; lia). lia. }
    assert (B3 : Z.testbit (Z.land x (x - 1)) k = true) by (rewrite Z.land_spec, B1, B2; reflexivity).
    rewrite H, Z.testbit_0_l in B3. discriminate.
  - intros [k [Hk ->]].
    replace (2^k - 1) with (Z.ones k) by (rewrite Z.ones_equiv; lia).
    rewrite Z.land_ones by lia. apply Z.mod_same. lia.
Qed.
Lemma pow2_lt32 a : pow2 a -> a < 2^32 -> exists k, 0 <= k <= 31 /\ a = 2^k.
Proof.
  intros [k [Hk ->]] H. exists k; split; [|reflexivity].
  destruct (Z.le_gt_cases k 31); [lia|].
  assert (2^32 <= 2^k) by (apply Z.pow_le_mono_r; lia). lia.
Qed.
Lemma pow2_pos a : pow2 a -> 0 < a.
Proof. intros [k [Hk ->]]; apply Z.pow_pos_nonneg; lia. Qed.
Lemma pow2_divide a b : pow2 a -> pow2 b -> a <= b -> (a | b).
Proof.
  intros [j [Hj ->]] [k [Hk ->]] H.
  assert (j <= k) by (apply (Z.pow_le_mono_r_iff 2); lia).
  exists (2^(k - j)). rewrite <- Z.pow_add_r by lia. f_equal; lia.
Qed.

Lemma align_up_pow2 x a : pow2 a -> a < 2^32 -> 0 <= x < 2^32 -> align_up x a = u32 (ceil_mult x a).
Proof.
  intros Hp Ha Hx. destruct (pow2_lt32 _ Hp Ha) as [k [Hk ->]].
  unfold align_up. rewrite align_up_w_spec by lia.
  rewrite ceil_mult_spec by (apply Z.pow_pos_nonneg; lia).
  destruct (x mod 2^k =? 0); [rewrite u32_small by lia; reflexivity|reflexivity].
Qed.
Lemma align_up64_pow2 x a : pow2 a -> a < 2^32 -> 0 <= x < 2^64 -> align_up64 x a = u64 (ceil_mult x a).
Proof.
  intros Hp Ha Hx. destruct (pow2_lt32 _ Hp Ha) as [k [Hk ->]].
  unfold align_up64. rewrite align_up_w_spec by lia.
  rewrite ceil_mult_spec by (apply Z.pow_pos_nonneg; lia).
  destruct (x mod 2^k =? 0); [rewrite u64_small by lia; reflexivity|reflexivity].
Qed.
Lemma align_up16_pow2 x k : 0 <= k < 16 -> 0 <= x < 2^16 -> align_up16 x (2^k) = u16 (ceil_mult x (2^k)).
Proof.
  intros Hk Hx.
  unfold align_up16. rewrite align_up_w_spec by lia.
  rewrite ceil_mult_spec by (apply Z.pow_pos_nonneg; lia).
  destruct (x mod 2^k =? 0); [rewrite u16_small by lia; reflexivity|reflexivity].
Qed.
Lemma align_down_pow2 x a : pow2 a -> a < 2^32 -> 0 <= x < 2^32 -> align_down x a = x - x mod a.
Proof.
  intros Hp Ha Hx. destruct (pow2_lt32 _ Hp Ha) as [k [Hk ->]].
  apply align_down_w_spec; lia.
Qed.
(** The value when it fits; otherwise zero. *)
Lemma ceil_mult_bound32 x a : pow2 a -> a < 2^32 -> 0 <= x < 2^32 -> ceil_mult x a <= 2^32.
Proof.
  intros Hp Ha Hx. apply ceil_mult_least; [apply pow2_pos; assumption| |lia].
  apply pow2_divide; [assumption|exists 32; split; [lia|reflexivity]|lia].
Qed.
Lemma align_up_small x a : pow2 a -> a < 2^32 -> 0 <= x -> ceil_mult x a < 2^32 -> align_up x a = ceil_mult x a.
Proof.
  intros Hp Ha Hx Hc. pose proof (pow2_pos _ Hp).
  pose proof (ceil_mult_least x a ltac:(assumption)) as [_ [L _]].
  rewrite align_up_pow2 by (try assumption; lia). apply u32_small; lia.
Qed.
Lemma align_up_range x a : 0 <= x < 2^32 -> 0 <= align_up x a < 2^32.
Proof.
  intros; unfold align_up, align_up_w. destruct (Z.land _ _ =? 0); [assumption|].
  apply Z.mod_pos_bound; lia.
Qed.

Lemma is_sum_safe_spec a b : 0 <= b < 2^32 -> (is_sum_safe a b = true <-> a + b < 2^32).
Proof.
  intros Hb. unfold is_sum_safe, max_dword. rewrite u32_small by lia. rewrite Z.leb_le. lia.
Qed.

(** strip_nullbytes and C strings *)
Lemma drop_leading0_split l : exists n, l = repeat 0 n ++ drop_leading0 l.
Proof.
  induction l as [|b t [n IH]]; [exists O; reflexivity|].
  cbn [drop_leading0]. destruct (Z.eqb_spec b 0) as [->|].
  - exists (S n). cbn [repeat app]. rewrite <- IH. reflexivity.
  - exists O; reflexivity.
Qed.
Lemma drop_leading0_hd l b t : drop_leading0 l = b :: t -> b <> 0.
Proof.
  induction l as [|c u IH]; cbn [drop_leading0]; [discriminate|].
  destruct (Z.eqb_spec c 0); [apply IH|]. intros E; inversion E; subst; assumption.
Qed.
Lemma leading0_count_drop l : zlen l = leading0_count l + zlen (drop_leading0 l).
Proof.
  induction l as [|b t IH]; [reflexivity|].
  cbn [leading0_count drop_leading0]. destruct (b =? 0); [|lia].
  rewrite zlen_cons; lia.
Qed.

(** ** C01, C02 *)
Lemma align_up_fits x a :
  is_u32 x -> is_u32 a -> power_of_two a ->
  (exists m, (a | m) /\ x <= m < 2^32) -> least_multiple_above x a (align_up x a).
Proof.
  unfold is_u32; intros Hx Ha Hp [m [Hm Hb]].
  pose proof (ceil_mult_least x a (pow2_pos _ Hp)) as (C1 & C2 & C3 & C4).
  rewrite align_up_small; [repeat split; assumption|assumption|lia|lia|].
  pose proof (C4 m Hm); lia.
Qed.
Lemma align_up_wraps x a :
  is_u32 x -> is_u32 a -> power_of_two a ->
  (forall m, (a | m) -> x <= m -> 2^32 <= m) -> align_up x a = 0.
Proof.
  unfold is_u32; intros Hx Ha Hp H.
  pose proof (ceil_mult_least x a (pow2_pos _ Hp)) as (C1 & C2 & C3 & C4).
  rewrite align_up_pow2 by (try assumption; lia).
  pose proof (ceil_mult_bound32 x a Hp ltac:(lia) Hx). pose proof (H _ C1 C2).
  replace (ceil_mult x a) with (2^32) by lia. reflexivity.
Qed.
Lemma align_down_ok x a :
  is_u32 x -> is_u32 a -> power_of_two a -> greatest_multiple_below x a (align_down x a).
Proof.
  unfold is_u32; intros Hx Ha Hp. pose proof (pow2_pos _ Hp).
  rewrite align_down_pow2 by (try assumption; lia).
  assert (E : x - x mod a = a * (x / a)) by (pose proof (Z.div_mod x a); lia).
  repeat split.
  - exists (x / a). lia.
  - pose proof (Z.mod_pos_bound x a); lia.
  - intros m [q ->] Hm. rewrite E. rewrite Z.mul_comm.
    apply Z.mul_le_mono_nonneg_l; [lia|]. apply Z.div_le_lower_bound; lia.
Qed.
Lemma is_sum_safe_exact a b :
  is_u32 a -> is_u32 b -> (is_sum_safe a b = true <-> u32 (a + b) = a + b).
Proof.
  unfold is_u32; intros Ha Hb. rewrite is_sum_safe_spec by assumption. split; intros H.
  - apply u32_small; lia.
  - unfold u32 in H. pose proof (Z.mod_pos_bound (a+b) (2^32)); lia.
Qed.
