(** Lemmas about Base.v. *)
From Verif Require Export Base.
Ltac Zify.zify_post_hook ::= Z.div_mod_to_equations.

(** ** Lengths and slices *)
Lemma zlen_nonneg {A} (l : list A) : 0 <= zlen l.
Proof. unfold zlen; lia. Qed.
Lemma zlen_nil {A} : zlen (@nil A) = 0. Proof. reflexivity. Qed.
Lemma zlen_cons {A} (x : A) l : zlen (x :: l) = 1 + zlen l.
Proof. unfold zlen; cbn [length]; lia. Qed.
Lemma zlen_app {A} (l1 l2 : list A) : zlen (l1 ++ l2) = zlen l1 + zlen l2.
Proof. unfold zlen; rewrite app_length; lia. Qed.
Lemma zlen_zeros n : 0 <= n -> zlen (zeros n) = n.
Proof. intros; unfold zlen, zeros; rewrite repeat_length; lia. Qed.
Lemma zlen_zeros_max n : zlen (zeros n) = Z.max 0 n.
Proof. unfold zlen, zeros; rewrite repeat_length; lia. Qed.
Lemma zlen_ztake {A} n (l : list A) : 0 <= n <= zlen l -> zlen (ztake n l) = n.
Proof. unfold zlen, ztake; intros; rewrite firstn_length; lia. Qed.
Lemma zlen_ztake_min {A} n (l : list A) : 0 <= n -> zlen (ztake n l) = Z.min n (zlen l).
Proof. unfold zlen, ztake; intros; rewrite firstn_length; lia. Qed.
Lemma zlen_zdrop {A} n (l : list A) : 0 <= n <= zlen l -> zlen (zdrop n l) = zlen l - n.
Proof. unfold zlen, zdrop; intros; rewrite skipn_length; lia. Qed.
Lemma zlen_zdrop_max {A} n (l : list A) : 0 <= n -> zlen (zdrop n l) = Z.max 0 (zlen l - n).
Proof. unfold zlen, zdrop; intros; rewrite skipn_length; lia. Qed.
Lemma zlen_slice {A} (l : list A) off n :
  0 <= off -> 0 <= n -> off + n <= zlen l -> zlen (slice l off n) = n.
Proof. unfold zlen, slice; intros; rewrite firstn_length, skipn_length; lia. Qed.
Lemma slice_take_drop {A} (l : list A) off n : slice l off n = ztake n (zdrop off l).
Proof. reflexivity. Qed.
Lemma zlen_resize l n : 0 <= n -> zlen (resize l n) = n.
Proof.
  intros; unfold resize; destruct (Z.leb_spec n (zlen l)).
  - apply zlen_ztake; lia.
  - rewrite zlen_app, zlen_zeros; lia.
Qed.
Lemma ztake_all {A} n (l : list A) : zlen l <= n -> ztake n l = l.
Proof. unfold zlen, ztake; intros; apply firstn_all2; lia. Qed.
Lemma zdrop_all {A} n (l : list A) : zlen l <= n -> zdrop n l = [].
Proof. unfold zlen, zdrop; intros; apply skipn_all2; lia. Qed.
Lemma zdrop_0 {A} (l : list A) n : n <= 0 -> zdrop n l = l.
Proof. unfold zdrop; intros; replace (Z.to_nat n) with O by lia; reflexivity. Qed.
Lemma ztake_0 {A} (l : list A) n : n <= 0 -> ztake n l = [].
Proof. unfold ztake; intros; replace (Z.to_nat n) with O by lia; reflexivity. Qed.
Lemma ztake_zdrop {A} n (l : list A) : ztake n l ++ zdrop n l = l.
Proof. apply firstn_skipn. Qed.
Lemma ztake_app_l {A} n (l1 l2 : list A) : n <= zlen l1 -> ztake n (l1 ++ l2) = ztake n l1.
Proof.
  unfold zlen, ztake; intros; rewrite firstn_app.
  replace (Z.to_nat n - length l1)%nat with O by lia; cbn [firstn]; apply app_nil_r.
Qed.
Lemma ztake_app_r {A} n (l1 l2 : list A) :
  zlen l1 <= n -> ztake n (l1 ++ l2) = l1 ++ ztake (n - zlen l1) l2.
Proof.
  unfold zlen, ztake; intros; rewrite firstn_app, firstn_all2 by lia.
  do 2 f_equal; lia.
Qed.
Lemma zdrop_app_l {A} n (l1 l2 : list A) : n <= zlen l1 -> zdrop n (l1 ++ l2) = zdrop n l1 ++ l2.
Proof.
  unfold zlen, zdrop; intros; rewrite skipn_app.
  replace (Z.to_nat n - length l1)%nat with O by lia; reflexivity.
Qed.
Lemma zdrop_app_r {A} n (l1 l2 : list A) :
  zlen l1 <= n -> zdrop n (l1 ++ l2) = zdrop (n - zlen l1) l2.
Proof.
  unfold zlen, zdrop; intros; rewrite skipn_app, skipn_all2 by lia.
  cbn [app]; f_equal; lia.
Qed.
Lemma ztake_exact {A} (l1 l2 : list A) : ztake (zlen l1) (l1 ++ l2) = l1.
Proof. rewrite ztake_app_l by lia; apply ztake_all; lia. Qed.
Lemma zdrop_exact {A} (l1 l2 : list A) : zdrop (zlen l1) (l1 ++ l2) = l2.
Proof. rewrite zdrop_app_r by lia; apply zdrop_0; lia. Qed.
Lemma zdrop_zdrop {A} a b (l : list A) : 0 <= a -> 0 <= b -> zdrop a (zdrop b l) = zdrop (a + b) l.
Proof.
  unfold zdrop; intros. rewrite Z2Nat.inj_add by lia.
  generalize (Z.to_nat a) as x; generalize (Z.to_nat b) as y; clear; intros y x.
  revert l x; induction y as [|y IH]; intros l x.
  - rewrite Nat.add_0_r; reflexivity.
  - destruct l as [|h t]; [rewrite !skipn_nil; reflexivity|].
    rewrite Nat.add_succ_r; cbn [skipn]; apply IH.
Qed.
Lemma ztake_ztake {A} a b (l : list A) : ztake a (ztake b l) = ztake (Z.min a b) l.
Proof.
  unfold ztake; rewrite firstn_firstn; f_equal.
  destruct (Z.le_ge_cases a 0); lia.
Qed.
Lemma zdrop_ztake {A} a b (l : list A) : 0 <= a -> zdrop a (ztake b l) = ztake (b - a) (zdrop a l).
Proof.
  unfold zdrop, ztake; intros.
  rewrite skipn_firstn_comm; f_equal; lia.
Qed.
Lemma slice_app_l {A} (l1 l2 : list A) off n :
  0 <= off -> 0 <= n -> off + n <= zlen l1 -> slice (l1 ++ l2) off n = slice l1 off n.
Proof.
  intros; rewrite !slice_take_drop, zdrop_app_l by lia.
  apply ztake_app_l; rewrite zlen_zdrop; lia.
Qed.
Lemma slice_app_r {A} (l1 l2 : list A) off n :
  zlen l1 <= off -> slice (l1 ++ l2) off n = slice l2 (off - zlen l1) n.
Proof. intros; rewrite !slice_take_drop, zdrop_app_r by lia; reflexivity. Qed.
Lemma slice_all {A} (l : list A) n : zlen l <= n -> slice l 0 n = l.
Proof. intros; rewrite slice_take_drop, zdrop_0 by lia; apply ztake_all; lia. Qed.
Lemma slice_slice {A} (l : list A) a n b m :
  0 <= a -> 0 <= b -> 0 <= m -> b + m <= n -> slice (slice l a n) b m = slice l (a + b) m.
Proof.
  intros; rewrite !slice_take_drop, zdrop_ztake, ztake_ztake, zdrop_zdrop by lia.
  replace (Z.min m (n - b)) with m by lia; do 2 f_equal; lia.
Qed.
Lemma slice_full {A} (l : list A) off n :
  0 <= off -> 0 <= n -> off + n <= zlen l ->
  l = ztake off l ++ slice l off n ++ zdrop (off + n) l.
Proof.
  intros Ho Hn Hl. rewrite slice_take_drop.
  rewrite <- (ztake_zdrop off l) at 1. f_equal.
  rewrite <- (ztake_zdrop n (zdrop off l)) at 1. f_equal.
  rewrite zdrop_zdrop by lia. f_equal; lia.
Qed.
Lemma slice_split {A} (l : list A) off n m :
  0 <= off -> 0 <= n -> 0 <= m -> slice l off (n + m) = slice l off n ++ slice l (off + n) m.
Proof.
  intros; rewrite !slice_take_drop.
  replace (zdrop (off + n) l) with (zdrop n (zdrop off l)) by (rewrite zdrop_zdrop by lia; f_equal; lia).
  rewrite <- (ztake_zdrop n (zdrop off l)) at 1.
  destruct (Z.le_ge_cases n (zlen (zdrop off l))) as [H2|H2].
  - rewrite ztake_app_r by (rewrite zlen_ztake; lia).
    rewrite zlen_ztake by lia. do 2 f_equal; lia.
  - rewrite (zdrop_all n) by lia.
    rewrite app_nil_r, ztake_ztake.
    replace (ztake m []) with (@nil A) by (unfold ztake; destruct (Z.to_nat m); reflexivity).
    rewrite app_nil_r. f_equal; lia.
Qed.

(** ** splice, rd, wr *)
Lemma zlen_splice {A} (l : list A) off bs :
  0 <= off -> off + zlen bs <= zlen l -> zlen (splice l off bs) = zlen l.
Proof.
  intros. pose proof (zlen_nonneg bs). unfold splice.
  rewrite !zlen_app, zlen_ztake, zlen_zdrop by lia. lia.
Qed.
Lemma slice_splice_same {A} (l : list A) off bs :
  0 <= off -> off + zlen bs <= zlen l -> slice (splice l off bs) off (zlen bs) = bs.
Proof.
  intros. pose proof (zlen_nonneg bs). unfold splice.
  rewrite slice_app_r by (rewrite zlen_ztake; lia).
  rewrite zlen_ztake by lia. replace (off - off) with 0 by lia.
  rewrite slice_app_l by lia. apply slice_all; lia.
Qed.
Lemma slice_splice_before {A} (l : list A) off bs a n :
  0 <= a -> 0 <= n -> a + n <= off -> off + zlen bs <= zlen l ->
  slice (splice l off bs) a n = slice l a n.
Proof.
  intros. pose proof (zlen_nonneg bs). unfold splice.
  rewrite slice_app_l by (rewrite ?zlen_ztake; lia).
  rewrite <- (ztake_zdrop off l) at 2.
  rewrite slice_app_l by (rewrite ?zlen_ztake; lia). reflexivity.
Qed.
Lemma slice_splice_after {A} (l : list A) off bs a n :
  0 <= off -> 0 <= n -> off + zlen bs <= a -> off + zlen bs <= zlen l ->
  slice (splice l off bs) a n = slice l a n.
Proof.
  intros. pose proof (zlen_nonneg bs). unfold splice.
  rewrite slice_app_r by (rewrite ?zlen_ztake; lia).
  rewrite slice_app_r by (rewrite ?zlen_ztake; lia).
  rewrite zlen_ztake by lia.
  rewrite !slice_take_drop, zdrop_zdrop by lia. do 2 f_equal; lia.
Qed.
Lemma slice_splice_inside {A} (l : list A) off bs a n :
  0 <= off -> off + zlen bs <= zlen l -> off <= a -> 0 <= n -> a + n <= off + zlen bs ->
  slice (splice l off bs) a n = slice bs (a - off) n.
Proof.
  intros. pose proof (zlen_nonneg bs). unfold splice.
  rewrite slice_app_r by (rewrite ?zlen_ztake; lia).
  rewrite zlen_ztake by lia. rewrite slice_app_l by lia. reflexivity.
Qed.
Lemma rd_ok l off n : 0 <= off -> 0 <= n -> off + n <= zlen l -> rd l off n = Ok (slice l off n).
Proof.
  intros; unfold rd.
  destruct (0 <=? off) eqn:?, (0 <=? n) eqn:?, (off + n <=? zlen l) eqn:?; cbn [andb]; try reflexivity; lia.
Qed.
Lemma rd_inv l off n r : rd l off n = Ok r -> 0 <= off /\ 0 <= n /\ off + n <= zlen l /\ r = slice l off n.
Proof.
  unfold rd.
  destruct (0 <=? off) eqn:?, (0 <=? n) eqn:?, (off + n <=? zlen l) eqn:?; cbn [andb]; intros E; inversion E; subst; repeat split; lia.
Qed.
Lemma wr_ok l off bs : 0 <= off -> off + zlen bs <= zlen l -> wr l off bs = Ok (splice l off bs).
Proof.
  intros; unfold wr.
  destruct (0 <=? off) eqn:?, (off + zlen bs <=? zlen l) eqn:?; cbn [andb]; try reflexivity; lia.
Qed.
Lemma wr_inv l off bs r : wr l off bs = Ok r -> 0 <= off /\ off + zlen bs <= zlen l /\ r = splice l off bs.
Proof.
  unfold wr.
  destruct (0 <=? off) eqn:?, (off + zlen bs <=? zlen l) eqn:?; cbn [andb]; intros E; inversion E; subst; repeat split; lia.
Qed.

(** ** bytes *)
Lemma bytes_nil : bytes []. Proof. constructor. Qed.
Lemma bytes_app l1 l2 : bytes (l1 ++ l2) <-> bytes l1 /\ bytes l2.
Proof. apply Forall_app. Qed.
Lemma bytes_ztake n l : bytes l -> bytes (ztake n l).
Proof. intros; rewrite <- (ztake_zdrop n l) in H; apply bytes_app in H; tauto. Qed.
Lemma bytes_zdrop n l : bytes l -> bytes (zdrop n l).
Proof. intros; rewrite <- (ztake_zdrop n l) in H; apply bytes_app in H; tauto. Qed.
Lemma bytes_slice l off n : bytes l -> bytes (slice l off n).
Proof. intros; apply bytes_ztake, bytes_zdrop; assumption. Qed.
Lemma bytes_zeros n : bytes (zeros n).
Proof. unfold bytes, zeros; apply Forall_forall; intros x Hx; apply repeat_spec in Hx; lia. Qed.
Lemma bytes_resize l n : bytes l -> bytes (resize l n).
Proof.
  intros; unfold resize; destruct (n <=? zlen l); [apply bytes_ztake; assumption|].
  apply bytes_app; split; [assumption|apply bytes_zeros].
Qed.
Lemma bytes_splice l off bs : bytes l -> bytes bs -> bytes (splice l off bs).
Proof.
  intros; unfold splice; rewrite !bytes_app; repeat split;
    [apply bytes_ztake|assumption|apply bytes_zdrop]; assumption.
Qed.

(** ** little-endian codec *)
Lemma le_length n v : length (le n v) = n.
Proof. revert v; induction n as [|n IH]; intros; cbn [le length]; [reflexivity|rewrite IH; reflexivity]. Qed.
Lemma zlen_le n v : zlen (le n v) = Z.of_nat n.
Proof. unfold zlen; rewrite le_length; reflexivity. Qed.
Lemma bytes_le n v : bytes (le n v).
Proof.
  revert v; induction n as [|n IH]; intros; cbn [le]; constructor; [|apply IH].
  apply Z.mod_pos_bound; lia.
Qed.
Lemma pow256_S n : 256 ^ Z.of_nat (S n) = 256 * 256 ^ Z.of_nat n.
Proof. rewrite Nat2Z.inj_succ, Z.pow_succ_r; lia. Qed.
Lemma unle_le n v : unle (le n v) = v mod 256 ^ Z.of_nat n.
Proof.
  revert v; induction n as [|n IH]; intros v; cbn [le unle].
  - cbn; rewrite Z.mod_1_r; reflexivity.
  - rewrite IH, pow256_S.
    assert (0 < 256 ^ Z.of_nat n) by (apply Z.pow_pos_nonneg; lia).
    rewrite Z.rem_mul_r by lia. reflexivity.
Qed.
Lemma unle_le_small n v : 0 <= v < 256 ^ Z.of_nat n -> unle (le n v) = v.
Proof. intros; rewrite unle_le; apply Z.mod_small; assumption. Qed.
Lemma le_mod n v : le n (v mod 256 ^ Z.of_nat n) = le n v.
Proof.
  revert v; induction n as [|n IH]; intros v; cbn [le]; [reflexivity|].
  rewrite pow256_S.
  assert (0 < 256 ^ Z.of_nat n) by (apply Z.pow_pos_nonneg; lia).
  rewrite Z.rem_mul_r by lia. f_equal.
  - replace (v mod 256 + 256 * ((v / 256) mod 256 ^ Z.of_nat n))
      with (v mod 256 + (v / 256) mod 256 ^ Z.of_nat n * 256) by lia.
    rewrite Z.mod_add, Z.mod_mod by lia; reflexivity.
  - replace (v mod 256 + 256 * ((v / 256) mod 256 ^ Z.of_nat n))
      with (v mod 256 + (v / 256) mod 256 ^ Z.of_nat n * 256) by lia.
    rewrite Z.div_add by lia.
    rewrite (Z.div_small (v mod 256)) by (apply Z.mod_pos_bound; lia).
    apply IH.
Qed.
Lemma unle_bound l : bytes l -> 0 <= unle l < 256 ^ zlen l.
Proof.
  induction 1 as [|b t Hb Ht IH]; [unfold zlen; cbn; lia|].
  cbn [unle]. unfold zlen in *; cbn [length]. rewrite pow256_S. lia.
Qed.
Lemma le_unle l : bytes l -> le (length l) (unle l) = l.
Proof.
  induction 1 as [|b t Hb Ht IH]; [reflexivity|].
  cbn [length le unle]. f_equal.
  - replace (b + 256 * unle t) with (b + unle t * 256) by lia.
    rewrite Z.mod_add by lia. apply Z.mod_small; lia.
  - replace (b + 256 * unle t) with (b + unle t * 256) by lia.
    rewrite Z.div_add by lia. rewrite Z.div_small by lia. exact IH.
Qed.
Lemma le_unle_n n l : bytes l -> length l = n -> le n (unle l) = l.
Proof. intros H <-; apply le_unle; assumption. Qed.
Lemma unle_app l1 l2 : unle (l1 ++ l2) = unle l1 + 256 ^ zlen l1 * unle l2.
Proof.
  induction l1 as [|b t IH]; [cbn [app unle]; change (@zlen Z []) with 0; lia|].
  cbn [app unle]; rewrite IH. unfold zlen; cbn [length]; rewrite pow256_S. lia.
Qed.
Lemma unle_zeros n : unle (zeros n) = 0.
Proof. unfold zeros; induction (Z.to_nat n) as [|k IH]; [reflexivity|cbn [repeat unle]; rewrite IH; reflexivity]. Qed.

Lemma enc_fields_length ws vs : length ws = length vs -> zlen (enc_fields ws vs) = widths ws.
Proof.
  unfold widths.
  revert vs; induction ws as [|w ws IH]; intros [|v vs] H; try discriminate; [reflexivity|].
  cbn [enc_fields fold_right]. rewrite zlen_app, zlen_le, IH by (cbn in H; lia). lia.
Qed.
Lemma bytes_enc_fields ws vs : bytes (enc_fields ws vs).
Proof.
  revert vs; induction ws as [|w ws IH]; intros [|v vs]; cbn [enc_fields]; try apply bytes_nil.
  apply bytes_app; split; [apply bytes_le|apply IH].
Qed.
Lemma dec_enc_fields ws vs rest : fits ws vs -> dec_fields ws (enc_fields ws vs ++ rest) = vs.
Proof.
  revert vs; induction ws as [|w ws IH]; intros [|v vs] H; cbn [fits] in H; try contradiction; [reflexivity|].
  destruct H as [Hv Hvs]. cbn [enc_fields dec_fields]. rewrite <- app_assoc.
  rewrite firstn_app, le_length, Nat.sub_diag, firstn_O, app_nil_r.
  rewrite firstn_all2 by (rewrite le_length; lia).
  rewrite unle_le_small by assumption. f_equal.
  rewrite skipn_app, le_length, Nat.sub_diag, skipn_O.
  rewrite skipn_all2 by (rewrite le_length; lia). apply IH; assumption.
Qed.
Lemma enc_dec_fields ws l : bytes l -> zlen l = widths ws -> enc_fields ws (dec_fields ws l) = l.
Proof.
  unfold widths.
  revert l; induction ws as [|w ws IH]; intros l Hb Hl.
  - cbn in Hl. destruct l; [reflexivity|unfold zlen in Hl; cbn in Hl; lia].
  - cbn [dec_fields enc_fields]. cbn [fold_right] in Hl. unfold zlen in Hl.
    rewrite le_unle_n.
    + rewrite IH; [apply firstn_skipn| |].
      * rewrite <- (firstn_skipn w l) in Hb; apply bytes_app in Hb; tauto.
      * unfold zlen; rewrite skipn_length; lia.
    + rewrite <- (firstn_skipn w l) in Hb; apply bytes_app in Hb; tauto.
    + rewrite firstn_length; lia.
Qed.
Lemma dec_fields_length ws l : length (dec_fields ws l) = length ws.
Proof. revert l; induction ws as [|w ws IH]; intros; cbn [dec_fields length]; [reflexivity|rewrite IH; reflexivity]. Qed.
Lemma dec_fields_fits ws l : bytes l -> fits ws (dec_fields ws l).
Proof.
  revert l; induction ws as [|w ws IH]; intros l Hb; cbn [dec_fields fits]; [exact I|].
  split.
  - assert (Hb' : bytes (firstn w l)) by (rewrite <- (firstn_skipn w l) in Hb; apply bytes_app in Hb; tauto).
    pose proof (unle_bound _ Hb') as Hu.
    assert (256 ^ zlen (firstn w l) <= 256 ^ Z.of_nat w).
    { apply Z.pow_le_mono_r; [lia|]. unfold zlen; rewrite firstn_length; lia. }
    lia.
  - apply IH. rewrite <- (firstn_skipn w l) in Hb; apply bytes_app in Hb; tauto.
Qed.

(** ** wraps *)
Lemma u32_small x : 0 <= x < 2^32 -> u32 x = x.
Proof. intros; unfold u32; apply Z.mod_small; assumption. Qed.
Lemma u16_small x : 0 <= x < 2^16 -> u16 x = x.
Proof. intros; unfold u16; apply Z.mod_small; assumption. Qed.
Lemma u64_small x : 0 <= x < 2^64 -> u64 x = x.
Proof. intros; unfold u64; apply Z.mod_small; assumption. Qed.
Lemma u32_range x : 0 <= u32 x < 2^32.
Proof. unfold u32; apply Z.mod_pos_bound; lia. Qed.
Lemma u16_range x : 0 <= u16 x < 2^16.
Proof. unfold u16; apply Z.mod_pos_bound; lia. Qed.
Lemma u64_range x : 0 <= u64 x < 2^64.
Proof. unfold u64; apply Z.mod_pos_bound; lia. Qed.

(** ** outcomes *)
Lemma safe_bind {A B} (x : res A) (f : A -> res B) :
  safe x -> (forall a, x = Ok a -> safe (f a)) -> safe (bind x f).
Proof. destruct x; cbn; intros H1 H2; try exact H1; try exact I; apply H2; reflexivity. Qed.
Lemma safe_throw_if c e : safe (throw_if c e).
Proof. destruct c; exact I. Qed.
Lemma bind_ok {A B} (x : res A) (f : A -> res B) b :
  bind x f = Ok b -> exists a, x = Ok a /\ f a = Ok b.
Proof. destruct x; cbn; intros H; try discriminate; eauto. Qed.
Lemma throw_if_ok c e : throw_if c e = Ok tt <-> c = false.
Proof. destruct c; cbn; split; congruence. Qed.
Lemma throw_if_ok' c e u : throw_if c e = Ok u -> c = false.
Proof. destruct c; cbn; congruence. Qed.

(** ** loops *)
Section Loops.
  Context {St A : Type} (body : St -> res (St + A)).
  Lemma nloop_add n m s :
    nloop (n + m) body s = match nloop n body s with
                           | Ok (inl s') => nloop m body s'
                           | r => r
                           end.
  Proof.
    revert s; induction n as [|n IH]; intros s; cbn [Nat.add nloop]; [reflexivity|].
    destruct (body s) as [[s'|a]| | |]; try reflexivity. apply IH.
  Qed.
  Lemma ploop_nloop p s : ploop p body s = nloop (Pos.to_nat p) body s.
  Proof.
    revert s; induction p as [q IH|q IH|]; intros s.
    - rewrite Pos2Nat.inj_xI. cbn [ploop nloop].
      replace (2 * Pos.to_nat q)%nat with (Pos.to_nat q + Pos.to_nat q)%nat by lia.
      destruct (body s) as [[s'|a]| | |]; try reflexivity.
      rewrite nloop_add, IH. destruct (nloop _ body s') as [[s''|a]| | |]; try reflexivity. apply IH.
    - rewrite Pos2Nat.inj_xO. cbn [ploop].
      replace (2 * Pos.to_nat q)%nat with (Pos.to_nat q + Pos.to_nat q)%nat by lia.
      rewrite nloop_add, IH. destruct (nloop _ body s) as [[s''|a]| | |]; try reflexivity. apply IH.
    - cbn [ploop]. change (Pos.to_nat 1) with 1%nat. cbn [nloop].
      destruct (body s) as [[s'|a]| | |]; reflexivity.
  Qed.

  (** A loop terminates normally or with an exception when an invariant keeps the
      body safe and a measure below the fuel decreases. *)
  Lemma nloop_safe (Inv : St -> Prop) (m : St -> Z) (Post : A -> Prop) :
    (forall s, Inv s -> 0 <= m s /\ match body s with
                        | Ok (inl s') => Inv s' /\ m s' < m s
                        | Ok (inr a) => Post a
                        | Throw _ => True
                        | _ => False
                        end) ->
    forall n s, Inv s -> m s < Z.of_nat n ->
    match nloop n body s with
    | Ok (inl _) => False | Ok (inr a) => Post a | Throw _ => True | _ => False
    end.
  Proof.
    intros H n; induction n as [|n IH]; intros s Hi Hm; destruct (H s Hi) as [H0 H1].
    - lia.
    - cbn [nloop]. destruct (body s) as [[s'|a]| | |]; try exact H1.
      destruct H1 as [Hi' Hm']. apply IH; [assumption|lia].
  Qed.
  Lemma mloop_safe_post p (Inv : St -> Prop) (m : St -> Z) (Post : A -> Prop) s :
    (forall s, Inv s -> 0 <= m s /\ match body s with
                        | Ok (inl s') => Inv s' /\ m s' < m s
                        | Ok (inr a) => Post a
                        | Throw _ => True
                        | _ => False
                        end) ->
    Inv s -> m s < Zpos p ->
    match mloop p body s with Ok a => Post a | Throw _ => True | _ => False end.
  Proof.
    intros H Hi Hm. unfold mloop. rewrite ploop_nloop.
    pose proof (nloop_safe Inv m Post H (Pos.to_nat p) s Hi) as H1.
    rewrite positive_nat_Z in H1. specialize (H1 Hm).
    destruct (nloop _ body s) as [[s''|a]| | |]; auto.
  Qed.
  Lemma mloop_safe p (Inv : St -> Prop) (m : St -> Z) s :
    (forall s, Inv s -> 0 <= m s /\ match body s with
                        | Ok (inl s') => Inv s' /\ m s' < m s
                        | Ok (inr a) => True
                        | Throw _ => True
                        | _ => False
                        end) ->
    Inv s -> m s < Zpos p -> safe (mloop p body s).
  Proof.
    intros H Hi Hm.
    pose proof (mloop_safe_post p Inv m (fun _ => True) s H Hi Hm) as H1.
    destruct (mloop p body s); exact H1.
  Qed.
  (** Partial correctness: an invariant holds when the loop leaves normally. *)
  Lemma mloop_inv p (Inv : St -> Prop) (Post : A -> Prop) s a :
    (forall s, Inv s -> match body s with
                        | Ok (inl s') => Inv s'
                        | Ok (inr a) => Post a
                        | _ => True
                        end) ->
    Inv s -> mloop p body s = Ok a -> Post a.
  Proof.
    intros H. unfold mloop. rewrite ploop_nloop. generalize (Pos.to_nat p) as n.
    intros n; revert s; induction n as [|n IH]; intros s Hi; cbn [nloop]; [discriminate|].
    specialize (H s Hi). destruct (body s) as [[s'|b]| | |]; try discriminate.
    - apply IH; assumption.
    - intros E; inversion E; subst; exact H.
  Qed.
  (** Exact execution: unrolling one iteration at a time with nat fuel. *)
  Lemma mloop_nloop p s : mloop p body s =
    match nloop (Pos.to_nat p) body s with
    | Ok (inl _) => Fuel | Ok (inr a) => Ok a | Throw e => Throw e | Ub k => Ub k | Fuel => Fuel
    end.
  Proof. unfold mloop; rewrite ploop_nloop; reflexivity. Qed.
  (** k steps of the loop. *)
  Lemma nloop_more n m s r : nloop n body s = Ok (inr r) -> (n <= m)%nat -> nloop m body s = Ok (inr r).
  Proof.
    intros H Hm. replace m with (n + (m - n))%nat by lia. rewrite nloop_add, H. reflexivity.
  Qed.
  Lemma mloop_exec p n s r :
    nloop n body s = Ok (inr r) -> Z.of_nat n <= Zpos p -> mloop p body s = Ok r.
  Proof.
    intros H Hn. rewrite mloop_nloop.
    rewrite (nloop_more n) with (r := r); [reflexivity|assumption|].
    apply Nat2Z.inj_le. rewrite positive_nat_Z. exact Hn.
  Qed.
End Loops.

Lemma mfold_safe {A B} (f : B -> A -> res B) (Inv : B -> Prop) l :
  (forall b a, Inv b -> In a l -> match f b a with Ok b' => Inv b' | Throw _ => True | _ => False end) ->
  forall b, Inv b -> match mfold f l b with Ok b' => Inv b' | Throw _ => True | _ => False end.
Proof.
  induction l as [|x l IH]; intros H b Hb; cbn [mfold]; [exact Hb|].
  pose proof (H b x Hb (or_introl eq_refl)) as H1.
  destruct (f b x) as [b'| | |]; cbn [bind]; auto.
  apply IH; auto. intros; apply H; [assumption|right; assumption].
Qed.

(** ** upd *)
Lemma upd_length {A} (l : list A) i x : length (upd l i x) = length l.
Proof. revert i; induction l as [|h t IH]; intros [|i]; cbn [upd length]; try reflexivity; rewrite IH; reflexivity. Qed.
Lemma zlen_upd {A} (l : list A) i x : zlen (upd l i x) = zlen l.
Proof. unfold zlen; rewrite upd_length; reflexivity. Qed.
Lemma nth_error_upd_same {A} (l : list A) i x : (i < length l)%nat -> nth_error (upd l i x) i = Some x.
Proof. revert i; induction l as [|h t IH]; intros [|i] H; cbn [upd length nth_error] in *; try lia; [reflexivity|apply IH; lia]. Qed.
Lemma nth_error_upd_other {A} (l : list A) i j x : i <> j -> nth_error (upd l i x) j = nth_error l j.
Proof. revert i j; induction l as [|h t IH]; intros [|i] [|j] H; cbn [upd nth_error]; try reflexivity; try congruence. apply IH; congruence. Qed.
Lemma upd_out {A} (l : list A) i x : (length l <= i)%nat -> upd l i x = l.
Proof. revert i; induction l as [|h t IH]; intros [|i] H; cbn [upd length] in *; try reflexivity; try lia. f_equal; apply IH; lia. Qed.
Lemma nth_ub_ok {A} (l : list A) i x : nth_error l (Z.to_nat i) = Some x -> 0 <= i -> nth_ub l i = Ok x.
Proof.
  intros H Hi. unfold nth_ub.
  assert (Z.to_nat i < length l)%nat by (apply nth_error_Some; congruence).
  replace ((0 <=? i) && (i <? zlen l)) with true by (unfold zlen; lia).
  rewrite H; reflexivity.
Qed.
Lemma nth_ub_inv {A} (l : list A) i x : nth_ub l i = Ok x -> 0 <= i < zlen l /\ nth_error l (Z.to_nat i) = Some x.
Proof.
  unfold nth_ub. destruct ((0 <=? i) && (i <? zlen l)) eqn:E; [|discriminate].
  destruct (nth_error l (Z.to_nat i)) eqn:E2; [|discriminate].
  intros H; inversion H; subst. split; [lia|reflexivity].
Qed.

(** Case analysis on the condition of the first throw_if / if of the goal. *)
Ltac case_throw H := match goal with |- context [throw_if ?b _] => destruct b eqn:H; cbn [throw_if bind] end.
Ltac case_if H := match goal with |- context [if ?b then _ else _] => destruct b eqn:H end.
(** Same, for a hypothesis [E : (throw_if c e ;;; k) = Ok v] (leaves [H : c = false]) and
    [E : (x <- a ;; k) = Ok v] (leaves [H : a = Ok x]). *)
Ltac thr E H := let u := fresh "u" in apply bind_ok in E as [u [H E]]; apply throw_if_ok' in H; clear u.
Ltac bnd E x H := apply bind_ok in E as [x [H E]].
