(** Lemmas about ChecksumModel.v. *)
From Verif Require Export ChecksumModel SpecChecksum LoadExec.

(** ** Arithmetic modulo 0xFFFF *)
(** [c] represents the sum [x]: congruent modulo 0xFFFF, zero only for zero. *)
Definition repr (c x : Z) : Prop := c mod 0xFFFF = x mod 0xFFFF /\ (c = 0 <-> x = 0).
Lemma land32 c : 0 <= c -> Z.land c 0xffffffff = c mod 2^32.
Proof. intros; change 0xffffffff with (Z.ones 32); apply Z.land_ones; lia. Qed.
Lemma land16 c : 0 <= c -> Z.land c 0xffff = c mod 2^16.
Proof. intros; change 0xffff with (Z.ones 16); apply Z.land_ones; lia. Qed.
Lemma checksum_add_spec c dw x y :
  0 <= c <= 2^32 -> 0 <= dw < 2^32 -> 0 <= x -> 0 <= y -> repr c x -> repr dw y ->
  0 <= checksum_add c dw <= 2^32 /\ repr (checksum_add c dw) (x + y).
Proof.
  intros Hc Hd Hx Hy [Rc Zc] [Rd Zd]. unfold checksum_add.
  rewrite land32, Z.shiftr_div_pow2 by lia.
  set (c1 := c mod 2^32 + dw + c / 2^32).
  assert (0 <= c1 <= 2^33 - 2 /\ exists k, c1 = c + dw - (2^32 - 1) * k) as [B [k Ek]].
  { unfold c1. split; [lia|]. exists (c / 2^32). lia. }
  assert (c1 = 0 <-> x + y = 0) as Z1 by (unfold c1; lia).
  assert (c1 mod 0xFFFF = (x + y) mod 0xFFFF) as M1.
  { rewrite Ek. replace (c + dw - (2^32 - 1) * k) with (c + dw + (- (65537 * k)) * 0xFFFF) by lia.
    rewrite Z.mod_add by lia. rewrite Z.add_mod, Rc, Rd, <- Z.add_mod by lia. reflexivity. }
  clearbody c1. destruct (Z.ltb_spec 0x100000000 c1) as [L|L].
  - rewrite land32, Z.shiftr_div_pow2 by lia. split; [lia|]. split; [|lia].
    rewrite <- M1. replace (c1 mod 2^32 + c1 / 2^32) with (c1 + (- (65537 * (c1 / 2^32))) * 0xFFFF) by lia.
    apply Z.mod_add; lia.
  - split; [lia|]. split; [assumption|lia].
Qed.
Lemma checksum_finish_spec c x n :
  0 <= c <= 2^32 -> 0 <= x -> repr c x -> checksum_finish c n = end_around_carry x + u32 n.
Proof.
  intros Hc Hx [Rc Zc]. unfold checksum_finish, end_around_carry. f_equal.
  rewrite (land16 c) by lia. rewrite !Z.shiftr_div_pow2 by lia.
  set (c1 := c mod 2^16 + c / 2^16).
  assert (0 <= c1 <= 2^17 - 2 /\ (c1 = 0 <-> x = 0)) as [B Z1] by (unfold c1; lia).
  assert (c1 mod 0xFFFF = x mod 0xFFFF) as M1.
  { rewrite <- Rc. unfold c1. replace (c mod 2^16 + c / 2^16) with (c + (- (c / 2^16)) * 0xFFFF) by lia. apply Z.mod_add; lia. }
  clearbody c1. rewrite land16 by lia.
  destruct (Z.eqb_spec x 0) as [E|E].
  - assert (c1 = 0) as -> by lia. reflexivity.
  - assert ((x - 1) mod 0xFFFF = (c1 - 1) mod 0xFFFF) as ->.
    { rewrite (Zminus_mod x 1), (Zminus_mod c1 1), M1. reflexivity. }
    assert (1 <= c1) by lia. lia.
Qed.
Lemma unle_repr l : bytes l -> zlen l <= 4 -> repr (unle l) (sum_words l) /\ 0 <= sum_words l.
Proof.
  intros B L. unfold repr.
  destruct l as [|a [|b [|c [|d [|e l]]]]]; cbn [unle sum_words];
    unfold bytes in *; repeat match goal with H : Forall _ (_ :: _) |- _ => apply Forall_cons_iff in H as [? H] end; try lia.
  exfalso. rewrite !zlen_cons in L. pose proof (zlen_nonneg l). lia.
Qed.
Lemma sum_words_split l : sum_words l = sum_words (ztake 4 l) + sum_words (zdrop 4 l).
Proof.
  unfold ztake, zdrop; change (Z.to_nat 4) with 4%nat.
  destruct l as [|a [|b [|c [|d l]]]]; cbn [firstn skipn sum_words]; lia.
Qed.
Lemma sum_words_nonneg l : bytes l -> 0 <= sum_words l.
Proof.
  assert (forall n l, (length l <= n)%nat -> bytes l -> 0 <= sum_words l) as H.
  { induction n as [|n IH]; intros [|a [|b t]] Hl B; cbn [sum_words length] in *; try lia;
      unfold bytes in *; repeat match goal with H : Forall _ (_ :: _) |- _ => apply Forall_cons_iff in H as [? H] end; try lia.
    assert (0 <= sum_words t) by (apply IH; [lia|assumption]). lia. }
  intros; apply (H (length l)); [lia|assumption].
Qed.

(** ** The loop *)
Section Loop.
  Variable data : list Z.
  Variable strict : bool.
  Hypothesis Hb : bytes data.
  Notation st := (st data strict).

  Lemma read4 i : 0 <= i < zlen data ->
    s_read_into (zeros 4) 0 4 (st i) =
    (if i + 4 <=? zlen data then st (i + 4) else mk_is data strict (zlen data) true true,
     Ok (splice (zeros 4) 0 (slice data i 4))).
  Proof.
    intros Hi. unfold s_read_into. change ((0 <=? 0) && (0 <=? 4) && (0 + 4 <=? zlen (zeros 4))) with true. cbn iota.
    unfold is_read, LoadExec.st. cbn [i_good i_fail i_eof negb andb i_data i_pos].
    assert (zlen (slice data i 4) = Z.min 4 (zlen data - i)) as El.
    { unfold slice, zlen in *; rewrite firstn_length, skipn_length; lia. }
    rewrite El. destruct (Z.leb_spec (i + 4) (zlen data)) as [L|L].
    - replace (Z.min 4 (zlen data - i) <? 4) with false by lia. reflexivity.
    - replace (Z.min 4 (zlen data - i) <? 4) with true by lia.
      unfold set_i_flags, set_i_pos; cbn. do 2 f_equal. lia.
  Qed.
  Lemma unle_short d : zlen d <= 4 -> unle (splice (zeros 4) 0 d) = unle d.
  Proof.
    intros L. pose proof (zlen_nonneg d). unfold splice. rewrite ztake_0 by lia. cbn [app]. rewrite unle_app.
    assert (zdrop (0 + zlen d) (zeros 4) = zeros (4 - zlen d)) as ->.
    { unfold zdrop, zeros. assert (exists k, (k <= 4)%nat /\ zlen d = Z.of_nat k) as (k & Hk & ->) by (exists (length d); unfold zlen in *; lia).
      destruct k as [|[|[|[|[|k]]]]]; try reflexivity; lia. }
    rewrite unle_zeros. lia.
  Qed.
  Variable skip : Z.
  Variable masked : list Z.
  Hypothesis Hmb : bytes masked.
  Hypothesis Hml : zlen masked = zlen data.
  (** Dword by dword, [masked] is the data with the skipped dword zero. *)
  Hypothesis Hmask : forall i, 0 <= i -> i mod 4 = 0 -> i < zlen data ->
    (i = skip -> sum_words (slice masked i 4) = 0) /\ (i <> skip -> slice masked i 4 = slice data i 4).

  Lemma loop_spec n : forall i c x,
    0 <= i -> i mod 4 = 0 -> Z.of_nat n = Z.max 0 ((zlen data - i + 3) / 4) ->
    0 <= c <= 2^32 -> 0 <= x -> repr c x ->
    exists c' s', checksum_loop n i skip c (st i) = (s', Ok c') /\
      0 <= c' <= 2^32 /\ repr c' (x + sum_words (zdrop i masked)) /\
      i_data s' = data /\ i_strict s' = strict /\ (zlen data mod 4 = 0 -> i_fail s' = false).
  Proof.
    induction n as [|n IH]; intros i c x Hi Ha Hn Hc Hx R; cbn [checksum_loop].
    - exists c, (st i). unfold sret. split; [reflexivity|]. split; [assumption|].
      rewrite zdrop_all by lia. cbn [sum_words]. rewrite Z.add_0_r. repeat split; assumption || apply R || auto.
    - assert (i < zlen data) as Hlt by lia.
      unfold sbind. rewrite (read4 i (conj Hi Hlt)).
      assert (zlen (slice data i 4) <= 4) as L4 by (unfold slice, zlen; rewrite firstn_length; lia).
      rewrite unle_short by assumption.
      set (c1 := if i =? skip then c else checksum_add c (unle (slice data i 4))).
      destruct (Hmask i Hi Ha Hlt) as [M1 M2].
      assert (0 <= c1 <= 2^32 /\ repr c1 (x + sum_words (slice masked i 4))) as [B1 R1].
      { unfold c1. destruct (Z.eqb_spec i skip) as [E|E].
        - rewrite M1, Z.add_0_r by assumption. split; assumption.
        - rewrite M2 by assumption. destruct (unle_repr (slice data i 4) (bytes_slice _ _ _ Hb) L4) as [U1 U2].
          apply checksum_add_spec; try assumption.
          pose proof (unle_bound (slice data i 4) (bytes_slice _ _ _ Hb)) as [U3 U4]. split; [assumption|].
          eapply Z.lt_le_trans; [exact U4|]. change (2^32) with (256^4). apply Z.pow_le_mono_r; lia. }
      assert (sum_words (zdrop i masked) = sum_words (slice masked i 4) + sum_words (zdrop (i + 4) masked)) as ES.
      { rewrite (sum_words_split (zdrop i masked)). rewrite zdrop_zdrop by lia. rewrite (Z.add_comm 4 i). reflexivity. }
      destruct (Z.leb_spec (i + 4) (zlen data)) as [L|L].
      + destruct (IH (i + 4) c1 (x + sum_words (slice masked i 4))) as (c' & s' & E & B' & R' & P); try assumption; try lia.
        { pose proof (sum_words_nonneg _ (bytes_slice masked i 4 Hmb)). lia. }
        exists c', s'. split; [exact E|]. split; [assumption|]. split; [|assumption]. rewrite ES, Z.add_assoc. exact R'.
      + assert (n = O) as -> by lia. cbn [checksum_loop]. exists c1. eexists. split; [reflexivity|].
        split; [assumption|]. split.
        * rewrite ES, (zdrop_all (i + 4)) by lia. cbn [sum_words]. rewrite Z.add_0_r. exact R1.
        * cbn. repeat split. intros; lia.
  Qed.
End Loop.

(** ** The whole function *)
(** The contents the loop sums up. *)
Definition masked (file : list Z) (field : Z) : list Z :=
  if (0 <=? field) && (field mod 4 =? 0) && (field + 4 <=? zlen file) then with_field file field 0 else file.
Lemma with_field_length file pos v : 0 <= pos -> pos + 4 <= zlen file -> zlen (with_field file pos v) = zlen file.
Proof. intros. unfold with_field. apply zlen_splice; [assumption|]. change (zlen (le 4 v)) with 4. lia. Qed.
Lemma calculate_checksum_exec data strict p field :
  bytes data -> 0 <= p -> p + 64 <= zlen data -> le_at data p 2 = 0x5a4d ->
  field = s32 (le_at data (p + 60) 4) + 88 -> (field < 0 \/ field + 4 <= zlen data \/ zlen data <= field \/ field mod 4 <> 0) ->
  exists s', calculate_checksum (st data strict p) = (s', Ok (u32 (end_around_carry (sum_words (masked data field)) + zlen data))) /\
    i_data s' = data /\ i_strict s' = strict /\ i_fail s' = false /\ i_eof s' = false /\
    (zlen data mod 4 = 0 -> s' = st data strict p).
Proof.
  intros Hb Hp Hl Hm Ef Hf. pose proof (zlen_nonneg data).
  assert (exists c s', (dos <~ read_dos_header ;
    s_seek 0 ~;
    let skip := s32 (dos_lfanew dos) + 20 + 4 + 64 in
    filesize <~ get_file_size ;
    c <~ checksum_loop (Z.to_nat ((filesize + 3) / 4)) 0 skip 0 ;
    sret (u32 (checksum_finish c filesize))) (st data strict p) = (s', Ok (u32 (checksum_finish c (zlen data)))) /\
    0 <= c <= 2^32 /\ repr c (sum_words (masked data field)) /\ i_data s' = data /\ i_strict s' = strict /\
    (zlen data mod 4 = 0 -> i_fail s' = false)) as (c & s' & E & Bc & R & Hd & Hs & Hc).
  { rewrite x_dos by assumption. rewrite x_seek by lia. cbv zeta. rewrite x_size by lia.
    replace (s32 (dos_lfanew (slice data p 64)) + 20 + 4 + 64) with field.
    2:{ rewrite Ef. unfold dos_lfanew, le_at. rewrite slice_slice by lia. lia. }
    destruct (loop_spec data strict Hb field (masked data field)) with (n := Z.to_nat ((zlen data + 3) / 4)) (i := 0) (c := 0) (x := 0)
      as (c & s' & E & Bc & R & Hd & Hs & Hc).
    - unfold masked. case_if E1; [|assumption]. apply bytes_splice; [assumption|apply bytes_le].
    - unfold masked. case_if E1; [|reflexivity]. apply with_field_length; lia.
    - intros i Hi Ha Hlt. unfold masked. split.
      + intros ->. replace ((0 <=? field) && (field mod 4 =? 0) && (field + 4 <=? zlen data)) with true by lia.
        unfold with_field. pose proof (slice_splice_same data field (le 4 0)) as SS.
        change (zlen (le 4 0)) with 4 in SS. rewrite SS by lia. reflexivity.
      + intros N. case_if E1; [|reflexivity]. unfold with_field.
        destruct (Z_lt_le_dec i field).
        * apply slice_splice_before; try lia. change (zlen (le 4 0)) with 4. lia.
        * apply slice_splice_after; try change (zlen (le 4 0)) with 4; lia.
    - lia.
    - reflexivity.
    - lia.
    - lia.
    - lia.
    - split; [reflexivity|lia].
    - exists c, s'. rewrite (x_bind _ _ _ _ _ E). split; [reflexivity|]. split; [assumption|].
      rewrite zdrop_0 in R by lia. split; [exact R|]. repeat split; assumption. }
  exists (is_clear (seekg p s')). split; [|split; [|split; [|split; [|split]]]].
  - unfold calculate_checksum, with_restore. change (tellg (st data strict p)) with (st data strict p, p). cbv beta iota zeta in E |- *.
    rewrite E. do 2 f_equal. rewrite (checksum_finish_spec c (sum_words (masked data field)) (zlen data) Bc); [|apply sum_words_nonneg|assumption].
    + unfold u32. rewrite Zplus_mod_idemp_r. reflexivity.
    + unfold masked. case_if E1; [|assumption]. apply bytes_splice; [assumption|apply bytes_le].
  - destruct (seek_data p s') as (A1 & A2 & A3). rewrite A1. assumption.
  - destruct (seek_data p s') as (A1 & A2 & A3). rewrite A2. assumption.
  - reflexivity.
  - reflexivity.
  - intros C. specialize (Hc C). unfold seekg. rewrite Hc, Hd, Hs.
    replace ((p <? 0) || (strict && (zlen data <? p))) with false by (destruct strict; cbn [andb]; lia).
    unfold is_clear, set_i_pos, set_i_flags; cbn. rewrite Hd, Hs. reflexivity.
Qed.

Lemma s32_field v : 0 <= v < 2^31 -> s32 v = v.
Proof. intros H. apply s32_small; assumption. Qed.
(** A stream at the start of a file whose checksum field lies in the file. *)
Lemma checksum_of_file data strict :
  bytes data -> checksum_field_ok data ->
  exists s', calculate_checksum (open_stream strict data) = (s', Ok (pe_checksum data (checksum_field data))) /\
    i_data s' = data /\ i_strict s' = strict /\ i_fail s' = false /\ i_eof s' = false /\
    (zlen data mod 4 = 0 -> s' = open_stream strict data).
Proof.
  intros Hb (Hm & Ha & Hr & Hs). unfold checksum_field in *.
  assert (64 <= zlen data) as L64.
  { assert (0 <= le_at data 60 4); [|lia]. apply unle_bound. apply bytes_slice; assumption. }
  assert (0 <= le_at data 60 4 < 2^32) as B by (apply (le_at_bound data 60 4 Hb); lia).
  destruct (calculate_checksum_exec data strict 0 (le_at data 60 4 + 88) Hb) as (s' & E & P); try assumption; try lia.
  { change (0 + 60) with 60. rewrite s32_small; [reflexivity|]. lia. }
  exists s'. split; [|exact P]. unfold open_stream. fold (st data strict 0). rewrite E. unfold pe_checksum, masked.
  replace ((0 <=? le_at data 60 4 + 88) && ((le_at data 60 4 + 88) mod 4 =? 0) && (le_at data 60 4 + 88 + 4 <=? zlen data)) with true by lia.
  reflexivity.
Qed.
Lemma with_field_ok data v : bytes data -> checksum_field_ok data ->
  bytes (with_field data (checksum_field data) v) /\ checksum_field_ok (with_field data (checksum_field data) v) /\
  checksum_field (with_field data (checksum_field data) v) = checksum_field data /\
  zlen (with_field data (checksum_field data) v) = zlen data.
Proof.
  intros Hb (Hm & Ha & Hr & Hs).
  assert (0 <= le_at data 60 4) by (apply unle_bound; apply bytes_slice; assumption).
  assert (zlen (with_field data (checksum_field data) v) = zlen data) as EL
    by (apply with_field_length; unfold checksum_field in *; lia).
  assert (forall off n, 0 <= off -> 0 <= n -> off + n <= 64 -> le_at (with_field data (checksum_field data) v) off n = le_at data off n) as EA.
  { intros off n Ho Hn Hl. unfold le_at, with_field. f_equal. apply slice_splice_before; try assumption;
      unfold checksum_field in *; try change (zlen (le 4 v)) with 4; lia. }
  assert (checksum_field (with_field data (checksum_field data) v) = checksum_field data) as EF.
  { unfold checksum_field at 1. rewrite EA by lia. reflexivity. }
  split; [apply bytes_splice; [assumption|apply bytes_le]|]. split; [|split; assumption].
  unfold checksum_field_ok. rewrite EL, EF, !EA by lia. repeat split; assumption.
Qed.
Lemma with_field_twice data pos v w : 0 <= pos -> pos + 4 <= zlen data ->
  with_field (with_field data pos v) pos w = with_field data pos w.
Proof.
  intros Hp Hl. unfold with_field, splice. change (zlen (le 4 v)) with 4. change (zlen (le 4 w)) with 4.
  assert (zlen (ztake pos data) = pos) as E1 by (rewrite zlen_ztake; lia).
  f_equal.
  - rewrite ztake_app_l by lia. rewrite ztake_all by lia. reflexivity.
  - f_equal. rewrite app_assoc. assert (pos + 4 = zlen (ztake pos data ++ le 4 v)) as E2 by (rewrite zlen_app, E1; change (zlen (le 4 v)) with 4; lia).
    rewrite E2 at 1. rewrite zdrop_exact. reflexivity.
Qed.
Lemma checksum_ignores_field data v : bytes data -> checksum_field_ok data ->
  pe_checksum (with_field data (checksum_field data) v) (checksum_field data) = pe_checksum data (checksum_field data).
Proof.
  intros Hb Hok. destruct (with_field_ok data v Hb Hok) as (_ & _ & _ & EL). destruct Hok as (Hm & Ha & Hr & Hs).
  assert (0 <= le_at data 60 4) by (apply unle_bound; apply bytes_slice; assumption).
  unfold pe_checksum. rewrite EL, with_field_twice; [reflexivity| |]; unfold checksum_field in *; lia.
Qed.
Lemma checksum_store data v strict strict' : bytes data -> checksum_field_ok data ->
  snd (calculate_checksum (open_stream strict (with_field data (checksum_field data) v))) =
  snd (calculate_checksum (open_stream strict' data)).
Proof.
  intros Hb Hok. destruct (with_field_ok data v Hb Hok) as (B' & Hok' & EF & _).
  destruct (checksum_of_file _ strict B' Hok') as (s1 & E1 & _).
  destruct (checksum_of_file _ strict' Hb Hok) as (s2 & E2 & _).
  rewrite E1, E2. cbn [snd]. rewrite EF, checksum_ignores_field by assumption. reflexivity.
Qed.
Lemma checksum_safe f : wf_stream f -> safe (snd (calculate_checksum f)).
Proof.
  intros (Hb & Hl & Hp & Hs). unfold calculate_checksum, with_restore. destruct (tellg f) as [s0 old].
  match goal with |- context [let '(_, _) := ?m s0 in _] => assert (forall s, safe (snd (m s))) as H end.
  { assert (forall n i skip c s, safe (snd (checksum_loop n i skip c s))) as HL.
    { induction n as [|n IH]; intros i skip c s; cbn [checksum_loop]; [exact I|]. unfold sbind, s_read_into.
      change ((0 <=? 0) && (0 <=? 4) && (0 + 4 <=? zlen (zeros 4))) with true. cbn iota.
      destruct (is_read 4 s) as [s' d]. apply IH. }
    intros s. unfold sbind at 1, read_dos_header, sbind at 1, s_check_eof at 1.
    destruct (i_eof s); [exact I|]. cbn [throw_if].
    unfold sbind at 1, s_read_into at 1. change ((0 <=? 0) && (0 <=? sizeof_dos) && (0 + sizeof_dos <=? zlen (zeros 64))) with true. cbn iota.
    destruct (is_read sizeof_dos s) as [s1 d]. unfold sbind at 1, s_check_eof at 1. destruct (i_eof s1); [exact I|]. cbn [throw_if].
    unfold sbind at 1, sthrow_if, slift. destruct (negb _); [exact I|]. cbn [throw_if sret].
    unfold sbind at 1, s_seek at 1. unfold sbind at 1, get_file_size, sbind at 1, s_tell at 1.
    destruct (tellg (seekg 0 s1)) as [s2 v]. unfold sbind at 1. unfold sbind at 1, s_tell. destruct (tellg (seekg_end s2)) as [s3 v3].
    unfold sbind at 1, s_seek, sret at 1. unfold sbind at 1.
    match goal with |- context [checksum_loop ?n ?i ?k ?c ?s] => specialize (HL n i k c s); destruct (checksum_loop n i k c s) as [s4 [a|e|k'|]] end;
      cbn [snd safe] in *; auto. }
  specialize (H s0). cbv zeta in *. match type of H with safe (snd ?x) => destruct x as [s1 r] end. exact H.
Qed.
