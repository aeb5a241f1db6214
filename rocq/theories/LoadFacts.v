(** Lemmas about LoadModel.v. *)
From Verif Require Export LoadModel SpecLoad PeFacts.

(** ** Weakest preconditions *)
Definition wp {A} (m : sm A) (Q : A -> istream -> Prop) (E : exc -> istream -> Prop) (s : istream) : Prop :=
  match m s with
  | (s', Ok a) => Q a s'
  | (s', Throw e) => E e s'
  | _ => False
  end.
Lemma wp_bind {A B} (m : sm A) (f : A -> sm B) Q E s :
  wp m (fun a s' => wp (f a) Q E s') E s -> wp (sbind m f) Q E s.
Proof. unfold wp, sbind. destruct (m s) as [s' [a|e|k|]]; auto. Qed.
Lemma wp_ret {A} (a : A) (Q : A -> istream -> Prop) E s : Q a s -> wp (sret a) Q E s.
Proof. exact (fun H => H). Qed.
Lemma wp_throw c e (Q : unit -> istream -> Prop) (E : exc -> istream -> Prop) s :
  (c = true -> E e s) -> (c = false -> Q tt s) -> wp (sthrow_if c e) Q E s.
Proof. unfold wp, sthrow_if, slift. destruct c; cbn; auto. Qed.
Lemma wp_conseq {A} (m : sm A) (Q Q' : A -> istream -> Prop) E s :
  wp m Q' E s -> (forall a s', Q' a s' -> Q a s') -> wp m Q E s.
Proof. unfold wp. destruct (m s) as [s' [a|e|k|]]; auto. Qed.

Section Stream.
  Variable data : list Z.
  Variable strict : bool.
  (** A stream in working order. *)
  Definition G (s : istream) : Prop :=
    i_data s = data /\ i_strict s = strict /\ i_fail s = false /\ i_eof s = false /\ 0 <= i_pos s.
  (** What is known when an exception leaves. *)
  Definition Ex (e : exc) (s : istream) : Prop :=
    i_data s = data /\ i_strict s = strict /\ (i_fail s = false \/ In e io_errors).
  Lemma G_Ex e s : G s -> Ex e s.
  Proof. unfold G, Ex; tauto. Qed.
  Lemma Ex_io e s : i_data s = data -> i_strict s = strict -> In e io_errors -> Ex e s.
  Proof. unfold Ex; tauto. Qed.

  (** file.read into a buffer followed by the eof check. *)
  Lemma wp_read {A} buf n e (k : list Z -> sm A) Q s :
    G s -> 0 <= n <= zlen buf -> In e io_errors ->
    (forall s', zlen (slice data (i_pos s) n) = n -> G s' -> i_pos s' = i_pos s + n ->
       wp (k (splice buf 0 (slice data (i_pos s) n))) Q Ex s') ->
    wp (b <~ s_read_into buf 0 n ; s_check_eof e ~; k b) Q Ex s.
  Proof.
    intros (Hd & Hs & Hf & He & Hp) Hn Hin K. apply wp_bind. unfold wp at 1, s_read_into.
    replace ((0 <=? 0) && (0 <=? n) && (0 + n <=? zlen buf)) with true by lia.
    unfold is_read, i_good. rewrite Hf, He. cbn [negb andb]. rewrite Hd.
    pose proof (zlen_nonneg (slice data (i_pos s) n)) as Hz.
    destruct (Z.ltb_spec (zlen (slice data (i_pos s) n)) n) as [L|L].
    - apply wp_bind. unfold wp at 1, s_check_eof. cbn [set_i_flags i_eof throw_if].
      apply Ex_io; assumption.
    - assert (zlen (slice data (i_pos s) n) = n) as Hl.
      { enough (zlen (slice data (i_pos s) n) <= n) by lia.
        unfold slice, zlen; rewrite firstn_length; lia. }
      apply wp_bind. unfold wp at 1, s_check_eof. cbn [set_i_pos i_eof]. rewrite He. cbn [throw_if].
      apply K; [assumption| |reflexivity]. unfold G; cbn [set_i_pos i_data i_strict i_fail i_eof i_pos].
      repeat split; try assumption; lia.
  Qed.
  Lemma splice_zeros n b : 0 <= n -> zlen b = n -> splice (zeros n) 0 b = b.
  Proof.
    intros Hn Hb. unfold splice. rewrite ztake_0 by lia. cbn [app].
    rewrite zdrop_all by (rewrite zlen_zeros; lia). apply app_nil_r.
  Qed.
  Lemma wp_readz {A} n e (k : list Z -> sm A) Q s :
    G s -> 0 <= n -> In e io_errors ->
    (forall s', zlen (slice data (i_pos s) n) = n -> G s' -> i_pos s' = i_pos s + n ->
       wp (k (slice data (i_pos s) n)) Q Ex s') ->
    wp (b <~ s_read_into (zeros n) 0 n ; s_check_eof e ~; k b) Q Ex s.
  Proof.
    intros HG Hn Hin K. apply wp_read; [assumption|rewrite zlen_zeros; lia|assumption|].
    intros s' Hl HG' Hp. rewrite splice_zeros by assumption. apply K; assumption.
  Qed.
  (** The same with the check of failbit. *)
  Lemma wp_readf {A} n e (k : list Z -> sm A) Q s :
    G s -> 0 <= n -> In e io_errors ->
    (forall s', zlen (slice data (i_pos s) n) = n -> G s' -> i_pos s' = i_pos s + n ->
       wp (k (slice data (i_pos s) n)) Q Ex s') ->
    wp (b <~ s_read_into (zeros n) 0 n ; s_check_fail e ~; k b) Q Ex s.
  Proof.
    intros (Hd & Hs & Hf & He & Hp) Hn Hin K. apply wp_bind. unfold wp at 1, s_read_into.
    rewrite zlen_zeros by lia.
    replace ((0 <=? 0) && (0 <=? n) && (0 + n <=? n)) with true by lia.
    unfold is_read, i_good. rewrite Hf, He. cbn [negb andb]. rewrite Hd.
    pose proof (zlen_nonneg (slice data (i_pos s) n)) as Hz.
    destruct (Z.ltb_spec (zlen (slice data (i_pos s) n)) n) as [L|L].
    - apply wp_bind. unfold wp at 1, s_check_fail. cbn [set_i_flags i_fail throw_if].
      apply Ex_io; assumption.
    - assert (zlen (slice data (i_pos s) n) = n) as Hl.
      { enough (zlen (slice data (i_pos s) n) <= n) by lia.
        unfold slice, zlen; rewrite firstn_length; lia. }
      rewrite splice_zeros by assumption.
      apply wp_bind. unfold wp at 1, s_check_fail. cbn [set_i_pos i_fail]. rewrite Hf. cbn [throw_if].
      apply K; [assumption| |reflexivity]. unfold G; cbn [set_i_pos i_data i_strict i_fail i_eof i_pos].
      repeat split; try assumption; lia.
  Qed.
  Lemma slice_room {A} (l : list A) off n : 0 <= off -> 0 < n -> zlen (slice l off n) = n -> off + n <= zlen l.
  Proof. unfold slice, zlen; intros. rewrite firstn_length, skipn_length in H1. lia. Qed.
  (** A seek that is checked. *)
  Lemma wp_seek_checked {A} pos e (k : sm A) Q s :
    G s -> In e io_errors ->
    (forall s', 0 <= pos -> G s' -> i_pos s' = pos -> wp k Q Ex s') ->
    wp (s_seek pos ~; s_check_fail e ~; k) Q Ex s.
  Proof.
    intros (Hd & Hs & Hf & He & Hp) Hin K. apply wp_bind. unfold wp at 1, s_seek, seekg. rewrite Hf.
    destruct ((pos <? 0) || (i_strict s && (zlen (i_data s) <? pos))) eqn:C.
    - apply wp_bind. unfold wp at 1, s_check_fail. cbn [set_i_flags i_fail throw_if]. apply Ex_io; assumption.
    - apply wp_bind. unfold wp at 1, s_check_fail. cbn [set_i_pos set_i_flags i_fail throw_if].
      apply K; [lia| |reflexivity]. unfold G; cbn [set_i_pos set_i_flags i_data i_strict i_fail i_eof i_pos].
      repeat split; try assumption; lia.
  Qed.
  (** A seek to a place known to be inside. *)
  Lemma wp_seek {A} pos (k : sm A) Q s :
    G s -> 0 <= pos -> (strict = true -> pos <= zlen data) ->
    (forall s', G s' -> i_pos s' = pos -> wp k Q Ex s') ->
    wp (s_seek pos ~; k) Q Ex s.
  Proof.
    intros (Hd & Hs & Hf & He & Hp) H0 Hle K. apply wp_bind. unfold wp at 1, s_seek, seekg. rewrite Hf.
    destruct ((pos <? 0) || (i_strict s && (zlen (i_data s) <? pos))) eqn:C.
    - exfalso. rewrite Hs, Hd in C. destruct strict; cbn [andb] in C; [specialize (Hle eq_refl)|]; lia.
    - apply K; [|reflexivity]. unfold G; cbn [set_i_pos set_i_flags i_data i_strict i_fail i_eof i_pos].
      repeat split; assumption.
  Qed.
  Lemma wp_tell {A} (k : Z -> sm A) Q s : G s -> wp (k (i_pos s)) Q Ex s -> wp (p <~ s_tell ; k p) Q Ex s.
  Proof.
    intros (Hd & Hs & Hf & He & Hp) K. apply wp_bind. unfold wp at 1, s_tell, tellg, i_good. rewrite Hf, He. exact K.
  Qed.
  Lemma wp_throw_then {A} c e (k : sm A) Q s :
    G s -> (c = false -> wp k Q Ex s) -> wp (sthrow_if c e ~; k) Q Ex s.
  Proof. intros HG K. apply wp_bind. apply wp_throw; [intros _; apply G_Ex; assumption|exact K]. Qed.
  (** get_file_size gives the length and does not move. *)
  Lemma wp_file_size {A} (k : Z -> sm A) Q s :
    G s -> (strict = true -> i_pos s <= zlen data) ->
    (forall s', G s' -> i_pos s' = i_pos s -> wp (k (zlen data)) Q Ex s') ->
    wp (n <~ get_file_size ; k n) Q Ex s.
  Proof.
    intros HG Hle K. pose proof HG as (Hd & Hs & Hf & He & Hp). pose proof (zlen_nonneg data).
    apply wp_bind. unfold get_file_size.
    apply wp_tell; [assumption|]. apply wp_bind.
    assert (seekg_end s = set_i_pos (zlen data) (set_i_flags false false s)) as Eend.
    { unfold seekg_end, seekg. rewrite Hf, Hd, Hs.
      replace ((zlen data <? 0) || (strict && (zlen data <? zlen data))) with false by (destruct strict; cbn [andb]; lia).
      reflexivity. }
    unfold wp at 1. rewrite Eend.
    apply wp_tell.
    { unfold G; cbn [set_i_pos set_i_flags i_data i_strict i_fail i_eof i_pos]. repeat split; assumption. }
    cbn [set_i_pos set_i_flags i_pos].
    apply wp_seek.
    - unfold G; cbn [set_i_pos set_i_flags i_data i_strict i_fail i_eof i_pos]. repeat split; assumption.
    - assumption.
    - assumption.
    - intros s' HG' Hp'. apply wp_ret. apply K; assumption.
  Qed.
End Stream.

(** ** One section header *)
Lemma le_at_bound file off n : bytes file -> 0 <= off -> 0 <= n -> off + n <= zlen file -> 0 <= le_at file off n < 256 ^ n.
Proof.
  intros B Ho Hn Hl. unfold le_at. pose proof (unle_bound (slice file off n) (bytes_slice _ _ _ B)) as U.
  rewrite zlen_slice in U by assumption. exact U.
Qed.
Lemma floor_mult_down x a : power_of_two a -> a < 2^32 -> is_u32 x -> align_down x a = floor_mult x a.
Proof.
  unfold is_u32. intros P L H. rewrite align_down_pow2 by assumption. unfold floor_mult.
  pose proof (Z.div_mod x a (Z.neq_sym _ _ (Z.lt_neq _ _ (pow2_pos _ P)))). lia.
Qed.
Lemma ceil_le_2_31 x a : power_of_two a -> a < 2^32 -> x <= 2^31 -> ceil_mult x a <= 2^31.
Proof.
  intros P L H. apply ceil_mult_least; [apply pow2_pos; assumption| |assumption].
  destruct (pow2_lt32 _ P L) as [k [Hk ->]].
  apply pow2_divide; [exists k; split; [lia|reflexivity]|exists 31; split; [lia|reflexivity]|].
  apply Z.pow_le_mono_r; lia.
Qed.
Lemma ceil_0 a : 0 < a -> ceil_mult 0 a = 0.
Proof. intros; apply ceil_mult_id; [assumption|apply Z.mod_0_l; lia]. Qed.
Lemma ceil_pos x a : 0 < a -> 0 < x -> 0 < ceil_mult x a.
Proof. intros. pose proof (ceil_mult_least x a H); lia. Qed.
Lemma ceil_mult_le_pow2 x a b : power_of_two a -> power_of_two b -> a <= b -> ceil_mult x a <= ceil_mult x b.
Proof.
  intros Pa Pb L. pose proof (pow2_pos _ Pa). pose proof (pow2_pos _ Pb).
  apply ceil_mult_least; [assumption| |apply ceil_mult_least; assumption].
  apply Z.divide_trans with b; [apply pow2_divide; assumption|apply ceil_mult_least; assumption].
Qed.

Section Loader.
  Variable data : list Z.
  Variable strict : bool.
  Hypothesis Hb : bytes data.

  Lemma read_section_spec h from_mem s :
    G data strict s -> ok_alignments h -> is_u32 (h_imagesize h) ->
    0 < ceil_mult (h_imagesize h) (h_salign h) < 2^32 ->
    wp (read_section h (zlen data) from_mem)
       (fun r s' => G data strict s' /\ i_pos s' = i_pos s + 40 /\ i_pos s + 40 <= zlen data /\
          section_from_file data h from_mem (i_pos s) (fst r) /\ section_limits h (fst r) /\ wf_section (fst r) /\
          s_rawptr (fst r) + le_at data (i_pos s + 16) 4 < 2^32 /\
          snd r = (if le_at data (i_pos s + 16) 4 =? 0 then None else Some (le_at data (i_pos s + 16) 4)))
       (Ex data strict) s.
  Proof.
    intros HG (PS & PF & LS & LFS & _) HI HC. unfold is_u32 in HI.
    pose proof (pow2_pos _ PS) as PS0. pose proof (pow2_pos _ PF) as PF0.
    assert (h_falign h < 2^32) as LF by lia.
    set (off := i_pos s) in *. assert (0 <= off) as Hoff by (destruct HG as (_&_&_&_&?); assumption).
    unfold read_section. change (zeros 40) with (zeros sizeof_section_header).
    apply wp_readz; [assumption|unfold sizeof_section_header; lia|cbn; tauto|]. fold off.
    intros s1 Hl G1 P1. change sizeof_section_header with 40 in *.
    assert (off + 40 <= zlen data) as Room by (apply slice_room; [assumption|lia|assumption]).
    apply wp_tell; [assumption|]. rewrite P1.
    set (b := slice data off 40).
    assert (forall k n, 0 <= k -> 0 <= n -> k + n <= 40 -> unle (slice b k n) = le_at data (off + k) n) as F.
    { intros k n Hk Hn Hkn. unfold b, le_at. rewrite slice_slice by lia. reflexivity. }
    assert (forall k n, 0 <= k -> 0 <= n -> k + n <= 40 -> 0 <= le_at data (off + k) n < 256 ^ n) as Bd.
    { intros k n Hk Hn Hkn. apply le_at_bound; [assumption|lia|lia|lia]. }
    assert (slice b 0 8 = slice data off 8) as Nm.
    { unfold b. rewrite slice_slice by lia. f_equal; lia. }
    unfold section_of_bytes. cbn [s_rawsize s_vsize s_va s_rawptr]. rewrite Nm, !F by lia.
    pose proof (Bd 8 4 ltac:(lia) ltac:(lia) ltac:(lia)) as B1. pose proof (Bd 12 4 ltac:(lia) ltac:(lia) ltac:(lia)) as B2.
    pose proof (Bd 16 4 ltac:(lia) ltac:(lia) ltac:(lia)) as B3. pose proof (Bd 20 4 ltac:(lia) ltac:(lia) ltac:(lia)) as B4.
    pose proof (Bd 24 4 ltac:(lia) ltac:(lia) ltac:(lia)) as B5. pose proof (Bd 28 4 ltac:(lia) ltac:(lia) ltac:(lia)) as B6.
    pose proof (Bd 32 2 ltac:(lia) ltac:(lia) ltac:(lia)) as B7. pose proof (Bd 34 2 ltac:(lia) ltac:(lia) ltac:(lia)) as B8.
    pose proof (Bd 36 4 ltac:(lia) ltac:(lia) ltac:(lia)) as B9.
    change (256^4) with (2^32) in *. change (256^2) with (2^16) in *.
    set (V := le_at data (off + 8) 4) in *. set (A := le_at data (off + 12) 4) in *.
    set (R := le_at data (off + 16) 4) in *. set (P := le_at data (off + 20) 4) in *.
    apply wp_throw_then; [assumption|]. intros C1.
    apply wp_throw_then; [assumption|]. intros C2.
    assert (A + V < 2^32 /\ V <= 2^31 /\ P + R < 2^32 /\ R <= 2^31) as (L1 & L2 & L3 & L4).
    { apply orb_false_iff in C2 as [C2 C5]. apply orb_false_iff in C2 as [C2 C4].
      apply orb_false_iff in C2 as [C2 C3]. apply negb_false_iff in C2, C4.
      apply is_sum_safe_spec in C2; [|assumption]. apply is_sum_safe_spec in C4; [|assumption].
      unfold two_gb in *. change 0x80000000 with (2^31) in *. lia. }
    clear C2.
    assert (align_up V (h_salign h) = ceil_mult V (h_salign h)) as EV.
    { apply align_up_small; try assumption; try lia. pose proof (ceil_le_2_31 V _ PS LS L2); lia. }
    assert (align_up R (h_falign h) = ceil_mult R (h_falign h)) as ER.
    { apply align_up_small; try assumption; try lia. pose proof (ceil_le_2_31 R _ PF LF L4); lia. }
    assert (align_up (h_imagesize h) (h_salign h) = ceil_mult (h_imagesize h) (h_salign h)) as EI.
    { apply align_up_small; try assumption; lia. }
    set (nm := slice data off 8) in *.
    set (R' := if ceil_mult V (h_salign h) <? ceil_mult R (h_falign h) then V else R).
    assert (0 <= R' <= 2^31) as HR' by (unfold R'; case_if CR; lia).
    apply wp_bind.
    match goal with |- wp _ ?q _ _ => apply wp_conseq with (Q' := fun r s' =>
      G data strict s' /\
      fst r = mk_section nm V A R' P (le_at data (off + 24) 4) (le_at data (off + 28) 4) (le_at data (off + 32) 2)
                (le_at data (off + 34) 2) (le_at data (off + 36) 4)
                (slice data (if from_mem then floor_mult A (h_salign h) else floor_mult P (h_falign h)) R') None /\
      zlen (slice data (if from_mem then floor_mult A (h_salign h) else floor_mult P (h_falign h)) R') = R' /\
      snd r = (if R =? 0 then None else Some R)) end.
    - destruct (Z.eqb_spec R 0) as [R0|R0]; cbn [negb].
      + apply wp_ret. cbn [fst snd]. assert (R' = 0) as ->.
        { unfold R'. rewrite R0, ceil_0 by assumption.
          destruct (Z.ltb_spec (ceil_mult V (h_salign h)) 0) as [L|L]; [|reflexivity].
          pose proof (ceil_mult_least V _ PS0); lia. }
        split; [assumption|]. rewrite R0. repeat split.
      + unfold set_s_rawsize.
        set (s2 := if _ <? _ then _ else _).
        assert (s2 = mk_section nm V A R' P (le_at data (off + 24) 4) (le_at data (off + 28) 4) (le_at data (off + 32) 2)
                (le_at data (off + 34) 2) (le_at data (off + 36) 4) [] None) as ->.
        { unfold s2, R'. cbn [s_rawsize s_vsize]. rewrite EV, ER. case_if CR; reflexivity. }
        cbn [s_rawsize s_vsize s_va s_rawptr].
        apply wp_throw_then; [assumption|]. intros _.
        apply wp_seek_checked; [assumption|cbn; tauto|]. intros s3 Hp3 G3 P3.
        apply wp_readf; [assumption|lia|cbn; tauto|]. intros s4 Hl4 G4 P4. rewrite P3 in *.
        assert ((if from_mem then align_down A (h_salign h) else align_down P (h_falign h)) =
                (if from_mem then floor_mult A (h_salign h) else floor_mult P (h_falign h))) as EA.
        { destruct from_mem; apply floor_mult_down; assumption. }
        rewrite EA in *.
        apply wp_ret. cbn [fst snd]. split; [assumption|]. split; [reflexivity|]. split; [assumption|reflexivity].
    - intros [s2 last] s3 (G3 & E2 & Hz & Hlast). cbn [fst snd] in E2, Hlast. subst s2 last.
      set (ad := if from_mem then _ else _) in *.
      set (sec := mk_section _ _ _ _ _ _ _ _ _ _ _ _) in *.
      assert (aligned_vsize (h_salign h) sec = span (h_salign h) sec) as ES.
      { apply aligned_vsize_span; [assumption|assumption|exact B1| |].
        - unfold is_u32; unfold sec; cbn [s_rawsize]; lia.
        - unfold span; unfold sec; cbn [s_vsize s_rawsize].
          destruct (V =? 0); [pose proof (ceil_le_2_31 R' _ PS LS ltac:(lia))|pose proof (ceil_le_2_31 V _ PS LS L2)]; lia. }
      rewrite ES. change (s_va sec) with A. fold (send (h_salign h) sec). rewrite EI.
      apply wp_throw_then; [assumption|]. intros C3.
      apply wp_seek; [assumption|lia|intros _; lia|]. intros s4 G4 P4. apply wp_ret.
      split; [assumption|]. split; [assumption|]. split; [assumption|]. cbn [fst snd]. split; [|split; [|split; [|split; [exact L3|reflexivity]]]].
      + unfold section_from_file. unfold sec; cbn [s_name s_vsize s_va s_rawptr s_relptr s_lineptr s_nrel s_nline s_chars s_old s_rawsize s_data].
        fold V A R P ad. fold R'. repeat split; assumption.
      + unfold section_limits. unfold sec; cbn [s_va s_vsize s_rawsize].
        split; [assumption|]. split; [assumption|]. split; [lia|]. split.
        * unfold R'. destruct (Z.ltb_spec (ceil_mult V (h_salign h)) (ceil_mult R (h_falign h))) as [L|L]; [|assumption].
          apply ceil_mult_le_pow2; assumption.
        * apply Z.ltb_ge in C3. exact C3.
      + unfold wf_section, is_u32, is_u16. unfold sec; cbn [s_name s_vsize s_va s_rawptr s_relptr s_lineptr s_nrel s_nline s_chars s_old s_rawsize s_data].
        change (Z.pow_pos 2 32) with (2^32).
        split; [apply bytes_slice; assumption|]. split; [apply zlen_slice; lia|].
        split; [assumption|]. split; [assumption|]. split; [lia|]. split; [assumption|]. split; [assumption|].
        split; [assumption|]. split; [assumption|]. split; [assumption|]. split; [assumption|].
        split; [apply bytes_slice; assumption|]. split; [|exact I]. rewrite Hz. lia.
  Qed.

  (** SizeOfRawData of the last of the first [n] section headers that has one. *)
  Fixpoint last_raw (start : Z) (n : nat) : Z :=
    match n with
    | O => 0
    | S k => let raw := le_at data (start + 40 * Z.of_nat k + 16) 4 in if raw =? 0 then last_raw start k else raw
    end.
  Lemma read_sections_spec h from_mem start n :
    ok_alignments h -> is_u32 (h_imagesize h) -> 0 < ceil_mult (h_imagesize h) (h_salign h) < 2^32 ->
    forall acc last s,
    G data strict s -> i_pos s = start + 40 * zlen acc ->
    (forall i x, nth_error acc i = Some x -> section_from_file data h from_mem (start + 40 * Z.of_nat i) x) ->
    Forall (section_limits h) acc -> Forall wf_section acc ->
    last = last_raw start (length acc) -> (forall i x, nth_error acc i = Some x -> s_rawptr x + le_at data (start + 40 * Z.of_nat i + 16) 4 < 2^32) ->
    wp (read_sections n h (zlen data) from_mem acc last)
       (fun r s' => G data strict s' /\ zlen (fst r) = zlen acc + Z.of_nat n /\
          (forall i x, nth_error (fst r) i = Some x -> section_from_file data h from_mem (start + 40 * Z.of_nat i) x) /\
          Forall (section_limits h) (fst r) /\ Forall wf_section (fst r) /\
          snd r = last_raw start (length (fst r)) /\ (forall i x, nth_error (fst r) i = Some x -> s_rawptr x + le_at data (start + 40 * Z.of_nat i + 16) 4 < 2^32))
       (Ex data strict) s.
  Proof.
    intros HA HI HC. induction n as [|n IH]; intros acc last s HG Hp Hacc HL HW HR HP; cbn [read_sections].
    - apply wp_ret. cbn [fst snd]. split; [assumption|]. split; [lia|]. split; [assumption|]. split; [assumption|]. split; [assumption|]. split; assumption.
    - apply wp_bind. eapply wp_conseq; [apply read_section_spec; assumption|].
      intros [x l] s' (G' & P' & _ & F & L & W & B & El). cbn [fst snd] in *.
      eapply wp_conseq; [apply IH|].
      + assumption.
      + rewrite zlen_app. change (zlen [x]) with 1. lia.
      + intros i y Hy. destruct (Nat.lt_ge_cases i (length acc)) as [Hi|Hi].
        * rewrite nth_error_app1 in Hy by assumption. apply Hacc; assumption.
        * rewrite nth_error_app2 in Hy by assumption.
          destruct (i - length acc)%nat as [|j] eqn:E; [|destruct j; discriminate].
          cbn [nth_error] in Hy. inversion Hy; subst y.
          replace (start + 40 * Z.of_nat i) with (i_pos s); [assumption|]. rewrite Hp. unfold zlen. lia.
      + apply Forall_app; split; [assumption|constructor; [assumption|constructor]].
      + apply Forall_app; split; [assumption|constructor; [assumption|constructor]].
      + rewrite app_length. cbn [length]. rewrite Nat.add_1_r. cbn [last_raw]. cbv zeta. subst l last.
        replace (start + 40 * Z.of_nat (length acc) + 16) with (i_pos s + 16) by (rewrite Hp; unfold zlen; lia).
        destruct (le_at data (i_pos s + 16) 4 =? 0); reflexivity.
      + intros i y Hy. destruct (Nat.lt_ge_cases i (length acc)) as [Hi|Hi].
        * rewrite nth_error_app1 in Hy by assumption. apply HP; assumption.
        * rewrite nth_error_app2 in Hy by assumption.
          destruct (i - length acc)%nat as [|j] eqn:E; [|destruct j; discriminate].
          cbn [nth_error] in Hy. inversion Hy; subst y.
          replace (start + 40 * Z.of_nat i) with (i_pos s); [assumption|]. rewrite Hp. unfold zlen. lia.
      + intros r s2. cbn [fst]. rewrite zlen_app. change (zlen [x]) with 1.
        intros (A1 & A2 & A3). split; [assumption|]. split; [lia|assumption].
  Qed.
End Loader.

(** ** Headers *)
Lemma nt_fields_of plus l dirs :
  length l = length (nt_widths plus) -> nt_fields plus (nt_of_fields plus l dirs) = l.
Proof.
  destruct plus; cbn [nt_widths length]; intros H.
  - do 37 (destruct l as [|? l]; [discriminate H|]). destruct l; [reflexivity|discriminate H].
  - do 38 (destruct l as [|? l]; [discriminate H|]). destruct l; [reflexivity|discriminate H].
Qed.
Lemma nt_fields_dirs plus d h : nt_fields plus (set_h_dirs d h) = nt_fields plus h.
Proof. destruct plus, h; reflexivity. Qed.
Lemma set_nrva_dirs d n h : set_h_nrva n (set_h_dirs d h) = set_h_dirs d (set_h_nrva n h).
Proof. destruct h; reflexivity. Qed.
Lemma set_nrva_same h : set_h_nrva (h_nrva h) h = h.
Proof. destruct h; reflexivity. Qed.
Lemma set_nrva_twice n m h : set_h_nrva n (set_h_nrva m h) = set_h_nrva n h.
Proof. destruct h; reflexivity. Qed.
Lemma dirs_of_nt plus l d : h_dirs (nt_of_fields plus l d) = d.
Proof. destruct plus; reflexivity. Qed.
Lemma nth_fits ws vs i : fits ws vs -> (i < length ws)%nat -> 0 <= nth i vs 0 < 256 ^ Z.of_nat (nth i ws O).
Proof.
  revert vs i; induction ws as [|w ws IH]; intros [|v vs] i H Hi; cbn [fits length] in *; try contradiction; try lia.
  destruct H as [Hv H]. destruct i as [|i]; cbn [nth]; [assumption|]. apply IH; [assumption|lia].
Qed.
Definition nt_ranges (h : nt_headers) : Prop :=
  is_u16 (h_nsections h) /\ is_u16 (h_optsize h) /\ is_u32 (h_nrva h) /\ is_u32 (h_salign h) /\ is_u32 (h_falign h) /\
  is_u32 (h_imagesize h) /\ is_u32 (h_hdrsize h) /\ is_u16 (h_chars h) /\ is_u32 (h_checksum h).
Lemma fits_ranges plus h : fits (nt_widths plus) (nt_fields plus h) -> nt_ranges h.
Proof.
  unfold nt_ranges, is_u32, is_u16. intros F.
  destruct plus; cbn [nt_widths nt_fields fits] in F;
    change (256 ^ Z.of_nat 4) with (2^32) in F; change (256 ^ Z.of_nat 2) with (2^16) in F;
    decompose [and] F; clear F; repeat match goal with |- _ /\ (_ /\ _) => split end; try (split; assumption).
Qed.
Lemma fits_nrva plus h n : 0 <= n < 2^32 -> fits (nt_widths plus) (nt_fields plus h) ->
  fits (nt_widths plus) (nt_fields plus (set_h_nrva n h)).
Proof.
  intros Hn F. destruct plus, h; cbn [nt_widths nt_fields fits set_h_nrva] in *;
  repeat match goal with H : _ /\ _ |- _ => destruct H end; repeat split; try assumption; apply Hn.
Qed.
Lemma fits_length ws vs : fits ws vs -> length vs = length ws.
Proof.
  revert vs; induction ws as [|w ws IH]; intros [|v vs] H; cbn [fits length] in *; try contradiction; [reflexivity|].
  f_equal; apply IH; tauto.
Qed.
Lemma slice_zdrop {A} (l : list A) a b n : 0 <= a -> 0 <= b -> slice (zdrop a l) b n = slice l (a + b) n.
Proof. intros; rewrite !slice_take_drop, zdrop_zdrop by lia. f_equal; f_equal; lia. Qed.
Lemma dirs_of_bytes_length k l : length (dirs_of_bytes k l) = k.
Proof. revert l; induction k as [|k IH]; intros; cbn [dirs_of_bytes length]; [reflexivity|rewrite IH; reflexivity]. Qed.
Lemma dirs_of_bytes_nth k l i d : nth_error (dirs_of_bytes k l) i = Some d ->
  (i < k)%nat /\ d = (unle (slice l (8 * Z.of_nat i) 4), unle (slice l (8 * Z.of_nat i + 4) 4)).
Proof.
  revert l i; induction k as [|k IH]; intros l i; cbn [dirs_of_bytes]; [destruct i; discriminate|].
  destruct i as [|i]; cbn [nth_error].
  - intros E; inversion E. split; [lia|reflexivity].
  - intros E. apply IH in E as [Hi ->]. split; [lia|]. rewrite !slice_zdrop by lia. f_equal; f_equal; f_equal; lia.
Qed.
Lemma unle_slice_zeros n a k : unle (slice (zeros n) a k) = 0.
Proof.
  assert (Forall (eq 0) (slice (zeros n) a k)) as F.
  { unfold slice. apply Forall_forall. intros x Hx.
    assert (In x (zeros n)) as Hz.
    { rewrite <- (firstn_skipn (Z.to_nat a) (zeros n)). apply in_or_app; right.
      rewrite <- (firstn_skipn (Z.to_nat k) (skipn (Z.to_nat a) (zeros n))). apply in_or_app; left. exact Hx. }
    apply repeat_spec in Hz. congruence. }
  induction F as [|x l <- F IH]; cbn [unle]; lia.
Qed.
Lemma dirs_from_file data pos N i d :
  0 <= pos -> 0 <= N <= 16 -> zlen (slice data pos (8 * N)) = 8 * N ->
  nth_error (dirs_of_bytes 16 (splice (zeros 128) 0 (slice data pos (8 * N)))) i = Some d ->
  d = (if Z.of_nat i <? N then (le_at data (pos + 8 * Z.of_nat i) 4, le_at data (pos + 8 * Z.of_nat i + 4) 4) else (0, 0)).
Proof.
  intros Hp HN Hl E. apply dirs_of_bytes_nth in E as [Hi ->].
  assert (zlen (zeros 128) = 128) as Z128 by reflexivity.
  destruct (Z.ltb_spec (Z.of_nat i) N) as [L|L].
  - rewrite !slice_splice_inside by lia. rewrite !slice_slice by lia. unfold le_at. f_equal; f_equal; f_equal; lia.
  - rewrite !slice_splice_after by lia. rewrite !unle_slice_zeros. reflexivity.
Qed.
Lemma dec_fields_nth ws i l : (i < length ws)%nat ->
  nth i (dec_fields ws l) 0 = unle (firstn (nth i ws O) (skipn (fold_right Nat.add O (firstn i ws)) l)).
Proof.
  revert i l; induction ws as [|w ws IH]; intros i l Hi; cbn [length] in Hi; [lia|].
  destruct i as [|i]; cbn [dec_fields nth firstn fold_right]; [reflexivity|].
  rewrite IH by lia. rewrite skipn_add || idtac. f_equal. f_equal.
  generalize (fold_right Nat.add O (firstn i ws)) as k. clear. intros k. revert l.
  induction w as [|w IH]; intros l; [reflexivity|]. destruct l; [rewrite !skipn_nil; reflexivity|]. cbn [skipn Nat.add]. apply IH.
Qed.
Lemma fixed_size plus : sizeof_nt_nodirs plus = (if plus then 136 else 120).
Proof. reflexivity. Qed.
Lemma widths_nt plus : widths (nt_widths plus) = sizeof_nt_nodirs plus.
Proof. destruct plus; reflexivity. Qed.
Lemma count_at plus data off dirs :
  0 <= off ->
  h_nrva (nt_of_fields plus (dec_fields (nt_widths plus) (slice data off (sizeof_nt_nodirs plus))) dirs) =
  le_at data (off + sizeof_nt_nodirs plus - 4) 4.
Proof.
  intros Ho. unfold le_at.
  assert (forall k, 0 <= k -> k + 4 <= sizeof_nt_nodirs plus ->
    unle (firstn 4 (skipn (Z.to_nat k) (slice data off (sizeof_nt_nodirs plus)))) = unle (slice data (off + k) 4)) as H.
  { intros k Hk Hl. f_equal. change 4%nat with (Z.to_nat 4). fold (slice (slice data off (sizeof_nt_nodirs plus)) k 4).
    apply slice_slice; lia. }
  destruct plus.
  - change (h_nrva (nt_of_fields true (dec_fields (nt_widths true) (slice data off (sizeof_nt_nodirs true))) dirs))
      with (nth 36 (dec_fields (nt_widths true) (slice data off (sizeof_nt_nodirs true))) 0).
    rewrite dec_fields_nth by (cbn; lia).
    change (fold_right Nat.add O (firstn 36 (nt_widths true))) with (Z.to_nat 132).
    change (nth 36 (nt_widths true) O) with 4%nat. rewrite H by (cbn; lia). cbn [sizeof_nt_nodirs]. f_equal; f_equal; lia.
  - change (h_nrva (nt_of_fields false (dec_fields (nt_widths false) (slice data off (sizeof_nt_nodirs false))) dirs))
      with (nth 37 (dec_fields (nt_widths false) (slice data off (sizeof_nt_nodirs false))) 0).
    rewrite dec_fields_nth by (cbn; lia).
    change (fold_right Nat.add O (firstn 37 (nt_widths false))) with (Z.to_nat 116).
    change (nth 37 (nt_widths false) O) with 4%nat. rewrite H by (cbn; lia). cbn [sizeof_nt_nodirs]. f_equal; f_equal; lia.
Qed.
Lemma align_up_zero x : 0 <= x < 2^32 -> align_up x 0 = 0.
Proof.
  intros H. unfold align_up, align_up_w, align_down_w.
  destruct (Z.land x _ =? 0) eqn:E.
  - apply Z.eqb_eq in E. change (u32 (0 - 1) mod 2 ^ 32) with (Z.ones 32) in E. rewrite Z.land_ones in E by lia.
    rewrite Z.mod_small in E by lia. exact E.
  - replace (Z.land x _) with 0; [reflexivity|]. symmetry. apply Z.land_0_r.
Qed.
Lemma power_of_2_or_zero x : 0 <= x < 2^32 -> is_power_of_2 x = true -> x = 0 \/ power_of_two x.
Proof.
  intros H E. destruct (Z.eq_dec x 0) as [->|N]; [left; reflexivity|right].
  apply is_power_of_2_spec; [lia|assumption].
Qed.
Lemma alignments_checked h :
  nt_ranges h -> is_power_of_2 (h_salign h) = true -> is_power_of_2 (h_falign h) = true ->
  negb (h_falign h =? h_salign h) && ((h_falign h <? minimum_file_alignment) || (h_salign h <? h_falign h)) = false ->
  (align_up (h_imagesize h) (h_salign h) =? 0) = false ->
  ok_alignments h /\ 0 < ceil_mult (h_imagesize h) (h_salign h) < 2^32.
Proof.
  intros (_ & _ & _ & HS & HF & HI & _) C1 C2 C3 C4. unfold is_u32 in *.
  destruct (Z.eq_dec (h_salign h) 0) as [E|N].
  { rewrite E, align_up_zero in C4 by lia. discriminate. }
  apply power_of_2_or_zero in C1 as [C1|C1]; [lia| |lia].
  apply power_of_2_or_zero in C2; [|lia].
  change minimum_file_alignment with 512 in C3.
  assert (power_of_two (h_falign h)) as PF.
  { destruct C2 as [C2|C2]; [|assumption]. rewrite C2 in C3. exfalso. lia. }
  split.
  - split; [assumption|]. split; [assumption|]. split; [lia|]. split; lia.
  - pose proof (pow2_pos _ C1). pose proof (ceil_mult_least (h_imagesize h) _ H) as (_ & L & _).
    rewrite align_up_pow2 in C4 by (assumption || lia).
    pose proof (ceil_mult_bound32 _ _ C1 ltac:(lia) HI).
    destruct (Z.eq_dec (ceil_mult (h_imagesize h) (h_salign h)) (2^32)) as [E|E].
    + rewrite E in C4. discriminate.
    + rewrite u32_small in C4 by lia. lia.
Qed.
Lemma not_contiguous_spec sa l :
  not_contiguous sa l = false ->
  forall i s t, nth_error l i = Some s -> nth_error l (S i) = Some t -> s_va t = u32 (s_va s + aligned_vsize sa s).
Proof.
  induction l as [|a l IH]; intros H i s t Hs Ht; [destruct i; discriminate|].
  destruct l as [|b l]; [destruct i as [|i]; [discriminate|destruct i; discriminate]|].
  cbn [not_contiguous] in H. apply orb_false_iff in H as [H1 H2]. destruct i as [|i].
  - cbn in Hs, Ht. inversion Hs; inversion Ht; subst. lia.
  - apply (IH H2 i); assumption.
Qed.
Lemma limits_span h s :
  ok_alignments h -> section_limits h s -> wf_section s -> aligned_vsize (h_salign h) s = span (h_salign h) s.
Proof.
  intros (PS & _ & LS & _) (_ & L2 & L3 & _) W. destruct (wf_ranges s W) as (H1 & _ & H3 & _).
  apply aligned_vsize_span; try assumption. unfold span.
  destruct (s_vsize s =? 0);
    [pose proof (ceil_le_2_31 _ _ PS LS L3)|pose proof (ceil_le_2_31 _ _ PS LS L2)]; lia.
Qed.
Lemma limits_data h s :
  ok_alignments h -> section_limits h s -> wf_section s -> zlen (s_data s) = s_rawsize s -> zlen (s_data s) <= span (h_salign h) s.
Proof.
  intros (PS & PF & LS & _) (_ & L2 & L3 & L4 & _) W ->. destruct (wf_ranges s W) as (H1 & _ & H3 & _).
  pose proof (pow2_pos _ PS). pose proof (pow2_pos _ PF).
  pose proof (ceil_mult_least (s_rawsize s) _ H0) as (_ & A & _). unfold span.
  destruct (Z.eqb_spec (s_vsize s) 0) as [E|E]; [|lia].
  apply ceil_mult_least; assumption.
Qed.

(** What [read_pe] has established when the debug data are about to be read. *)
Definition loaded (data : list Z) (at_ : Z) (from_mem : bool) (p : pe) : Prop :=
  image_wf p /\ image_from_file data at_ from_mem p /\ image_checked p.

(** ... and about the question whether the file goes on behind the sections, and how much of the headers is kept. *)
Definition overlay_from_file (data : list Z) (p : pe) : Prop :=
  p_overlay p = match rev (p_sections p) with
                | x :: _ => u32 (s_rawptr x + last_raw data (section_header_at p 0) (length (p_sections p))) <? zlen data
                | [] => false
                end /\
  (forall i x, nth_error (p_sections p) i = Some x -> s_rawptr x + le_at data (section_header_at p i + 16) 4 < 2^32) /\
  zlen (p_full p) = full_headers_size (p_nt p) (zlen data) (p_sections p).

Section Loader2.
  Variable data : list Z.
  Variable strict : bool.
  Hypothesis Hb : bytes data.

  (** The part of read_pe that reads debug data. *)
  Definition debug_tail (read_debug : bool) (p : pe) : sm pe :=
    if read_debug then
      ex <~ slift (directory_exists p dir_debug) ;
      if ex then m <~ read_debug_data p ; sret (set_p_debug m p) else sret p
    else sret p.
  Lemma read_pe_spec plus from_mem read_debug at_ Q s :
    G data strict s -> i_pos s <= zlen data -> 0 <= at_ -> at_ + 64 <= zlen data -> le_at data at_ 2 = 0x5a4d ->
    (forall p s', G data strict s' -> p_plus p = plus -> p_debug p = [] -> loaded data at_ from_mem p -> overlay_from_file data p ->
       wp (debug_tail read_debug p) Q (Ex data strict) s') ->
    wp (read_pe plus (slice data at_ 64) from_mem read_debug) Q (Ex data strict) s.
  Proof.
    intros HG Hpos Hat Hroom Hmagic K. unfold read_pe.
    apply wp_file_size; [assumption|intros _; assumption|]. intros s1 G1 P1.
    assert (dos_lfanew (slice data at_ 64) = le_at data (at_ + 60) 4) as EL.
    { unfold dos_lfanew, le_at. rewrite slice_slice by lia. reflexivity. }
    rewrite EL. set (lf := le_at data (at_ + 60) 4).
    assert (0 <= lf < 2^32) as HL by (apply (le_at_bound data (at_ + 60) 4 Hb); lia).
    apply wp_throw_then; [assumption|]. intros C1.
    apply wp_seek_checked; [assumption|cbn; tauto|]. intros s2 HL2 G2 P2.
    assert (lf < 2^31 /\ s32 lf = lf) as [HL3 ES].
    { unfold s32, u32 in *. rewrite Z.mod_small in * by lia. destruct (Z.ltb_spec lf (2^31)); lia. }
    rewrite ES in *. clear ES HL2.
    set (fixed := sizeof_nt_nodirs plus). assert (120 <= fixed <= 136) as Hfx by (unfold fixed; destruct plus; cbn; lia).
    apply wp_readz; [assumption|lia|cbn; tauto|]. rewrite P2. intros s3 Hl3 G3 P3.
    assert (lf + fixed <= zlen data) as Room1 by (apply slice_room; [lia|lia|assumption]).
    set (hb := slice data lf fixed) in *.
    set (l := dec_fields (nt_widths plus) hb).
    assert (length l = length (nt_widths plus)) as Ll by apply dec_fields_length.
    assert (fits (nt_widths plus) l) as Fl by (apply dec_fields_fits, bytes_slice, Hb).
    set (h0 := nt_of_fields plus l (repeat (0, 0) 16)).
    assert (nt_fields plus h0 = l) as F0 by (apply nt_fields_of; assumption).
    assert (h_dirs h0 = repeat (0, 0) 16) as D0 by apply dirs_of_nt.
    assert (h_nrva h0 = le_at data (lf + fixed - 4) 4) as N0 by (apply count_at; lia).
    assert (0 <= h_nrva h0 < 2^32) as N1 by (rewrite N0; apply (le_at_bound data (lf + fixed - 4) 4 Hb); lia).
    assert (enc_fields (nt_widths plus) l = hb) as EH.
    { apply enc_dec_fields; [apply bytes_slice, Hb|]. rewrite widths_nt. exact Hl3. }
    apply wp_throw_then; [assumption|]. intros C2.
    set (h1 := if image_numberof_directory_entries <? h_nrva h0 then set_h_nrva image_numberof_directory_entries h0 else h0).
    assert (h1 = set_h_nrva (Z.min (h_nrva h0) 16) h0) as E1.
    { unfold h1. change image_numberof_directory_entries with 16. destruct (Z.ltb_spec 16 (h_nrva h0)).
      - f_equal; lia.
      - rewrite Z.min_l by lia. symmetry; apply set_nrva_same. }
    assert (h_nrva h1 = Z.min (h_nrva h0) 16) as N2 by (rewrite E1; reflexivity).
    apply wp_bind.
    match goal with |- wp _ ?q _ _ => apply wp_conseq with (Q' := fun h s' =>
      G data strict s' /\ exists d, h = set_h_dirs d h1 /\ headers_from_file data plus lf h) end.
    { assert (forall d, lf + fixed + 8 * h_nrva h1 <= zlen data -> length d = 16%nat ->
        (forall i x, nth_error d i = Some x ->
          x = (if Z.of_nat i <? h_nrva h1
               then (le_at data (lf + fixed + 8 * Z.of_nat i) 4, le_at data (lf + fixed + 8 * Z.of_nat i + 4) 4) else (0, 0))) ->
        headers_from_file data plus lf (set_h_dirs d h1)) as HF.
      { intros d Hr Hd Hx. unfold headers_from_file. rewrite <- (fixed_size plus). fold fixed. rewrite <- N0.
        cbn [set_h_dirs h_nrva h_dirs].
        split; [assumption|]. split; [assumption|]. split; [|split; assumption].
        rewrite set_nrva_dirs, nt_fields_dirs, E1, set_nrva_twice, set_nrva_same, F0. exact EH. }
      destruct (Z.ltb_spec 0 (h_nrva h1)) as [Hn|Hn].
      - apply wp_read; [assumption|change (zlen (zeros 128)) with 128; lia|cbn; tauto|].
        rewrite P3. intros s4 Hl4 G4 P4. apply wp_ret. split; [assumption|].
        exists (dirs_of_bytes 16 (splice (zeros 128) 0 (slice data (lf + fixed) (8 * h_nrva h1)))).
        split; [reflexivity|]. apply HF.
        + apply slice_room in Hl4; lia.
        + apply dirs_of_bytes_length.
        + intros i x Hx. apply dirs_from_file in Hx; [assumption|lia|lia|assumption].
      - apply wp_ret. split; [assumption|]. exists (repeat (0, 0) 16). split.
        + rewrite E1. replace (repeat (0, 0) 16) with (h_dirs h0) by exact D0. destruct h0; reflexivity.
        + replace h1 with (set_h_dirs (repeat (0, 0) 16) h1).
          2: { rewrite E1. replace (repeat (0, 0) 16) with (h_dirs h0) by exact D0. destruct h0; reflexivity. }
          apply HF; [lia|reflexivity|].
          intros i x Hx. replace (Z.of_nat i <? h_nrva h1) with false by lia.
          apply nth_error_In, repeat_spec in Hx. exact Hx. }
    intros h s4 (G4 & d & Eh & HF).
    assert (fits (nt_widths plus) (nt_fields plus h)) as Fh.
    { rewrite Eh, nt_fields_dirs, E1. apply fits_nrva; [lia|]. rewrite F0. exact Fl. }
    pose proof (fits_ranges _ _ Fh) as Rh.
    assert (h_nrva h = h_nrva h1) as EN by (rewrite Eh; reflexivity).
    assert (h_signature h = h_signature h0) as ESig by (rewrite Eh, E1; reflexivity).
    clearbody h1. clear Eh.
    apply wp_throw_then; [assumption|]. intros C3.
    apply wp_throw_then; [assumption|]. intros C4.
    apply wp_throw_then; [assumption|]. intros C5.
    apply wp_throw_then; [assumption|]. intros C6.
    apply wp_throw_then; [assumption|]. intros C7.
    apply wp_throw_then; [assumption|]. intros C8.
    apply negb_false_iff in C5, C6.
    destruct (alignments_checked h Rh C5 C6 C7 C8) as [HA HC]. clear C5 C6 C7 C8.
    assert (is_u32 (h_imagesize h)) as HI by (unfold nt_ranges in Rh; tauto).
    apply wp_bind.
    match goal with |- wp _ ?q _ _ => apply wp_conseq with (Q' := fun st s' =>
      G data strict s' /\ st = slice data 64 (lf - 64)) end.
    { change sizeof_dos with 64. destruct (Z.ltb_spec 64 lf) as [L|L].
      - apply wp_seek; [assumption|lia|intros _; lia|]. intros s5 G5 P5.
        apply wp_readz; [assumption|lia|cbn; tauto|]. rewrite P5. intros s6 Hl6 G6 P6. apply wp_ret. split; [assumption|reflexivity].
      - apply wp_ret. split; [assumption|]. symmetry. rewrite slice_take_drop. apply ztake_0; lia. }
    intros st s5 (G5 & Est).
    assert (u32 (lf + h_optsize h + 20 + 4) = lf + 24 + h_optsize h) as EF.
    { destruct Rh as (_ & Ro & _). unfold is_u16 in Ro. rewrite u32_small by lia. lia. }
    rewrite EF. set (start := lf + 24 + h_optsize h).
    assert (0 <= h_nsections h) as HN by (destruct Rh as (Rn & _); unfold is_u16 in Rn; lia).
    apply wp_bind.
    match goal with |- wp _ ?q _ _ => apply wp_conseq with (Q' := fun _ s' =>
      G data strict s' /\ (0 < h_nsections h -> i_pos s' = start)) end.
    { destruct (Z.ltb_spec 0 (h_nsections h)) as [L|L].
      - apply wp_bind. unfold wp at 1, s_seek.
        pose proof (wp_seek_checked data strict start image_section_headers_not_found (sret tt)
          (fun _ s' => G data strict s' /\ i_pos s' = start) s5 G5 ltac:(cbn; tauto)) as KS.
        unfold wp in KS. unfold wp, sbind, s_seek in *. cbn beta iota in *.
        destruct (s_check_fail image_section_headers_not_found (seekg start s5)) as [s6 [[]|e|k|]]; cbn in KS |- *;
          try (destruct KS as [K1 K2]; [|split; [exact K1|intros _; exact K2]]; intros; split; assumption).
        + apply KS. intros; split; assumption.
        + apply KS. intros; split; assumption.
        + apply KS. intros; split; assumption.
      - apply wp_ret. split; [assumption|lia]. }
    intros _ s6 (G6 & P6).
    apply wp_bind. eapply wp_conseq.
    { apply (read_sections_spec data strict Hb h from_mem (i_pos s6) (Z.to_nat (h_nsections h)) HA HI HC [] 0 s6 G6).
      - change (@zlen section []) with 0. lia.
      - intros [|i] x; discriminate.
      - constructor.
      - constructor.
      - reflexivity.
      - intros [|i] x; discriminate. }
    intros [secs last] s7 (G7 & Hcount & Hfrom & HLim & HW & Hlast & Hends). cbn [fst snd] in *.
    change (@zlen section []) with 0 in Hcount.
    apply wp_throw_then; [assumption|]. intros C9.
    apply wp_throw_then; [assumption|]. intros C10.
    apply wp_seek; [assumption|lia|intros _; pose proof (zlen_nonneg data); lia|]. intros s8 G8 P8.
    set (fsz := full_headers_size h (zlen data) secs).
    assert (0 <= fsz) as Hfsz.
    { destruct Rh as (_ & _ & _ & _ & _ & _ & Rhd & _). unfold is_u32 in Rhd. unfold fsz, full_headers_size.
      pose proof (u32_range (zlen data)).
      destruct (find _ secs) as [x|] eqn:Ef; [|lia]. apply find_some in Ef as [Ef _].
      rewrite Forall_forall in HW. destruct (wf_ranges x (HW x Ef)) as (_ & _ & _ & Rp). unfold is_u32 in Rp. lia. }
    apply wp_readz; [assumption|assumption|cbn; tauto|]. rewrite P8. intros s9 Hl9 G9 P9.
    apply K; [assumption|reflexivity|reflexivity| |].
    2: { unfold overlay_from_file, section_header_at. cbn [p_overlay p_sections p_lfanew p_nt p_full]. fold start. destruct (rev secs) as [|x t] eqn:Er.
      - split; [reflexivity|]. split; [|exact Hl9]. apply (f_equal (@rev section)) in Er. rewrite rev_involutive in Er. subst secs. intros [|i] x; discriminate.
      - assert (0 < h_nsections h) as Hpos2. { apply (f_equal (@length section)) in Er. rewrite rev_length in Er. cbn [length] in Er. unfold zlen in Hcount. lia. }
        specialize (P6 Hpos2). rewrite P6 in *. replace (start + 40 * Z.of_nat 0) with start by lia. split; [rewrite Hlast; reflexivity|split; [exact Hends|exact Hl9]]. }
    assert (slice (slice data at_ 64) 0 2 = slice data at_ 2) as E2.
    { rewrite slice_slice by lia. f_equal; lia. }
    assert (slice (slice data at_ 64) 2 58 = slice data (at_ + 2) 58) as E58.
    { rewrite slice_slice by lia. reflexivity. }
    rewrite E2, E58. fold (le_at data at_ 2). rewrite Hmagic.
    pose proof HF as (HF1 & HF2 & HF3 & HF4 & HF5).
    split; [|split].
    - unfold image_wf, dirs_ok, nrva. cbn [p_magic p_dosmid p_lfanew p_stub p_plus p_nt p_sections p_full].
      split; [lia|]. split; [apply bytes_slice, Hb|]. split; [apply zlen_slice; lia|]. split; [exact HL|].
      split; [rewrite Est; apply bytes_slice, Hb|]. split; [assumption|]. split.
      + split; [assumption|]. apply Forall_forall. intros x Hx. apply In_nth_error in Hx as [i Hx].
        assert (i < 16)%nat as Hi by (rewrite <- HF4; apply nth_error_Some; congruence).
        apply HF5 in Hx. rewrite Hx. rewrite <- (fixed_size plus). fold fixed.
        destruct (Z.ltb_spec (Z.of_nat i) (h_nrva h)) as [L|L]; unfold is_u32; cbn [fst snd]; [|lia].
        rewrite <- (fixed_size plus) in HF1. fold fixed in HF1.
        split; apply (le_at_bound data _ 4 Hb); lia.
      + split; [lia|]. split; [assumption|]. split; [apply bytes_slice, Hb|]. rewrite Hl9. unfold fsz, full_headers_size.
        destruct Rh as (_ & _ & _ & _ & _ & _ & Rhd & _). unfold is_u32 in Rhd. destruct (find _ secs); lia.
    - unfold image_from_file, section_header_at. cbn [p_magic p_dosmid p_lfanew p_stub p_plus p_nt p_sections p_full].
      split; [reflexivity|]. split; [assumption|]. split; [reflexivity|]. split; [reflexivity|]. split; [assumption|].
      split; [assumption|]. split; [lia|]. split; [|rewrite Hl9; reflexivity].
      intros i x Hx. assert (i < length secs)%nat as Hi by (apply nth_error_Some; congruence).
      fold start. rewrite <- P6 by (unfold zlen in Hcount; lia). apply Hfrom; assumption.
    - unfold image_checked, nrva, imagesize, salign, hdrsize. cbn [p_magic p_dosmid p_lfanew p_stub p_plus p_nt p_sections p_full].
      split; [lia|]. split; [lia|]. split; [lia|]. split; [assumption|].
      change maximum_number_of_sections with 0x60 in C3.
      split; [lia|]. split; [lia|]. split; [assumption|]. split; [assumption|]. split; [assumption|]. split.
      + intros x t ->. lia.
      + intros i x y Hx Hy. rewrite (not_contiguous_spec _ _ C10 i x y Hx Hy).
        rewrite (limits_span h x); [reflexivity|assumption| |].
        * rewrite Forall_forall in HLim. apply HLim. apply nth_error_In in Hx; assumption.
        * rewrite Forall_forall in HW. apply HW. apply nth_error_In in Hx; assumption.
  Qed.

  (** ** Debug data *)
  Lemma loaded_read_fits at_ fm p rva n b :
    loaded data at_ fm p -> is_u32 rva -> 0 <= n -> read_rva p rva n VirtData true = Ok b ->
    rva + n < 2^32 /\ bytes b.
  Proof.
    intros ((_ & _ & _ & _ & _ & _ & _ & _ & W & BF & LF) & (_ & _ & _ & _ & _ & _ & _ & FF & _) & (_ & _ & _ & _ & _ & _ & HA & _ & HLim & _)).
    intros Hr Hn. unfold read_rva. cbn [andb].
    destruct (is_sum_safe rva n && (rva + n <? zlen (p_full p))) eqn:C.
    - intros E. apply rd_inv in E as (_ & _ & L & ->). split; [lia|apply bytes_slice; assumption].
    - intros E. bnd E i Ei. bnd E x Hx. thr E C1. apply rd_inv in E as (L1 & L2 & L3 & ->).
      apply get_section_inv in Hx. apply section_from_rva_inv in Ei as (y & Hy & Hin).
      rewrite Hx in Hy. inversion Hy; subst y. clear Hy.
      pose proof (wf_in_list p i x W Hx) as Wx.
      rewrite Forall_forall in HLim. pose proof (HLim x (nth_error_In _ _ Hx)) as Lx.
      destruct (FF i x Hx) as (_ & _ & _ & _ & _ & _ & _ & _ & _ & _ & Ox & _ & Dx & _).
      pose proof (limits_span _ _ HA Lx Wx) as Sx. pose proof (limits_data _ _ HA Lx Wx Dx) as DLx.
      assert (zlen (view p x VirtData) = span (salign p) x) as Vx.
      { cbn [view]. rewrite virt_view_unmapped by assumption. rewrite zlen_app, zlen_zeros; unfold salign in *; lia. }
      split; [|cbn [view]; apply bytes_slice, bytes_virt_view; assumption].
      rewrite Vx in L3. unfold in_section in Hin. unfold salign in *. rewrite Sx in Hin.
      destruct (wf_ranges x Wx) as (Hv & Ha & Hs & _). unfold is_u32 in *.
      assert (0 <= span (h_salign (p_nt p)) x <= 2^31) as Sp.
      { destruct HA as (PS & _ & LS & _). split; [apply span_nonneg; [apply pow2_pos; assumption|exact Hv|exact Hs]|].
        destruct Lx as (_ & Lv & Lr & _). unfold span.
        destruct (s_vsize x =? 0); apply ceil_le_2_31; assumption. }
      unfold u32 in Hin. lia.
  Qed.
  Lemma directory_exists_safe p id : dirs_ok p -> 0 <= id < 16 -> safe (directory_exists p id).
  Proof.
    intros [L _] Hi. unfold directory_exists. destruct (id <=? _); [|exact I].
    apply safe_bind; [|intros; exact I]. unfold nth_ub, zlen. rewrite L.
    replace ((0 <=? id) && (id <? Z.of_nat 16)) with true by lia.
    destruct (nth_error _ _) eqn:E; [exact I|]. apply nth_error_None in E. lia.
  Qed.
  Lemma nth_dirs p id : dirs_ok p -> 0 <= id < 16 -> exists d, nth_ub (h_dirs (p_nt p)) id = Ok d /\ is_u32 (fst d) /\ is_u32 (snd d).
  Proof.
    intros [L F] Hi. destruct (nth_error (h_dirs (p_nt p)) (Z.to_nat id)) as [d|] eqn:E.
    - exists d. split; [apply nth_ub_ok; [assumption|lia]|]. rewrite Forall_forall in F. apply F. apply nth_error_In in E; assumption.
    - apply nth_error_None in E. lia.
  Qed.
  Lemma length_rva_safe p a b ty hd : safe (length_rva p a b ty hd).
  Proof.
    unfold length_rva. destruct (_ && _); [exact I|].
    apply safe_bind; [apply section_from_rva_safe|]. intros i Hi. apply section_from_rva_inv in Hi as (x & Hx & _).
    rewrite (get_section_ok _ _ _ Hx). cbn [bind]. case_throw C; exact I.
  Qed.
  (** The stream keeps its data whatever the loop does. *)
  Lemma debug_data_spec at_ fm p s :
    loaded data at_ fm p -> i_data s = data -> i_strict s = strict ->
    wp (read_debug_data p) (fun _ s' => i_data s' = data /\ i_strict s' = strict) (fun _ s' => s' = s) s.
  Proof.
    intros HL Hd Hs. pose proof HL as ((_ & _ & _ & _ & _ & _ & HD & _ & W & _) & _).
    assert (0 <= sizeof_debug_directory) as S28 by (unfold sizeof_debug_directory; lia). unfold wp, read_debug_data.
    destruct (nth_dirs p dir_debug HD ltac:(unfold dir_debug; lia)) as (d & Ed & Hr & Hz).
    unfold get_directory_rva, get_directory_size. rewrite Ed. cbn [bind].
    destruct (nrva p <=? dir_debug) eqn:C; cbn [throw_if bind]; [split; assumption|].
    pose proof (length_rva_safe p (fst d) (fst d) VirtData true) as SL.
    destruct (length_rva p (fst d) (fst d) VirtData true) as [len|e|k|]; cbn [bind]; try contradiction; [|split; assumption].
    destruct (len <? sizeof_debug_directory); [split; assumption|].
    pose proof (read_rva_safe p (fst d) sizeof_debug_directory VirtData true W Hr ltac:(unfold sizeof_debug_directory; lia)) as SR.
    destruct (read_rva p (fst d) sizeof_debug_directory VirtData true) as [b|e|k|] eqn:ER; cbn [bind]; try contradiction; [|split; assumption].
    destruct (loaded_read_fits _ _ _ _ _ _ HL Hr S28 ER) as [Lr Bb].
    set (Inv := fun st : istream * Z * list Z * list (Z * list Z) =>
      let '(f, pos, b, _) := st in i_data f = data /\ i_strict f = strict /\ 0 <= pos /\ pos + 28 < 2^32 /\ bytes b).
    pose proof (mloop_safe_post (debug_body p (fst d) (snd d)) big_fuel Inv (fun st => let '(_, pos, _, _) := st in 2^32 - pos)
      (fun r => i_data (fst r) = data /\ i_strict (fst r) = strict) (s, fst d, b, [])) as M.
    assert (forall st, Inv st -> 0 <= (let '(_, pos, _, _) := st in 2^32 - pos) /\
      match debug_body p (fst d) (snd d) st with
      | Ok (inl st') => Inv st' /\ (let '(_, pos, _, _) := st' in 2^32 - pos) < (let '(_, pos, _, _) := st in 2^32 - pos)
      | Ok (inr r) => i_data (fst r) = data /\ i_strict (fst r) = strict
      | Throw _ => True
      | _ => False
      end) as Step.
    { intros [[[f pos] c] m] (Id & Is & I1 & I2 & I3). split; [lia|]. unfold debug_body.
      destruct (negb (dd_ptr c =? 0) && (pos <? u32 (fst d + snd d))); [|cbn [fst]; split; assumption].
      set (X := if _ && _ then _ else _).
      assert (i_data (fst X) = data /\ i_strict (fst X) = strict /\ safe (snd X)) as (X1 & X2 & X3).
      { unfold X. destruct (_ && _); [|split; [assumption|split; [assumption|exact I]]].
        assert (0 <= dd_size c) as Hc by (apply unle_bound, bytes_slice, I3).
        unfold sbind, s_seek, s_read_into. rewrite zlen_zeros by assumption.
        replace ((0 <=? 0) && (0 <=? dd_size c) && (0 + dd_size c <=? dd_size c)) with true by lia.
        assert (forall n g, i_data (fst (is_read n g)) = i_data g /\ i_strict (fst (is_read n g)) = i_strict g) as RG.
        { intros n g. unfold is_read. destruct (i_good g); [|split; reflexivity]. destruct (_ <? _); split; reflexivity. }
        assert (forall n g, i_data (seekg n g) = i_data g /\ i_strict (seekg n g) = i_strict g) as SG.
        { intros n g. unfold seekg. destruct (i_fail g); [split; reflexivity|]. destruct (_ || _); split; reflexivity. }
        specialize (RG (dd_size c) (seekg (dd_ptr c) f)). specialize (SG (dd_ptr c) f).
        destruct (is_read (dd_size c) (seekg (dd_ptr c) f)) as [g bs]. cbn [fst] in RG. unfold s_check_eof.
        destruct (i_eof g); cbn [throw_if fst snd sret safe]; (split; [destruct RG, SG; congruence|]); (split; [destruct RG, SG; congruence|exact I]). }
      destruct X as [f1 [m1|e|k|]]; cbn [fst snd safe] in X1, X2, X3; try contradiction; [|cbn [fst]; split; assumption].
      assert (u32 (pos + sizeof_debug_directory) = pos + 28) as EP by (apply u32_small; unfold sizeof_debug_directory; lia).
      rewrite EP. assert (is_u32 (pos + 28)) as P28 by (unfold is_u32; lia).
      pose proof (read_rva_safe p (pos + 28) sizeof_debug_directory VirtData true W ltac:(unfold is_u32; lia) ltac:(unfold sizeof_debug_directory; lia)) as SR2.
      destruct (read_rva p (pos + 28) sizeof_debug_directory VirtData true) as [b1|e|k|] eqn:ER2; try contradiction; [|cbn [fst]; split; assumption].
      destruct (loaded_read_fits _ _ _ _ _ _ HL P28 S28 ER2) as [Lr2 Bb2].
      change sizeof_debug_directory with 28 in Lr2.
      split; [|lia]. unfold Inv. split; [assumption|]. split; [assumption|]. split; [lia|]. split; [lia|assumption]. }
    change sizeof_debug_directory with 28 in Lr. unfold is_u32 in Hr.
    specialize (M Step ltac:(unfold Inv; repeat split; try assumption; lia) ltac:(unfold big_fuel; lia)).
    destruct (mloop _ _ _) as [[f1 m]|e|k|]; cbn [fst] in M; try contradiction; [assumption|reflexivity].
  Qed.
End Loader2.

(** ** The constructor, type detection and the factory *)
Lemma s32_small x : 0 <= x < 2^31 -> s32 x = x.
Proof. intros; unfold s32. rewrite u32_small by lia. replace (x <? 2^31) with true by lia. reflexivity. Qed.
Section Whole.
  Variable f : istream.
  Hypothesis Wf : wf_stream f.
  Notation data := (i_data f).
  Notation strict := (i_strict f).

  Lemma dos_spec {A} (k : list Z -> sm A) Q :
    i_fail f = false -> i_eof f = false ->
    (forall s, G data strict s -> i_pos s = i_pos f + 64 -> i_pos f + 64 <= zlen data -> le_at data (i_pos f) 2 = 0x5a4d ->
       wp (k (slice data (i_pos f) 64)) Q (Ex data strict) s) ->
    wp (dos <~ read_dos_header ; k dos) Q (Ex data strict) f.
  Proof.
    intros Hf He K. destruct Wf as (_ & _ & Hp & _).
    assert (G data strict f) as G0 by (repeat split; assumption).
    apply wp_bind. unfold read_dos_header. apply wp_bind. unfold wp at 1, s_check_eof at 1. rewrite He. cbn [throw_if].
    change (zeros 64) with (zeros sizeof_dos).
    apply wp_readz; [assumption|unfold sizeof_dos; lia|cbn; tauto|]. change sizeof_dos with 64. intros s1 Hl G1 P1.
    assert (i_pos f + 64 <= zlen data) as Room by (apply slice_room; [assumption|lia|assumption]).
    rewrite slice_slice by lia. rewrite Z.add_0_r. fold (le_at data (i_pos f) 2).
    apply wp_throw_then; [assumption|]. intros C. apply wp_ret. apply K; [assumption|assumption|assumption|lia].
  Qed.
  Lemma seek_back s : i_data s = data -> i_strict s = strict -> i_fail s = false -> is_clear (seekg (i_pos f) s) = is_clear f.
  Proof.
    intros Hd Hs Hf. destruct Wf as (_ & _ & Hp & Hle). unfold seekg. rewrite Hf.
    assert ((i_pos f <? 0) || (i_strict s && (zlen (i_data s) <? i_pos f)) = false) as ->.
    { rewrite Hs, Hd. destruct strict; cbn [andb]; [specialize (Hle eq_refl)|]; lia. }
    unfold is_clear, set_i_pos, set_i_flags. cbn. rewrite Hd, Hs. reflexivity.
  Qed.
  Lemma seek_data n s : i_data (is_clear (seekg n s)) = i_data s /\ i_strict (is_clear (seekg n s)) = i_strict s /\
    i_fail (is_clear (seekg n s)) = false /\ i_eof (is_clear (seekg n s)) = false.
  Proof. unfold seekg. destruct (i_fail s); [repeat split|]. destruct (_ || _); repeat split. Qed.

  (** with_restore on a stream in working order. *)
  Lemma with_restore_spec {A} (m : sm A) (P : A -> Prop) (clean : bool) :
    i_fail f = false -> i_eof f = false ->
    wp m (fun a s' => P a /\ i_data s' = data /\ i_strict s' = strict /\ (clean = true -> i_fail s' = false)) (Ex data strict) f ->
    safe (snd (with_restore m f)) /\
    (forall a, snd (with_restore m f) = Ok a -> P a /\ (clean = true -> fst (with_restore m f) = f)) /\
    (forall e, snd (with_restore m f) = Throw e -> In e io_errors \/ fst (with_restore m f) = f) /\
    i_data (fst (with_restore m f)) = data /\ i_strict (fst (with_restore m f)) = strict /\
    i_fail (fst (with_restore m f)) = false /\ i_eof (fst (with_restore m f)) = false.
  Proof.
    intros Hf He H. unfold with_restore, tellg, i_good. rewrite Hf, He. cbn [negb andb].
    unfold wp in H. destruct (m f) as [s' [a|e|k|]] eqn:Em; cbn [fst snd]; try contradiction.
    - destruct H as (Pa & Hd & Hs & Hc). split; [exact I|]. split; [|split; [intros e; discriminate|]].
      + intros a' E. inversion E; subst a'. split; [assumption|]. intros C. rewrite seek_back by auto.
        destruct f; cbn in *; subst; reflexivity.
      + destruct (seek_data (i_pos f) s') as (A1 & A2 & A3). rewrite A1, A2. split; [assumption|]. split; assumption.
    - destruct H as (Hd & Hs & Hc). split; [exact I|]. split; [intros a'; discriminate|]. split.
      + intros e' E. inversion E; subst e'. destruct Hc as [Hc|Hc]; [|left; assumption]. right.
        rewrite seek_back by assumption. destruct f; cbn in *; subst; reflexivity.
      + destruct (seek_data (i_pos f) s') as (A1 & A2 & A3). rewrite A1, A2. split; [assumption|]. split; assumption.
  Qed.
  (** On a stream that is not good nothing is read. *)
  Lemma not_good_dos {A} (k : list Z -> sm A) :
    i_good f = false ->
    exists e, with_restore (dos <~ read_dos_header ; k dos) f = (is_clear f, Throw e).
  Proof.
    intros Hg. unfold with_restore, tellg. rewrite Hg.
    unfold sbind, read_dos_header, s_check_eof, sbind. cbn [set_i_flags i_eof].
    destruct (i_eof f) eqn:He; cbn [throw_if].
    - exists bad_pe_file. reflexivity.
    - unfold s_read_into. change (_ && _) with true. cbn iota. unfold is_read, i_good. cbn [set_i_flags i_fail i_eof negb andb].
      unfold sthrow_if, slift. cbn. exists bad_dos_header. reflexivity.
  Qed.

  Lemma set_debug_loaded d at_ fm m p : loaded d at_ fm p -> loaded d at_ fm (set_p_debug m p).
  Proof. exact (fun H => H). Qed.
  Lemma load_ready plus from_mem read_debug :
    i_fail f = false -> i_eof f = false ->
    safe (snd (load plus from_mem read_debug f)) /\
    (forall p, snd (load plus from_mem read_debug f) = Ok p ->
       (p_plus p = plus /\ loaded data (i_pos f) from_mem p) /\ (negb read_debug = true -> fst (load plus from_mem read_debug f) = f)) /\
    (forall e, snd (load plus from_mem read_debug f) = Throw e -> In e io_errors \/ fst (load plus from_mem read_debug f) = f) /\
    i_data (fst (load plus from_mem read_debug f)) = data /\ i_strict (fst (load plus from_mem read_debug f)) = strict /\
    i_fail (fst (load plus from_mem read_debug f)) = false /\ i_eof (fst (load plus from_mem read_debug f)) = false.
  Proof.
    intros Hf He. unfold load. apply with_restore_spec; [assumption|assumption|].
    pose proof Wf as (Hb & _ & Hp & _).
    apply dos_spec; [assumption|assumption|]. intros s Gs Ps Room Magic.
    apply read_pe_spec; try assumption; [rewrite Ps; assumption|].
    intros p s' G' Ep _ HL _. unfold debug_tail. pose proof G' as (Hd & Hs & Hf' & _).
    destruct read_debug; cbn [negb].
    - pose proof HL as ((_ & _ & _ & _ & _ & _ & HD & _) & _).
      pose proof (directory_exists_safe p dir_debug HD ltac:(unfold dir_debug; lia)) as DS.
      apply wp_bind. unfold wp at 1, slift.
      destruct (directory_exists p dir_debug) as [ex|e|k|] eqn:ED; try contradiction.
      + destruct ex.
        * apply wp_bind. pose proof (debug_data_spec data strict _ _ _ s' HL Hd Hs) as D. unfold wp in D |- * at 1.
          destruct (read_debug_data p s') as [s2 [m|e|k|]]; try contradiction.
          -- apply wp_ret. destruct D. split; [split; [assumption|apply set_debug_loaded; assumption]|].
             split; [assumption|]. split; [assumption|discriminate].
          -- subst s2. apply G_Ex; assumption.
        * apply wp_ret. split; [split; assumption|]. split; [assumption|]. split; [assumption|discriminate].
      + apply G_Ex; assumption.
    - apply wp_ret. split; [split; assumption|]. split; [assumption|]. split; [assumption|]. intros _; assumption.
  Qed.
  Lemma type_ready :
    i_fail f = false -> i_eof f = false ->
    safe (snd (get_pe_type f)) /\
    (forall b, snd (get_pe_type f) = Ok b ->
       (exists lf, le_at data (i_pos f) 2 = 0x5a4d /\ lf = le_at data (i_pos f + 60) 4 /\ lf < 2^31 /\ lf + 120 <= zlen data /\
          le_at data lf 4 = 0x4550 /\ le_at data (lf + 24) 2 = (if b then 0x20b else 0x10b)) /\ (true = true -> fst (get_pe_type f) = f)) /\
    (forall e, snd (get_pe_type f) = Throw e -> In e io_errors \/ fst (get_pe_type f) = f) /\
    i_data (fst (get_pe_type f)) = data /\ i_strict (fst (get_pe_type f)) = strict /\
    i_fail (fst (get_pe_type f)) = false /\ i_eof (fst (get_pe_type f)) = false.
  Proof.
    intros Hf He. unfold get_pe_type. apply with_restore_spec; [assumption|assumption|].
    pose proof Wf as (Hb & _ & Hp & _).
    apply dos_spec; [assumption|assumption|]. intros s Gs Ps Room Magic.
    assert (dos_lfanew (slice data (i_pos f) 64) = le_at data (i_pos f + 60) 4) as EL.
    { unfold dos_lfanew, le_at. rewrite slice_slice by lia. reflexivity. }
    rewrite EL. set (lf := le_at data (i_pos f + 60) 4).
    assert (0 <= lf < 2^32) as HL by (apply (le_at_bound data (i_pos f + 60) 4 Hb); lia).
    apply wp_seek_checked; [assumption|cbn; tauto|]. intros s2 HL2 G2 P2.
    assert (lf < 2^31 /\ s32 lf = lf) as [HL3 ES].
    { unfold s32, u32 in *. rewrite Z.mod_small in * by lia. destruct (Z.ltb_spec lf (2^31)); lia. }
    rewrite ES in *. clear ES HL2.
    apply wp_readz; [assumption|lia|cbn; tauto|]. rewrite P2. intros s3 Hl3 G3 P3.
    assert (lf + 120 <= zlen data) as Room1 by (apply slice_room; [lia|lia|assumption]).
    assert (forall k n, 0 <= k -> 0 <= n -> k + n <= 120 ->
      unle (firstn (Z.to_nat n) (skipn (Z.to_nat k) (slice data lf 120))) = le_at data (lf + k) n) as H.
    { intros k n Hk Hn Hl. unfold le_at. f_equal. fold (slice (slice data lf 120) k n). apply slice_slice; lia. }
    set (l := dec_fields (nt_widths false) (slice data lf 120)).
    assert (h_signature (nt_of_fields false l []) = le_at data lf 4) as E1.
    { change (h_signature (nt_of_fields false l [])) with (nth 0 l 0). unfold l. rewrite dec_fields_nth by (cbn; lia).
      change (fold_right Nat.add O (firstn 0 (nt_widths false))) with (Z.to_nat 0).
      change (nth 0 (nt_widths false) O) with (Z.to_nat 4). rewrite H by lia. f_equal; lia. }
    assert (h_magic (nt_of_fields false l []) = le_at data (lf + 24) 2) as E2.
    { change (h_magic (nt_of_fields false l [])) with (nth 8 l 0). unfold l. rewrite dec_fields_nth by (cbn; lia).
      change (fold_right Nat.add O (firstn 8 (nt_widths false))) with (Z.to_nat 24).
      change (nth 8 (nt_widths false) O) with (Z.to_nat 2). rewrite H by lia. reflexivity. }
    rewrite E1, E2.
    apply wp_throw_then; [assumption|]. intros C1. apply wp_throw_then; [assumption|]. intros C2.
    apply wp_ret. pose proof G3 as (D3 & S3 & F3 & _). split; [|split; [assumption|split; [assumption|intros _; assumption]]].
    exists lf. repeat (split; [first [assumption|reflexivity|lia]|]).
    destruct (Z.eqb_spec (le_at data (lf + 24) 2) 0x20b); lia.
  Qed.
End Whole.

(** ** Closed forms used by the property files *)
Lemma good_cases f : i_good f = true -> i_fail f = false /\ i_eof f = false.
Proof. unfold i_good; destruct (i_fail f), (i_eof f); cbn; intros; split; congruence. Qed.
Lemma load_safe plus from_mem read_debug f : wf_stream f -> safe (snd (load plus from_mem read_debug f)).
Proof.
  intros W. destruct (i_good f) eqn:Hg.
  - destruct (good_cases f Hg). apply load_ready; assumption.
  - destruct (not_good_dos f (fun dos => read_pe plus dos from_mem read_debug) Hg) as [e E].
    unfold load. rewrite E. exact I.
Qed.
Lemma type_safe f : wf_stream f -> safe (snd (get_pe_type f)).
Proof.
  intros W. destruct (i_good f) eqn:Hg.
  - destruct (good_cases f Hg). apply type_ready; assumption.
  - match goal with |- safe (snd (get_pe_type f)) => unfold get_pe_type end.
    match goal with |- safe (snd (with_restore (sbind read_dos_header ?k) f)) => destruct (not_good_dos f k Hg) as [e E] end.
    rewrite E. exact I.
Qed.
Lemma wf_stream_same f g : wf_stream f -> g = f -> wf_stream g.
Proof. intros H ->; assumption. Qed.
Lemma factory_step from_mem read_debug f :
  wf_stream f ->
  (exists plus, get_pe_type f = (f, Ok plus) /\ factory_create from_mem read_debug f = load plus from_mem read_debug f) \/
  (exists e f', get_pe_type f = (f', Throw e) /\ factory_create from_mem read_debug f = (f', Throw e)).
Proof.
  intros W. pose proof (type_safe f W) as S. unfold factory_create, sbind.
  destruct (i_good f) eqn:Hg.
  - destruct (good_cases f Hg) as [Hf He]. destruct (type_ready f W Hf He) as (_ & R & _).
    destruct (get_pe_type f) as [f' [b|e|k|]] eqn:E; cbn [fst snd] in *; try contradiction.
    + left. exists b. destruct (R b eq_refl) as [_ R2]. rewrite (R2 eq_refl). split; reflexivity.
    + right. exists e, f'. split; reflexivity.
  - destruct (get_pe_type f) as [f' [b|e|k|]] eqn:E; cbn [fst snd] in *; try contradiction.
    + exfalso. revert E. unfold get_pe_type.
      match goal with |- with_restore (sbind read_dos_header ?k) f = _ -> _ => destruct (not_good_dos f k Hg) as [e E] end.
      rewrite E. discriminate.
    + right. exists e, f'. split; reflexivity.
Qed.
Lemma factory_safe from_mem read_debug f : wf_stream f -> safe (snd (factory_create from_mem read_debug f)).
Proof.
  intros W. destruct (factory_step from_mem read_debug f W) as [(plus & _ & ->)|(e & f' & _ & ->)].
  - apply load_safe; assumption.
  - exact I.
Qed.
Lemma load_ok plus from_mem read_debug f f' p :
  wf_stream f -> load plus from_mem read_debug f = (f', Ok p) ->
  p_plus p = plus /\ image_wf p /\ image_from_file (i_data f) (i_pos f) from_mem p /\ image_checked p.
Proof.
  intros W E. destruct (i_good f) eqn:Hg.
  - destruct (good_cases f Hg) as [Hf He]. destruct (load_ready f W plus from_mem read_debug Hf He) as (_ & R & _).
    rewrite E in R. destruct (R p eq_refl) as [[R1 R2] _]. split; assumption.
  - destruct (not_good_dos f (fun dos => read_pe plus dos from_mem read_debug) Hg) as [e E2].
    unfold load in E. rewrite E2 in E. discriminate.
Qed.
Lemma factory_ok from_mem read_debug f f' p :
  wf_stream f -> factory_create from_mem read_debug f = (f', Ok p) ->
  image_wf p /\ image_from_file (i_data f) (i_pos f) from_mem p /\ image_checked p /\
  le_at (i_data f) (p_lfanew p + 24) 2 = (if p_plus p then 0x20b else 0x10b).
Proof.
  intros W E. destruct (factory_step from_mem read_debug f W) as [(plus & T & F)|(e & f2 & T & F)]; rewrite F in E; [|discriminate].
  destruct (load_ok _ _ _ _ _ _ W E) as (Ep & L1 & L2 & L3). repeat (split; [assumption|]).
  destruct (i_good f) eqn:Hg.
  - destruct (good_cases f Hg) as [Hf He]. destruct (type_ready f W Hf He) as (_ & R & _). rewrite T in R.
    destruct (R plus eq_refl) as [(lf & R1 & R2 & R3 & R4 & R5 & R6) _].
    destruct L2 as (_ & _ & _ & EL & _). rewrite EL, <- R2, Ep. exact R6.
  - destruct (not_good_dos f (fun dos => read_pe plus dos from_mem read_debug) Hg) as [e E2].
    unfold load in E. rewrite E2 in E. discriminate.
Qed.
(** Without wrap-around the section table is contiguous and inside SizeOfImage. *)
Lemma checked_chain p :
  image_wf p -> image_checked p -> Forall (fun s => send (salign p) s < 2^32) (p_sections p) ->
  (forall i s t, nth_error (p_sections p) i = Some s -> nth_error (p_sections p) (S i) = Some t -> s_va t = send (salign p) s) /\
  Forall (fun s => send (salign p) s <= ceil_mult (imagesize p) (salign p)) (p_sections p) /\
  spec_layout p.
Proof.
  intros (_ & _ & _ & _ & _ & _ & _ & _ & W & _) (_ & _ & _ & _ & _ & _ & HA & _ & HL & _ & HC) HS.
  pose proof HA as (PS & PF & LS & LF & _). pose proof (pow2_pos _ PS) as P0.
  assert (forall s, In s (p_sections p) -> 0 <= send (salign p) s < 2^32) as Rg.
  { intros s Hs. rewrite Forall_forall in HS, W. specialize (HS s Hs). destruct (wf_ranges s (W s Hs)) as (R1 & R2 & R3 & _).
    pose proof (span_nonneg (salign p) s P0 R1 R3). unfold send in *. unfold is_u32 in *. lia. }
  assert (forall i s t, nth_error (p_sections p) i = Some s -> nth_error (p_sections p) (S i) = Some t -> s_va t = send (salign p) s) as C.
  { intros i s t Hs Ht. rewrite (HC i s t Hs Ht). apply u32_small, Rg. apply nth_error_In in Hs; assumption. }
  split; [assumption|]. split.
  - apply Forall_forall. intros s Hs. rewrite Forall_forall in HL. destruct (HL s Hs) as (_ & _ & _ & _ & L).
    rewrite u32_small in L by (apply Rg; assumption). exact L.
  - split; [split; [assumption|split; [assumption|split; assumption]]|]. split; [assumption|]. split; [assumption|].
    assert (forall l st, (forall i s t, nth_error l i = Some s -> nth_error l (S i) = Some t -> s_va t = send (salign p) s) ->
              (forall s t, l = s :: t -> s_va s = st) -> chain (salign p) st l) as CH.
    { induction l as [|a l IH]; intros st H1 H2; cbn [chain]; [exact I|]. split; [apply (H2 a l); reflexivity|].
      apply IH.
      - intros i s t Hs Ht. apply (H1 (S i)); assumption.
      - intros s t ->. apply (H1 O a s); reflexivity. }
    destruct (p_sections p) as [|a l] eqn:EL.
    + intros [|i] j s t r; discriminate.
    + rewrite <- EL in *. apply (chain_disjoint (salign p) (s_va a)); [assumption|assumption|].
      apply CH; [assumption|]. intros s t E. rewrite EL in E. inversion E; reflexivity.
Qed.
