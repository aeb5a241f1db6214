(** Proofs about imports. *)
From Verif Require Export SpecImport ExportFacts ReadersFacts.

(** ** Reader *)
Lemma thunk_word p : thunk_size p = Z.of_nat (word_size p). Proof. reflexivity. Qed.
Lemma word_size_ok p : thunk_size p = 4 \/ thunk_size p = 8.
Proof. unfold thunk_size, base_size. destruct (p_plus p); [right|left]; reflexivity. Qed.
Lemma base_mod_word p : base_mod p = 256 ^ Z.of_nat (word_size p).
Proof. unfold base_mod, word_size. destruct (p_plus p); reflexivity. Qed.
Lemma snap_test p w : 0 <= w < base_mod p -> (Z.land w (snap_flag p) =? 0) = negb (snap_flag p <=? w).
Proof.
  unfold snap_flag, base_mod. intros H.
  assert (K : forall k, 0 <= k -> 0 <= w < 2 * 2^k -> (Z.land w (2^k) =? 0) = negb (2^k <=? w)).
  { clear H. intros k Hk H. assert (0 < 2^k) by (apply Z.pow_pos_nonneg; lia).
    assert (E : Z.testbit w k = (2^k <=? w)).
    { destruct (Z.leb_spec (2^k) w) as [C|C].
      - rewrite Z.testbit_true by lia. assert (w / 2^k = 1) as ->; [|reflexivity]. symmetry. apply (Z.div_unique_pos w (2^k) 1 (w - 2^k)); lia.
      - rewrite Z.testbit_false by lia. rewrite Z.div_small by lia. reflexivity. }
    rewrite <- E. destruct (Z.testbit w k) eqn:T; cbn [negb].
    - apply Z.eqb_neq. intros K. apply (f_equal (fun x => Z.testbit x k)) in K. rewrite Z.land_spec, T, Z.pow2_bits_true, Z.bits_0 in K by lia. discriminate.
    - apply Z.eqb_eq. apply Z.bits_inj'. intros n Hn. rewrite Z.land_spec, Z.bits_0. destruct (Z.eqb_spec n k) as [->|N]; [rewrite T; reflexivity|].
      rewrite Z.pow2_bits_false by lia. apply andb_false_r. }
  destruct (p_plus p); [change (2^64 / 2) with (2^63) in *; apply K; lia|change (2^32 / 2) with (2^31) in *; apply K; lia].
Qed.
Lemma both_true {A} (b1 b2 : bool) (X Y Z : A) : b1 = false -> b2 = false -> (if negb b1 && negb b2 then X else Y) = Z -> X = Z.
Proof. intros -> -> H. exact H. Qed.
Lemma in_if {A} (b : bool) (X Y Z : A) : X = Z -> (b = false -> Y = Z) -> (if b then X else Y) = Z.
Proof. intros H1 H2. destruct b; auto. Qed.
Lemma descriptor_enc a b c d e : descriptor a b c d e = enc_fields descriptor_widths [a; b; c; d; e].
Proof. unfold descriptor, descriptor_widths. cbn [enc_fields]. rewrite app_nil_r. reflexivity. Qed.
Lemma descriptor_len a b c d e : zlen (descriptor a b c d e) = 20.
Proof. unfold descriptor. rewrite !zlen_app, !zlen_le. reflexivity. Qed.
Lemma dec_descriptor a b c d e : is_u32 a -> is_u32 b -> is_u32 c -> is_u32 d -> is_u32 e -> dec_fields descriptor_widths (descriptor a b c d e) = [a; b; c; d; e].
Proof.
  intros. rewrite descriptor_enc, <- (app_nil_r (enc_fields _ _)). apply dec_enc_fields. unfold descriptor_widths. cbn [fits]. change (256 ^ Z.of_nat 4) with (2^32). unfold is_u32 in *. lia.
Qed.
Lemma descriptor_of e : bytes e -> zlen e = 20 -> exists oft time chain name ft, is_u32 oft /\ is_u32 time /\ is_u32 chain /\ is_u32 name /\ is_u32 ft /\
  dec_fields descriptor_widths e = [oft; time; chain; name; ft] /\ e = descriptor oft time chain name ft.
Proof.
  intros B L. pose proof (dec_fields_length descriptor_widths e) as K. pose proof (dec_fields_fits descriptor_widths e B) as F. pose proof (enc_dec_fields descriptor_widths e B L) as E.
  destruct (dec_fields descriptor_widths e) as [|a [|b [|c [|d [|x [|]]]]]]; try discriminate K. exists a, b, c, d, x. unfold descriptor_widths in F. cbn [fits] in F.
  change (256 ^ Z.of_nat 4) with (2^32) in F. unfold is_u32. rewrite descriptor_enc. repeat split; try lia. symmetry. exact E.
Qed.
Section Reader.
Variable p : pe.
Hypothesis R : readable p.
Hypothesis A : addressable p.
Hypothesis V : viewable p.
Local Notation n := (Z.of_nat (word_size p)).
Lemma word_n : n = 4 \/ n = 8. Proof. exact (word_size_ok p). Qed.
Lemma import_string_safe rva : is_u32 rva -> safe (import_string p rva).
Proof.
  intros Hr. unfold import_string. pose proof (length_rva_safe p rva rva VirtData true ltac:(apply R)) as S.
  destruct (length_rva p rva rva VirtData true) as [len| | |] eqn:E; cbn [bind]; try exact S. case_throw T; [exact I|].
  destruct (ptr_room p rva VirtData len R (or_intror V) Hr E) as (d & off & -> & Ho & Bd & L1 & L2). cbn [bind].
  destruct (c_string_safe d off len Ho L2) as (r & -> & _). cbn [bind]. destruct r; exact I.
Qed.
Lemma import_string_text rva s : is_u32 rva -> (import_string p rva = Ok s <-> text p rva s).
Proof.
  intros Hr. unfold import_string, text. split.
  - intros H. bnd H len E. thr H E2. destruct (ptr_room p rva VirtData len R (or_intror V) Hr E) as (d & off & Ep & Ho & Bd & L1 & L2). rewrite Ep in H. cbn [bind] in H.
    destruct (c_string_safe d off len Ho L2) as (r & Er & Hc). rewrite Er in H. cbn [bind] in H. destruct r as [name|]; [|discriminate]. injection H as <-.
    destruct (Hc name eq_refl) as (C1 & C2 & C3 & C4 & C5). rewrite zlen_app in C5. change (zlen [0]) with 1 in C5.
    exists len, d, off. split; [exact E|]. split; [lia|]. tauto.
  - intros (len & d & off & E & L & Ls & Ep & Sl & Ns). rewrite E. cbn [bind]. replace (len <? 2) with false by lia. cbn [throw_if bind]. rewrite Ep. cbn [bind].
    destruct (ptr_room p rva VirtData len R (or_intror V) Hr E) as (d' & off' & Ep' & Ho & Bd & L1 & L2). rewrite Ep in Ep'. injection Ep' as <- <-.
    rewrite (c_string_ok d off s len); [reflexivity| |exact Ns|exact Ls]. pose proof (zlen_nonneg s). unfold holds. rewrite zlen_app. change (zlen [0]) with 1. split; [exact Ho|]. split; [lia|exact Sl].
Qed.
Lemma word_read rva w : is_u32 rva -> (word_at p rva w <-> exists b, read_rva p rva n VirtData true = Ok b /\ unle b = w).
Proof.
  intros Hr. unfold word_at, shows. rewrite zlen_le. split.
  - intros [H S]. exists (le (word_size p) w). split; [exact S|]. apply unle_le_small. exact H.
  - intros (b & E & <-). pose proof (read_rva_bytes _ _ _ _ _ _ R E) as B. pose proof (read_rva_len _ _ _ _ _ _ E) as L. pose proof (unle_bound b B) as U. rewrite L in U.
    split; [exact U|]. rewrite le_unle_n; [exact E|exact B|]. unfold zlen in L. lia.
Qed.
Lemma word_read_fun rva w b : is_u32 rva -> word_at p rva w -> read_rva p rva n VirtData true = Ok b -> unle b = w.
Proof. intros Hr H E. apply word_read in H as (b' & E' & <-); [|exact Hr]. congruence. Qed.
Lemma read_word_ok rva : is_u32 rva -> match read_rva p rva n VirtData true with Ok b => 0 <= unle b < base_mod p /\ word_at p rva (unle b) /\ rva + n < 2^32 | Throw _ => True | _ => False end.
Proof.
  intros Hr. pose proof word_n. pose proof (read_rva_safe p rva n VirtData true ltac:(apply R) Hr ltac:(lia)) as S.
  destruct (read_rva p rva n VirtData true) as [b| | |] eqn:E; try exact S.
  assert (Wa : word_at p rva (unle b)) by (apply word_read; [exact Hr|exists b; split; [exact E|reflexivity]]).
  rewrite base_mod_word. split; [apply Wa|]. split; [exact Wa|]. apply (read_rva_end p rva n true b R A Hr ltac:(lia) E).
Qed.
Lemma base_half : 2^31 <= snap_flag p. Proof. unfold snap_flag, base_mod. destruct (p_plus p); vm_compute; congruence. Qed.
Lemma snap_half : 256 ^ n / 2 = snap_flag p. Proof. unfold snap_flag. rewrite base_mod_word. reflexivity. Qed.
Lemma lookup_safe a w : 0 <= w < base_mod p -> safe (import_lookup p a w).
Proof.
  intros Hw. unfold import_lookup. rewrite snap_test by exact Hw. rewrite negb_involutive. case_if C; [exact I|]. case_throw D; [exact I|]. cbn [bind].
  apply safe_bind; [apply import_string_safe; unfold is_u32; lia|]. intros s _. apply safe_bind; [apply read_rva_safe; [apply R|unfold is_u32; lia|lia]|]. intros h _. exact I.
Qed.
Lemma lookup_of a w f : 0 <= w < base_mod p -> (import_lookup p a w = Ok f <-> m_iat f = a /\ import_of p w f).
Proof.
  intros Hw. unfold import_lookup, import_of. rewrite snap_test by exact Hw. rewrite negb_involutive, snap_half. destruct (Z.leb_spec (snap_flag p) w) as [C|C].
  - change 0xffff with (2^16 - 1). rewrite land_mod by lia. split.
    + intros H. injection H as <-. cbn. tauto.
    + intros (E1 & E2 & E3 & E4). destruct f as [f1 f2 f3 f4]; cbn [m_name m_hint m_ordinal m_iat] in *; subst. reflexivity.
  - split.
    + intros H. thr H D. bnd H s E1. bnd H h E2. injection H as <-. cbn [m_name m_hint m_ordinal m_iat]. split; [reflexivity|]. split; [lia|].
      split; [apply import_string_text; [unfold is_u32; lia|exact E1]|]. pose proof (read_rva_bytes _ _ _ _ _ _ R E2) as B. pose proof (read_rva_len _ _ _ _ _ _ E2) as L.
      pose proof (unle_bound h B) as U. rewrite L in U. change (256 ^ 2) with (2^16) in U. split; [exact U|]. split; [|reflexivity].
      unfold shows. rewrite zlen_le. rewrite le_unle_n; [exact E2|exact B|]. unfold zlen in L. lia.
    + intros (E1 & E2 & E3 & E4 & E5 & E6). replace (0xFFFFFFFF - 2 <? w) with false by lia. cbn [throw_if bind].
      apply import_string_text in E3; [|unfold is_u32; lia]. rewrite E3. cbn [bind]. unfold shows in E5. rewrite zlen_le in E5. change (Z.of_nat 2) with 2 in E5. rewrite E5. cbn [bind].
      rewrite unle_le_small by exact E4. destruct f as [f1 f2 f3 f4]; cbn [m_name m_hint m_ordinal m_iat] in *; subst. reflexivity.
Qed.
Let body := (fun st : Z * Z * list imported =>
    let '(t, o, acc) := st in
    a <- read_rva p t (thunk_size p) VirtData true ;;
    if unle a =? 0 then Ok (inr acc)
    else
      w <- read_rva p o (thunk_size p) VirtData true ;;
      if unle w =? 0 then Ok (inr acc)
      else
        f <- import_lookup p (unle a) (unle w) ;;
        Ok (@inl _ (list imported) (u32 (t + thunk_size p), u32 (o + thunk_size p), acc ++ [f]))).
Lemma thunks_safe t o : is_u32 t -> is_u32 o -> safe (import_thunks p t o).
Proof.
  intros Ht Ho. unfold import_thunks. fold body.
  apply (mloop_safe body big_fuel (fun st => let '(t, o, _) := st in is_u32 t /\ is_u32 o) (fun st => let '(t, o, _) := st in 2^32 - t)).
  - clear t o Ht Ho. intros [[t o] acc] [Ht Ho]. split; [unfold is_u32 in Ht; lia|]. unfold body. rewrite thunk_word.
    pose proof (read_word_ok t Ht) as S. destruct (read_rva p t n VirtData true) as [a| | |]; cbn [bind]; try exact S. destruct S as (S1 & S2 & S3). case_if C; [exact I|].
    pose proof (read_word_ok o Ho) as T. destruct (read_rva p o n VirtData true) as [w| | |]; cbn [bind]; try exact T. destruct T as (T1 & T2 & T3). case_if D; [exact I|].
    pose proof (lookup_safe (unle a) (unle w) T1) as U. destruct (import_lookup p (unle a) (unle w)) as [f| | |]; cbn [bind]; try exact U.
    pose proof word_n. unfold is_u32 in *. rewrite !u32_small by lia. split; [split; lia|lia].
  - split; assumption.
  - unfold is_u32 in Ht. unfold big_fuel. lia.
Qed.
Lemma thunks_loop m : forall t o acc r, is_u32 t -> is_u32 o -> nloop m body (t, o, acc) = Ok (inr r) -> exists l, r = acc ++ l /\ thunk_table p t o l.
Proof.
  induction m as [|m IH]; intros t o acc r Ht Ho H; cbn [nloop] in H; [discriminate|].
  unfold body in H at 1. rewrite thunk_word in H. pose proof (read_word_ok t Ht) as S. destruct (read_rva p t n VirtData true) as [a| | |] eqn:Ea; cbn [bind] in H; try discriminate.
  destruct S as (S1 & S2 & S3). destruct (Z.eqb_spec (unle a) 0) as [C|C].
  { injection H as <-. exists []. split; [rewrite app_nil_r; reflexivity|]. apply thunks_end. rewrite <- C. exact S2. }
  pose proof (read_word_ok o Ho) as T. destruct (read_rva p o n VirtData true) as [w| | |] eqn:Ew; cbn [bind] in H; try discriminate.
  destruct T as (T1 & T2 & T3). destruct (Z.eqb_spec (unle w) 0) as [D|D].
  { injection H as <-. exists []. split; [rewrite app_nil_r; reflexivity|]. apply (thunks_end2 p t o (unle a)); [exact C|exact S2|]. rewrite <- D. exact T2. }
  destruct (import_lookup p (unle a) (unle w)) as [f| | |] eqn:Ef; cbn [bind] in H; try discriminate.
  apply lookup_of in Ef as [E1 E2]; [|exact T1]. pose proof word_n as N4. unfold is_u32 in Ht, Ho. rewrite !u32_small in H by lia.
  destruct (IH (t + n) (o + n) (acc ++ [f]) r ltac:(unfold is_u32; lia) ltac:(unfold is_u32; lia) H) as (l & -> & Tl). exists (f :: l). split; [rewrite <- app_assoc; reflexivity|].
  apply (thunks_next p t o (unle w)); rewrite ?E1; assumption.
Qed.
Lemma loop_thunks t o l : thunk_table p t o l -> is_u32 t -> is_u32 o -> forall acc, exists m, Z.of_nat m <= 2^32 - t + 1 /\ nloop m body (t, o, acc) = Ok (inr (acc ++ l)).
Proof.
  pose proof word_n as N4.
  induction 1 as [t o H|t o a Na H Ho|t o w f l Na Ha Nw Hw Hf T IH]; intros Ut Uo acc.
  - exists 1%nat. unfold is_u32 in Ut. split; [lia|]. cbn [nloop]. unfold body. rewrite thunk_word. apply word_read in H as (b & E & Eb); [|exact Ut]. rewrite E. cbn [bind]. rewrite Eb. cbn [Z.eqb]. rewrite app_nil_r. reflexivity.
  - exists 1%nat. unfold is_u32 in Ut. split; [lia|]. cbn [nloop]. unfold body. rewrite thunk_word. apply word_read in H as (b & E & Eb); [|exact Ut]. rewrite E. cbn [bind]. rewrite Eb. replace (a =? 0) with false by lia.
    apply word_read in Ho as (b' & E' & Eb'); [|exact Uo]. rewrite E'. cbn [bind]. rewrite Eb'. cbn [Z.eqb]. rewrite app_nil_r. reflexivity.
  - pose proof (read_word_ok t Ut) as S. pose proof (read_word_ok o Uo) as S2. apply word_read in Ha as (b & E & Eb); [|exact Ut]. apply word_read in Hw as (b' & E' & Eb'); [|exact Uo].
    rewrite E in S. rewrite E' in S2. unfold is_u32 in Ut, Uo. destruct (IH ltac:(unfold is_u32; lia) ltac:(unfold is_u32; lia) (acc ++ [f])) as (m & Hm & Hl).
    exists (Datatypes.S m). split; [lia|]. cbn [nloop]. unfold body at 1. rewrite thunk_word, E. cbn [bind]. rewrite Eb. replace (m_iat f =? 0) with false by lia.
    rewrite E'. cbn [bind]. rewrite Eb'. replace (w =? 0) with false by lia.
    rewrite (proj2 (lookup_of (m_iat f) w f ltac:(rewrite <- Eb'; apply S2))) by tauto. cbn [bind]. rewrite !u32_small by lia. rewrite Hl, <- app_assoc. reflexivity.
Qed.
Lemma thunks_exact t o l : is_u32 t -> is_u32 o -> (import_thunks p t o = Ok l <-> thunk_table p t o l).
Proof.
  intros Ht Ho. unfold import_thunks. fold body. split.
  - intros H. rewrite mloop_nloop in H. destruct (nloop (Pos.to_nat big_fuel) body (t, o, [])) as [[st|r]| | |] eqn:N; try discriminate. injection H as <-.
    destruct (thunks_loop _ _ _ _ _ Ht Ho N) as (l & -> & T). exact T.
  - intros T. destruct (loop_thunks t o l T Ht Ho []) as (m & Hm & Hl). apply (mloop_exec _ _ m); [exact Hl|]. unfold is_u32 in Ht. unfold big_fuel. lia.
Qed.
Lemma entry_safe oft time name ft : is_u32 oft -> is_u32 name -> is_u32 ft -> safe (import_entry p oft time name ft).
Proof.
  intros U1 U2 U3. unfold import_entry. apply safe_bind; [apply import_string_safe, U2|]. intros nm _. rewrite thunk_word.
  pose proof (read_word_ok ft U3) as S. destruct (read_rva p ft n VirtData true) as [a| | |] eqn:Ea; cbn [bind]; try exact S.
  apply safe_bind; [case_if C; [exact I|apply read_rva_safe; [apply R|exact U1|pose proof word_n; lia]]|]. intros w _.
  apply safe_bind; [|intros; exact I]. case_if D; [|exact I]. apply thunks_safe; [exact U3|]. case_if F; assumption.
Qed.
Lemma entry_exact oft time name ft l : is_u32 oft -> is_u32 name -> is_u32 ft ->
  (import_entry p oft time name ft = Ok l <->
   l_time l = time /\ l_iat l = ft /\ l_oiat l = oft /\ text p name (l_name l) /\ (exists w1, word_at p ft w1) /\ (oft = 0 \/ exists w2, word_at p oft w2) /\
   thunk_table p ft (if oft =? 0 then ft else oft) (l_funcs l)).
Proof.
  intros U1 U2 U3. unfold import_entry. rewrite thunk_word.
  assert (Uo : is_u32 (if oft =? 0 then ft else oft)) by (case_if F; assumption).
  split.
  - intros H. bnd H nm E1. bnd H a E2. pose proof (read_word_ok ft U3) as S. rewrite E2 in S.
    destruct (if oft =? 0 then Ok a else read_rva p oft n VirtData true) as [w| | |] eqn:E3; cbn [bind] in H; try discriminate.
    destruct (if negb (unle w =? 0) && negb (unle a =? 0) then import_thunks p ft (if oft =? 0 then ft else oft) else Ok []) as [fs| | |] eqn:E4; cbn [bind] in H; try discriminate.
    injection H as <-. cbn [l_name l_time l_iat l_oiat l_funcs]. split; [reflexivity|]. split; [reflexivity|]. split; [reflexivity|].
    split; [apply import_string_text; assumption|]. split; [exists (unle a); apply S|].
    assert (W2 : word_at p (if oft =? 0 then ft else oft) (unle w)).
    { destruct (oft =? 0) eqn:F; [injection E3 as <-; apply S|]. apply word_read; [exact U1|]. exists w. split; [exact E3|reflexivity]. }
    split. { destruct (Z.eqb_spec oft 0) as [F|F]; [left; exact F|]. right. exists (unle w). exact W2. }
    destruct (Z.eq_dec (unle a) 0) as [Za|Za].
    { rewrite Za, andb_false_r in E4. injection E4 as <-. apply thunks_end. rewrite <- Za. apply S. }
    destruct (Z.eq_dec (unle w) 0) as [Zw|Zw].
    { rewrite Zw in E4. injection E4 as <-. apply (thunks_end2 p _ _ (unle a)); [exact Za|apply S|]. rewrite Zw in W2. exact W2. }
    apply both_true in E4; [|lia|lia]. apply thunks_exact; [exact U3|exact Uo|exact E4].
  - intros (<- & <- & <- & E1 & (w1 & E2) & E3 & E4). apply import_string_text in E1; [|exact U2]. rewrite E1. cbn [bind].
    pose proof E2 as E2'. apply word_read in E2' as (a & Ea & Ea'); [|exact U3]. rewrite Ea. cbn [bind].
    assert (X : exists w, (if l_oiat l =? 0 then Ok a else read_rva p (l_oiat l) n VirtData true) = Ok w /\ word_at p (if l_oiat l =? 0 then l_iat l else l_oiat l) (unle w)).
    { destruct (Z.eqb_spec (l_oiat l) 0) as [F|F]; [exists a; split; [reflexivity|rewrite Ea'; exact E2]|]. destruct E3 as [E3|(w2 & E3)]; [contradiction|].
      pose proof E3 as E3'. apply word_read in E3' as (w & Ew & Ew'); [|exact U1]. exists w. split; [exact Ew|]. rewrite Ew'. exact E3. }
    destruct X as (w & Ew & Ww). rewrite Ew. cbn [bind].
    apply thunks_exact in E4; [|exact U3|exact Uo].
    assert (Q : (if negb (unle w =? 0) && negb (unle a =? 0) then import_thunks p (l_iat l) (if l_oiat l =? 0 then l_iat l else l_oiat l) else Ok []) = Ok (l_funcs l)).
    { apply in_if; [exact E4|]. intros F. apply thunks_exact in E4; [|exact U3|exact Uo].
      pose proof (word_read_fun _ 0 a U3) as Q1. pose proof (word_read (if l_oiat l =? 0 then l_iat l else l_oiat l) (unle w) Uo) as [Q2 _]. destruct (Q2 Ww) as (w' & Ew' & Q3).
      inversion E4 as [t o X1 X2 X3 X4|t o b X0 X1 X2 X3 X4|t o v f fs X0 X1 X2 X3 X4 X5 X6 X7 X8]; subst.
      - reflexivity.
      - reflexivity.
      - exfalso. pose proof (word_read_fun _ _ _ U3 X1 Ea). pose proof (word_read_fun _ _ _ Uo X3 Ew').
        destruct (Z.eqb_spec (unle w) 0); [congruence|]. destruct (Z.eqb_spec (unle a) 0); [congruence|]. discriminate. }
    rewrite Q. cbn [bind]. destruct l; reflexivity.
Qed.
Let lbody := (fun st : Z * list Z * list library =>
      let '(pos, e, acc) := st in
      match dec_fields descriptor_widths e with
      | [oft; time; _; name; ft] =>
          if name =? 0 then Ok (inr acc)
          else
            lib <- import_entry p oft time name ft ;;
            throw_if (negb (is_sum_safe pos 20)) incorrect_import_directory ;;;
            e' <- read_rva p (u32 (pos + 20)) 20 VirtData true ;;
            Ok (@inl _ (list library) (u32 (pos + 20), e', acc ++ [lib]))
      | _ => Throw incorrect_import_directory
      end).
Definition imports_from (rva : Z) : res (list library) := e0 <- read_rva p rva 20 VirtData true ;; mloop big_fuel lbody (rva, e0, []).
Lemma imports_from_safe rva : is_u32 rva -> safe (imports_from rva).
Proof.
  intros Hr. unfold imports_from. pose proof (read_rva_safe p rva 20 VirtData true ltac:(apply R) Hr ltac:(lia)) as S.
  destruct (read_rva p rva 20 VirtData true) as [e0| | |] eqn:E0; cbn [bind]; try exact S. clear S.
  apply (mloop_safe lbody big_fuel (fun st => let '(pos, e, _) := st in is_u32 pos /\ read_rva p pos 20 VirtData true = Ok e) (fun st => let '(pos, _, _) := st in 2^32 - pos)).
  - clear rva e0 Hr E0. intros [[pos e] acc] [Hp E]. split; [unfold is_u32 in Hp; lia|]. unfold lbody.
    pose proof (read_rva_bytes _ _ _ _ _ _ R E) as B. pose proof (read_rva_len _ _ _ _ _ _ E) as L. pose proof (read_rva_end p pos 20 true e R A Hp ltac:(lia) E) as End.
    destruct (descriptor_of e B L) as (oft & time & chain & name & ft & U1 & U2 & U3 & U4 & U5 & -> & _). case_if C; [exact I|].
    pose proof (entry_safe oft time name ft U1 U4 U5) as S. destruct (import_entry p oft time name ft) as [lib| | |]; cbn [bind]; try exact S.
    case_throw T; [exact I|]. cbn [bind]. unfold is_u32 in Hp. rewrite (u32_small (pos + 20)) by lia.
    pose proof (read_rva_safe p (pos + 20) 20 VirtData true ltac:(apply R) ltac:(unfold is_u32; lia) ltac:(lia)) as S2.
    destruct (read_rva p (pos + 20) 20 VirtData true) as [e'| | |] eqn:E'; cbn [bind]; try exact S2. split; [split; [unfold is_u32; lia|exact E']|lia].
  - split; assumption.
  - unfold is_u32 in Hr. unfold big_fuel. lia.
Qed.
Lemma libraries_loop m : forall pos e acc r, is_u32 pos -> read_rva p pos 20 VirtData true = Ok e -> nloop m lbody (pos, e, acc) = Ok (inr r) -> exists l, r = acc ++ l /\ library_table p pos l.
Proof.
  induction m as [|m IH]; intros pos e acc r Hp E H; cbn [nloop] in H; [discriminate|].
  pose proof (read_rva_bytes _ _ _ _ _ _ R E) as B. pose proof (read_rva_len _ _ _ _ _ _ E) as L. pose proof (read_rva_end p pos 20 true e R A Hp ltac:(lia) E) as End.
  destruct (descriptor_of e B L) as (oft & time & chain & name & ft & U1 & U2 & U3 & U4 & U5 & De & Se). unfold lbody in H at 1. rewrite De in H.
  assert (Sh : shows p pos (descriptor oft time chain name ft)) by (unfold shows; rewrite descriptor_len, E; f_equal; exact Se).
  destruct (Z.eq_dec name 0) as [C|C].
  { subst name. cbn [Z.eqb] in H. injection H as <-. exists []. split; [rewrite app_nil_r; reflexivity|]. apply (libraries_end p pos oft time chain ft); assumption. }
  replace (name =? 0) with false in H by lia. destruct (import_entry p oft time name ft) as [lib| | |] eqn:El; cbn [bind] in H; try discriminate.
  destruct (throw_if _ _) as [[]| | |] in H; cbn [bind] in H; try discriminate. unfold is_u32 in Hp. rewrite !(u32_small (pos + 20)) in H by lia.
  destruct (read_rva p (pos + 20) 20 VirtData true) as [e'| | |] eqn:E'; cbn [bind] in H; try discriminate.
  destruct (IH (pos + 20) e' (acc ++ [lib]) r ltac:(unfold is_u32; lia) E' H) as (l & -> & T). exists (lib :: l). split; [rewrite <- app_assoc; reflexivity|].
  apply entry_exact in El; [|assumption..]. destruct El as (<- & <- & <- & Tx & (w1 & W1) & W2 & Tt).
  assert (W3 : exists w2, l_oiat lib = 0 \/ word_at p (l_oiat lib) w2) by (destruct W2 as [W2|(w2 & W2)]; [exists 0; left; exact W2|exists w2; right; exact W2]).
  destruct W3 as (w2 & W3). apply (libraries_next p pos chain name w1 w2); assumption.
Qed.
Lemma loop_libraries pos l : library_table p pos l -> is_u32 pos -> forall acc, exists e m, read_rva p pos 20 VirtData true = Ok e /\
  Z.of_nat m <= 2^32 - pos + 1 /\ nloop m lbody (pos, e, acc) = Ok (inr (acc ++ l)).
Proof.
  induction 1 as [pos oft time chain ft U1 U2 U3 U5 Sh|pos chain name w1 w2 l ls U1 U2 U3 U4 N4 U5 Sh Tx W1 W2 Tt T IH]; intros Hp acc; unfold shows in Sh; rewrite descriptor_len in Sh.
  - eexists. exists 1%nat. split; [exact Sh|]. unfold is_u32 in Hp. split; [lia|]. cbn [nloop]. unfold lbody. rewrite dec_descriptor; [|first [assumption|unfold is_u32; lia]..].
    cbn [Z.eqb]. rewrite app_nil_r. reflexivity.
  - pose proof (read_rva_end p pos 20 true _ R A Hp ltac:(lia) Sh) as End. unfold is_u32 in Hp.
    destruct (IH ltac:(unfold is_u32; lia) (acc ++ [l])) as (e' & m & Re & Hm & Hl). eexists. exists (S m). split; [exact Sh|]. split; [lia|]. cbn [nloop]. unfold lbody at 1.
    rewrite dec_descriptor by assumption. replace (name =? 0) with false by lia.
    assert (El : import_entry p (l_oiat l) (l_time l) name (l_iat l) = Ok l).
    { apply entry_exact; [assumption..|]. split; [reflexivity|]. split; [reflexivity|]. split; [reflexivity|]. split; [exact Tx|]. split; [exists w1; exact W1|]. split; [|exact Tt].
      destruct W2 as [W2|W2]; [left; exact W2|right; exists w2; exact W2]. }
    rewrite El. cbn [bind]. replace (is_sum_safe pos 20) with true by (symmetry; apply is_sum_safe_spec; lia). cbn [negb throw_if bind]. rewrite (u32_small (pos + 20)) by lia.
    rewrite Re. cbn [bind]. rewrite Hl, <- app_assoc. reflexivity.
Qed.
Lemma imports_from_table rva l : is_u32 rva -> (imports_from rva = Ok l <-> library_table p rva l).
Proof.
  intros Hs. unfold imports_from. split.
  - intros H. bnd H e0 E0. rewrite mloop_nloop in H.
    destruct (nloop (Pos.to_nat big_fuel) lbody (rva, e0, [])) as [[st|r]| | |] eqn:N; try discriminate. injection H as <-.
    destruct (libraries_loop _ _ _ _ _ Hs E0 N) as (l & -> & T). exact T.
  - intros T. destruct (loop_libraries rva l T Hs []) as (e & m & Re & Hm & Hl). rewrite Re. cbn [bind]. apply (mloop_exec _ _ m); [exact Hl|]. unfold is_u32 in Hs. unfold big_fuel. lia.
Qed.
Lemma get_imports_from : get_imports p = (ex <- directory_exists p dir_import ;; if ex then rva <- get_directory_rva p dir_import ;; imports_from rva else Ok []).
Proof. reflexivity. Qed.
Lemma imports_safe : safe (get_imports p).
Proof.
  rewrite get_imports_from. destruct (directory_exists_safe p dir_import R ltac:(unfold dir_import; lia)) as [b ->]. cbn [bind].
  destruct b; [|exact I]. destruct (dir_get p dir_import R ltac:(unfold dir_import; lia)) as (rva & size & Hr & _ & _ & -> & _).
  case_if C; [exact I|]. cbn [bind]. apply imports_from_safe, Hr.
Qed.
Lemma imports_exact rva size l : dir_is p dir_import (rva, size) -> dir_import < nrva p -> rva <> 0 -> (get_imports p = Ok l <-> library_table p rva l).
Proof.
  intros D N Hr. rewrite get_imports_from.
  destruct (dir_get p dir_import R ltac:(unfold dir_import; lia)) as (rva' & size' & Ur & _ & D' & Er & _ & Ex).
  assert (rva' = rva) by (unfold dir_is in *; destruct D as [_ D], D' as [_ D']; congruence). subst rva'.
  rewrite (Ex N), Er. replace (nrva p <=? dir_import) with false by lia. cbn [bind]. replace (rva =? 0) with false by lia. cbn [negb]. apply imports_from_table, Ur.
Qed.
End Reader.

(** ** Writing *)
Lemma named_size f : import_text_size f = if by_name f then zlen (m_name f) + 3 else 0.
Proof. unfold import_text_size, by_name. destruct (m_name f); reflexivity. Qed.
Lemma text_size_nonneg f : 0 <= import_text_size f.
Proof. rewrite named_size. pose proof (zlen_nonneg (m_name f)). destruct (by_name f); lia. Qed.
Lemma total_nonneg {A} (f : A -> Z) l : (forall x, 0 <= f x) -> 0 <= total f l.
Proof. intros H. induction l as [|x l IH]; cbn [total fold_right]; [lia|]. fold (total f l). pose proof (H x). lia. Qed.
Lemma total_cons {A} (f : A -> Z) x l : total f (x :: l) = f x + total f l. Proof. reflexivity. Qed.
Definition import_bytes (f : imported) : list Z := if by_name f then le 2 (m_hint f) ++ m_name f ++ [0] else [].
Lemma import_bytes_len f : zlen (import_bytes f) = import_text_size f.
Proof. rewrite named_size. unfold import_bytes. destruct (by_name f); [|reflexivity]. rewrite !zlen_app, zlen_le. change (zlen [0]) with 1. lia. Qed.
Lemma import_bytes_bytes f : bytes (m_name f) -> bytes (import_bytes f).
Proof. intros H. unfold import_bytes. destruct (by_name f); [|constructor]. rewrite !bytes_app. split; [apply bytes_le|]. split; [exact H|]. repeat constructor; lia. Qed.
Section Writer.
Variables (p : pe) (i : nat) (s : section).
Hypothesis Hs : nth_error (p_sections p) i = Some s.
Local Notation n := (word_size p).
Local Notation sz := (Z.of_nat (word_size p)).
Local Notation Img d := (put_section p i (opened s d)).
Lemma get_img d : get_section (Img d) i = Ok (opened s d).
Proof. apply get_section_ok, put_get, (nth_lt _ _ _ Hs). Qed.
Lemma wr_img d pos bs d' : wr d pos bs = Ok d' -> wr_section (Img d) i pos bs = Ok (Img d').
Proof.
  intros H. unfold wr_section. rewrite get_img. cbn [bind]. destruct (opened_fields s d) as (_ & _ & _ & _ & _ & O6 & O7 & _).
  assert (Uo : unmap_virtual (opened s d) = opened s d) by (unfold unmap_virtual; rewrite O7; reflexivity). rewrite Uo, O6, H. cbn [bind]. rewrite put_put. do 2 f_equal.
Qed.
Lemma rva_img d x : 0 <= x -> 0 <= s_va s -> s_va s + x < 2^32 -> rva_from_section_offset (opened s d) x = s_va s + x.
Proof. intros H1 H2 H3. unfold rva_from_section_offset. destruct (opened_fields s d) as (_ & _ & -> & _). apply u32_small. lia. Qed.
Lemma put_img d a ip v : 0 <= ip -> ip + sz <= zlen d -> zlen d < 2^32 ->
  exists d', put_thunk i false (Img d) (a, ip) v = Ok (Img d', (a, ip + sz)) /\ zlen d' = zlen d /\ holds d' ip (le n v) /\
    (forall o x, holds d o x -> o + zlen x <= ip \/ ip + sz <= o -> holds d' o x) /\ (bytes d -> bytes d').
Proof.
  intros H1 H2 H3. pose proof (word_size_ok p) as W. rewrite thunk_word in W. destruct (wr_step d ip (le n v) H1 ltac:(rewrite zlen_le; exact H2)) as (d' & E1 & E2 & E3 & E4 & E5).
  rewrite zlen_le in E4. exists d'. unfold put_thunk. cbn [fst snd]. change (base_size (Img d)) with n. rewrite (wr_img _ _ _ _ E1). cbn [bind]. change (thunk_size (Img d)) with sz.
  rewrite u32_small by lia. split; [reflexivity|]. split; [exact E2|]. split; [exact E3|]. split; [exact E4|]. intros B. apply E5; [exact B|apply bytes_le].
Qed.
Definition thunk_value (str : Z) (f : imported) : Z := if by_name f then s_va s + str else Z.lor (m_ordinal f) (snap_flag p).
Definition istep (sv wo : bool) (f : imported) : Z := if sv then 0 else if wo || by_name f then sz else 0.
Hypothesis Va : 0 <= s_va s.
Lemma write_import_ok (sv wo : bool) f d str a ip b op :
  0 <= str -> str + import_text_size f <= ip -> ip + sz <= op -> op + (if wo then sz else 0) <= zlen d -> s_va s + zlen d < 2^32 ->
  exists d', write_import i sv wo false false (Img d, str, (a, ip), (b, op)) f =
      Ok (Img d', str + import_text_size f, (a, ip + istep sv wo f), (b, op + (if wo then sz else 0))) /\ zlen d' = zlen d /\
    (bytes d -> bytes (m_name f) -> bytes d') /\ holds d' str (import_bytes f) /\
    (sv = false -> holds d' ip (le n (if wo then m_iat f mod base_mod p else thunk_value str f))) /\ (wo = true -> holds d' op (le n (thunk_value str f))) /\
    (forall o x, holds d o x -> o + zlen x <= str \/ str + import_text_size f <= o -> sv = true \/ o + zlen x <= ip \/ ip + sz <= o ->
       wo = false \/ o + zlen x <= op \/ op + sz <= o -> holds d' o x).
Proof.
  intros H1 H2 H3 H4 H5. pose proof (text_size_nonneg f) as T0. pose proof (word_size_ok p) as W. rewrite thunk_word in W.
  assert (Lop : op <= zlen d) by (destruct wo; lia). unfold write_import. rewrite get_img. cbn [bind]. rewrite rva_img by lia. change (snap_flag (Img d)) with (snap_flag p). fold (thunk_value str f). change (base_mod (Img d)) with (base_mod p).
  assert (S1 : exists d1, (if sv then Ok (Img d, (a, ip)) else if wo then put_thunk i false (Img d) (a, ip) (m_iat f mod base_mod p)
     else if by_name f || false then put_thunk i false (Img d) (a, ip) (thunk_value str f)
     else ' (p', _) <- put_thunk i false (Img d) (a, ip) (thunk_value str f) ;; Ok (p', (a, ip))) = Ok (Img d1, (a, ip + istep sv wo f)) /\ zlen d1 = zlen d /\ (bytes d -> bytes d1) /\
     (sv = false -> holds d1 ip (le n (if wo then m_iat f mod base_mod p else thunk_value str f))) /\
     (forall o x, holds d o x -> sv = true \/ o + zlen x <= ip \/ ip + sz <= o -> holds d1 o x)).
  { unfold istep. destruct sv.
    - exists d. rewrite Z.add_0_r. split; [reflexivity|]. split; [reflexivity|]. split; [tauto|]. split; [discriminate|]. intros o x H _. exact H.
    - assert (Lip : ip + sz <= zlen d) by (destruct wo; lia).
      destruct (put_img d a ip (if wo then m_iat f mod base_mod p else thunk_value str f)) as (d1 & E1 & E2 & E3 & E4 & E5); [lia|lia|lia|]. exists d1. destruct wo; cbn [orb].
      + rewrite E1. split; [reflexivity|]. split; [exact E2|]. split; [exact E5|]. split; [intros _; exact E3|]. intros o x H [D|D]; [discriminate|exact (E4 _ _ H D)].
      + rewrite orb_false_r. split; [destruct (by_name f); rewrite E1; cbn [bind]; rewrite ?Z.add_0_r; reflexivity|]. split; [exact E2|]. split; [exact E5|]. split; [intros _; exact E3|].
        intros o x H [D|D]; [discriminate|exact (E4 _ _ H D)]. }
  destruct S1 as (d1 & -> & L1 & B1 & I1 & F1). cbn [bind].
  assert (S2 : exists d2, (if wo then put_thunk i false (Img d1) (b, op) (thunk_value str f) else Ok (Img d1, (b, op))) = Ok (Img d2, (b, op + (if wo then sz else 0))) /\ zlen d2 = zlen d /\ (bytes d1 -> bytes d2) /\
     (wo = true -> holds d2 op (le n (thunk_value str f))) /\ (forall o x, holds d1 o x -> wo = false \/ o + zlen x <= op \/ op + sz <= o -> holds d2 o x)).
  { destruct wo.
    - destruct (put_img d1 b op (thunk_value str f)) as (d2 & E1 & E2 & E3 & E4 & E5); [lia|lia|lia|]. exists d2. rewrite E1. split; [reflexivity|]. split; [lia|]. split; [exact E5|]. split; [intros _; exact E3|].
      intros o x H [D|D]; [discriminate|exact (E4 _ _ H D)].
    - exists d1. rewrite Z.add_0_r. split; [reflexivity|]. split; [exact L1|]. split; [tauto|]. split; [discriminate|]. intros o x H _. exact H. }
  destruct S2 as (d2 & -> & L2 & B2 & O2 & F2). cbn [bind].
  assert (I2 : sv = false -> holds d2 ip (le n (if wo then m_iat f mod base_mod p else thunk_value str f))).
  { intros K. apply F2; [exact (I1 K)|]. rewrite zlen_le. destruct wo; [right; lia|left; reflexivity]. }
  rewrite named_size in *. unfold import_bytes. destruct (by_name f).
  - pose proof (zlen_nonneg (m_name f)) as Z0.
    destruct (wr_step d2 str (le 2 (m_hint f))) as (d3 & E1 & E2 & E3 & E4 & E5); [lia|rewrite zlen_le; lia|]. rewrite (wr_img _ _ _ _ E1). cbn [bind].
    assert (Ln : zlen (m_name f ++ [0]) = zlen (m_name f) + 1) by (rewrite zlen_app; reflexivity).
    destruct (wr_step d3 (str + 2) (m_name f ++ [0])) as (d4 & G1 & G2 & G3 & G4 & G5); [lia|lia|]. rewrite (wr_img _ _ _ _ G1). cbn [bind].
    rewrite zlen_le in E4. change (Z.of_nat 2) with 2 in E4. rewrite Ln in G4.
    exists d4. rewrite (u32_small (zlen (m_name f) + 1 + 2)) by lia. rewrite u32_small by lia. split; [replace (str + (zlen (m_name f) + 1 + 2)) with (str + (zlen (m_name f) + 3)) by lia; reflexivity|]. split; [lia|].
    split. { intros Bd Bn. apply G5; [apply E5; [auto|apply bytes_le]|]. apply bytes_app. split; [exact Bn|]. repeat constructor; lia. }
    split. { apply holds_app. split; [apply G4; [exact E3|rewrite zlen_le; lia]|]. rewrite zlen_le. exact G3. }
    split. { intros K. apply G4; [apply E4; [exact (I2 K)|]|]; rewrite zlen_le; lia. }
    split. { intros K. apply G4; [apply E4; [exact (O2 K)|]|]; rewrite zlen_le; lia. }
    intros o x H D1 D2 D3. apply G4; [apply E4; [apply F2; [apply F1; [exact H|exact D2]|exact D3]|]|]; lia.
  - exists d2. rewrite Z.add_0_r. split; [reflexivity|]. split; [exact L2|]. split; [auto|]. split; [apply holds_nil; destruct wo; lia|]. split; [exact I2|]. split; [exact O2|].
    intros o x H D1 D2 D3. apply F2; [apply F1; [exact H|exact D2]|exact D3].
Qed.
Fixpoint thunk_values (str : Z) (fs : list imported) : list Z :=
  match fs with [] => [] | f :: t => thunk_value str f :: thunk_values (str + import_text_size f) t end.
Definition wordl (l : list Z) : list Z := concat (map (le n) l).
Lemma wordl_cons x l : wordl (x :: l) = le n x ++ wordl l. Proof. reflexivity. Qed.
Lemma wordl_len l : zlen (wordl l) = sz * zlen l.
Proof. induction l as [|x l IH]; [change (wordl []) with (@nil Z); change (@zlen Z []) with 0; lia|]. rewrite wordl_cons, zlen_app, zlen_le, IH, zlen_cons. lia. Qed.
Lemma thunk_values_len fs : forall str, zlen (thunk_values str fs) = zlen fs.
Proof. induction fs as [|f fs IH]; intros str; [reflexivity|]. cbn [thunk_values]. rewrite !zlen_cons, IH. reflexivity. Qed.
Definition import_blob (fs : list imported) : list Z := concat (map import_bytes fs).
Lemma blob_cons f fs : import_blob (f :: fs) = import_bytes f ++ import_blob fs. Proof. reflexivity. Qed.
Lemma blob_len fs : zlen (import_blob fs) = total import_text_size fs.
Proof. induction fs as [|f fs IH]; [reflexivity|]. rewrite blob_cons, zlen_app, import_bytes_len, IH. reflexivity. Qed.
Definition iat_values (wo : bool) (str : Z) (fs : list imported) : list Z := if wo then map (fun f => m_iat f mod base_mod p) fs else thunk_values str fs.
Lemma iat_cons wo str f fs : iat_values wo str (f :: fs) = (if wo then m_iat f mod base_mod p else thunk_value str f) :: iat_values wo (str + import_text_size f) fs.
Proof. destruct wo; reflexivity. Qed.
Lemma iat_len wo str fs : zlen (iat_values wo str fs) = zlen fs.
Proof. destruct wo; [apply zlen_map|apply thunk_values_len]. Qed.
Lemma write_imports_ok (sv wo : bool) fs : forall d str a ip b op,
  0 <= str -> str + total import_text_size fs <= ip -> ip + sz * zlen fs <= op -> op + (if wo then sz * zlen fs else 0) <= zlen d -> s_va s + zlen d < 2^32 ->
  exists d', mfold (write_import i sv wo false false) fs (Img d, str, (a, ip), (b, op)) =
      Ok (Img d', str + total import_text_size fs, (a, ip + total (istep sv wo) fs), (b, op + (if wo then sz * zlen fs else 0))) /\ zlen d' = zlen d /\
    (bytes d -> Forall valid_import fs -> bytes d') /\ holds d' str (import_blob fs) /\
    (sv = false -> wo = true \/ Forall (fun f => by_name f = true) fs -> holds d' ip (wordl (iat_values wo str fs))) /\
    (wo = true -> holds d' op (wordl (thunk_values str fs))) /\
    (forall o x, holds d o x -> o + zlen x <= str \/ str + total import_text_size fs <= o -> sv = true \/ o + zlen x <= ip \/ ip + sz * zlen fs <= o ->
       wo = false \/ o + zlen x <= op \/ op + sz * zlen fs <= o -> holds d' o x).
Proof.
  pose proof (word_size_ok p) as W. rewrite thunk_word in W.
  induction fs as [|f fs IH]; intros d str a ip b op H1 H2 H3 H4 H5.
  - exists d. cbn [mfold]. change (@zlen imported []) with 0 in *. change (total import_text_size []) with 0 in *. change (total (istep sv wo) []) with 0. rewrite Z.mul_0_r in *. rewrite !Z.add_0_r in *.
    assert (ip <= zlen d) by (destruct wo; lia). split; [destruct wo; rewrite !Z.add_0_r; reflexivity|]. split; [reflexivity|]. split; [tauto|]. split; [apply holds_nil; lia|].
    split; [intros _ _; replace (iat_values wo str []) with (@nil Z) by (destruct wo; reflexivity); apply holds_nil; lia|]. split; [intros ->; apply holds_nil; lia|]. tauto.
  - rewrite zlen_cons, total_cons in *. pose proof (text_size_nonneg f) as T1. pose proof (total_nonneg import_text_size fs text_size_nonneg) as T2. pose proof (zlen_nonneg fs) as Z0.
    assert (M : sz * (1 + zlen fs) = sz + sz * zlen fs) by lia. rewrite M in *. assert (Msz : 0 <= sz * zlen fs) by (apply Z.mul_nonneg_nonneg; lia).
    destruct (write_import_ok sv wo f d str a ip b op) as (d1 & E1 & L1 & B1 & C1 & I1 & O1 & F1); [lia|lia|lia|destruct wo; lia|lia|].
    cbn [mfold]. rewrite E1. cbn [bind].
    assert (Hi : 0 <= istep sv wo f <= sz) by (unfold istep; destruct sv; [lia|]; destruct (wo || by_name f); lia).
    destruct (IH d1 (str + import_text_size f) a (ip + istep sv wo f) b (op + (if wo then sz else 0))) as (d2 & E2 & L2 & B2 & C2 & I2 & O2 & F2); [lia|lia|destruct wo; lia|destruct wo; lia|lia|].
    exists d2. rewrite E2. rewrite total_cons. split; [destruct wo; rewrite ?Z.add_0_r, !Z.add_assoc; reflexivity|]. split; [lia|].
    split. { intros Bd Fv. inversion Fv as [|? ? V1 V2]; subst. apply B2; [|exact V2]. apply B1; [exact Bd|apply V1]. }
    split. { rewrite blob_cons. apply holds_app. rewrite import_bytes_len. split; [|exact C2]. pose proof (import_bytes_len f). apply F2; [exact C1|lia|right; lia|destruct wo; [right; lia|left; reflexivity]]. }
    assert (Hfr : forall o x, holds d1 o x -> o + zlen x <= str + import_text_size f \/ str + import_text_size f + total import_text_size fs <= o ->
       sv = true \/ o + zlen x <= ip + istep sv wo f \/ ip + sz + sz * zlen fs <= o -> wo = false \/ o + zlen x <= op + sz \/ op + sz + sz * zlen fs <= o -> holds d2 o x).
    { intros o x H D1 D2 D3. apply F2; [exact H|exact D1|lia|]. destruct wo; [lia|left; reflexivity]. }
    split. { intros Ksv Kw. rewrite iat_cons, wordl_cons. apply holds_app. rewrite zlen_le.
      assert (Ei : istep sv wo f = sz) by (unfold istep; rewrite Ksv; destruct Kw as [->|Kn]; [reflexivity|]; inversion Kn as [|? ? K1 _]; subst; rewrite K1, orb_true_r; reflexivity).
      split.
      - apply Hfr; [exact (I1 Ksv)|rewrite ?zlen_le; lia|rewrite zlen_le; lia|rewrite zlen_le; destruct wo; [right; lia|left; reflexivity]].
      - rewrite Ei in I2. apply I2; [exact Ksv|]. destruct Kw as [Kw|Kn]; [left; exact Kw|right; inversion Kn; assumption]. }
    split. { intros ->. cbn [thunk_values]. rewrite wordl_cons. apply holds_app. rewrite zlen_le. split; [|exact (O2 eq_refl)].
      apply Hfr; [exact (O1 eq_refl)|rewrite ?zlen_le; lia|rewrite zlen_le; lia|rewrite zlen_le; lia]. }
    intros o x H D1 D2 D3. apply F2; [apply F1; [exact H|lia|lia|lia]|lia|lia|]. destruct wo; [lia|left; reflexivity].
Qed.
Variable o : import_settings.
Definition kept (l : library) : bool := o_save o && negb (l_iat l =? 0).
Definition wo_of (l : library) : bool := (negb (kept l) && o_build o) || o_fill o.
Definition oft_of (op : Z) (l : library) : Z :=
  if o_build o then if kept l then if (l_oiat l =? 0) && o_fill o then s_va s + op else l_oiat l else s_va s + op else 0.
Definition ft_of (ip : Z) (l : library) : Z := if kept l then l_iat l else s_va s + ip.
Definition lstep (l : library) : Z := if kept l then 0 else total (istep false (wo_of l)) (l_funcs l) + sz.
Definition ostep (l : library) : Z := if wo_of l then library_table_size p l else 0.
Definition library_blob (l : library) : list Z := (l_name l ++ [0]) ++ import_blob (l_funcs l).
Lemma library_blob_len l : zlen (library_blob l) = library_text_size l.
Proof. unfold library_blob, library_text_size. rewrite !zlen_app, blob_len. change (zlen [0]) with 1. lia. Qed.
Lemma wordl_app a b : wordl (a ++ b) = wordl a ++ wordl b. Proof. unfold wordl. rewrite map_app, concat_app. reflexivity. Qed.
Definition library_written (d : list Z) (str dpos ip op : Z) (l : library) : Prop :=
  holds d dpos (descriptor (oft_of op l) (l_time l) 0 (s_va s + str) (ft_of ip l)) /\ holds d str (library_blob l) /\
  (kept l = false -> wo_of l = true \/ Forall (fun f => by_name f = true) (l_funcs l) ->
     holds d ip (wordl (iat_values (wo_of l) (str + (zlen (l_name l) + 1)) (l_funcs l) ++ [0]))) /\
  (wo_of l = true -> holds d op (wordl (thunk_values (str + (zlen (l_name l) + 1)) (l_funcs l) ++ [0]))).
Lemma istep_le wo fs : 0 <= total (istep false wo) fs <= sz * zlen fs.
Proof.
  induction fs as [|f fs IH]; [change (@zlen imported []) with 0; cbn; lia|]. rewrite total_cons, zlen_cons. unfold istep at 1 3. destruct (wo || by_name f); lia.
Qed.
Lemma istep_all wo fs : wo = true \/ Forall (fun f => by_name f = true) fs -> total (istep false wo) fs = sz * zlen fs.
Proof.
  induction fs as [|f fs IH]; intros H; [change (@zlen imported []) with 0; cbn; lia|]. rewrite total_cons, zlen_cons.
  rewrite IH; [|destruct H as [H|H]; [left; exact H|right; inversion H; assumption]]. unfold istep.
  assert (wo || by_name f = true) as ->; [|lia]. destruct H as [->|H]; [reflexivity|]. inversion H as [|? ? K _]; subst. rewrite K. apply orb_true_r.
Qed.
Lemma write_library_ok l d str a ip b op dpos :
  kept l && o_rewrite o = false -> valid_library l ->
  0 <= str -> str + library_text_size l <= dpos -> dpos + 20 <= ip -> ip + library_table_size p l <= op -> op + ostep l <= zlen d -> s_va s + zlen d < 2^32 ->
  exists d' a' b', write_library i o ((Img d, str, (a, ip), (b, op)), dpos) l =
      Ok ((Img d', str + library_text_size l, (a', ip + lstep l), (b', op + ostep l)), dpos + 20) /\ zlen d' = zlen d /\
    (bytes d -> bytes d') /\ library_written d' str dpos ip op l /\
    (forall o' x, holds d o' x -> o' + zlen x <= str \/ str + library_text_size l <= o' -> o' + zlen x <= dpos \/ dpos + 20 <= o' ->
       o' + zlen x <= ip \/ ip + library_table_size p l <= o' -> wo_of l = false \/ o' + zlen x <= op \/ op + library_table_size p l <= o' -> holds d' o' x).
Proof.
  intros Hr Vl H1 H2 H3 H4 H5 H6. destruct Vl as (V1 & V2 & V3 & V4 & V5). pose proof (word_size_ok p) as W. rewrite thunk_word in W.
  pose proof (zlen_nonneg (l_name l)) as Z1. pose proof (zlen_nonneg (l_funcs l)) as Z2. pose proof (total_nonneg import_text_size (l_funcs l) text_size_nonneg) as T2.
  assert (M : library_table_size p l = sz * zlen (l_funcs l) + sz) by (unfold library_table_size; lia). assert (Msz : 0 <= sz * zlen (l_funcs l)) by (apply Z.mul_nonneg_nonneg; lia).
  assert (Es : str + library_text_size l = str + (zlen (l_name l) + 1) + total import_text_size (l_funcs l)) by (unfold library_text_size; lia).
  assert (Lop : op <= zlen d) by (unfold ostep in H5; destruct (wo_of l); lia).
  unfold write_library. rewrite get_img. cbn [bind]. rewrite !rva_img by lia. fold (kept l). rewrite Hr. cbn [andb].
  replace (kept l && negb false) with (kept l) by (destruct (kept l); reflexivity).
  rewrite orb_false_r. fold (wo_of l).
  change (if o_build o then if kept l then if (l_oiat l =? 0) && o_fill o then s_va s + op else l_oiat l else s_va s + op else 0) with (oft_of op l). fold (ft_of ip l).
  rewrite <- descriptor_enc. set (D := descriptor (oft_of op l) (l_time l) 0 (s_va s + str) (ft_of ip l)). assert (Ld : zlen D = 20) by apply descriptor_len.
  destruct (wr_step d dpos D) as (d1 & E1 & L1 & C1 & F1 & B1); [lia|lia|]. rewrite Ld in F1. rewrite (wr_img _ _ _ _ E1). cbn [bind].
  assert (Ln : zlen (l_name l ++ [0]) = zlen (l_name l) + 1) by (rewrite zlen_app; reflexivity).
  destruct (wr_step d1 str (l_name l ++ [0])) as (d2 & E2 & L2 & C2 & F2 & B2); [lia|lia|]. rewrite Ln in F2. rewrite (wr_img _ _ _ _ E2). cbn [bind].
  rewrite (u32_small (zlen (l_name l) + 1)) by lia. rewrite (u32_small (str + (zlen (l_name l) + 1))) by lia.
  destruct (write_imports_ok (kept l) (wo_of l) (l_funcs l) d2 (str + (zlen (l_name l) + 1)) (ft_of ip l) ip (oft_of op l) op) as (d3 & E3 & L3 & B3 & C3 & I3 & O3 & F3);
    [lia|lia|lia|unfold ostep in H5; destruct (wo_of l); lia|lia|]. rewrite E3. cbn [bind].
  pose proof (istep_le (wo_of l) (l_funcs l)) as Hi.
  assert (Sk : total (istep (kept l) (wo_of l)) (l_funcs l) = if kept l then 0 else total (istep false (wo_of l)) (l_funcs l)).
  { destruct (kept l); [|reflexivity]. clear. induction (l_funcs l) as [|f fs IH]; [reflexivity|]. rewrite total_cons, IH. reflexivity. }
  rewrite Sk. clear Sk.
  assert (S4 : exists d4, (if kept l then Ok (Img d3, (ft_of ip l, ip + (if kept l then 0 else total (istep false (wo_of l)) (l_funcs l)))) else put_thunk i false (Img d3) (ft_of ip l, ip + (if kept l then 0 else total (istep false (wo_of l)) (l_funcs l))) 0) =
      Ok (Img d4, (ft_of ip l, ip + lstep l)) /\ zlen d4 = zlen d /\ (bytes d3 -> bytes d4) /\ (kept l = false -> holds d4 (ip + total (istep false (wo_of l)) (l_funcs l)) (le n 0)) /\
      (forall o' x, holds d3 o' x -> kept l = true \/ o' + zlen x <= ip + total (istep false (wo_of l)) (l_funcs l) \/ ip + library_table_size p l <= o' -> holds d4 o' x)).
  { unfold lstep. destruct (kept l).
    - exists d3. split; [reflexivity|]. split; [lia|]. split; [tauto|]. split; [discriminate|]. tauto.
    - destruct (put_img d3 (ft_of ip l) (ip + total (istep false (wo_of l)) (l_funcs l)) 0) as (d4 & G1 & G2 & G3 & G4 & G5); [lia|lia|lia|]. exists d4. rewrite G1.
      split; [rewrite Z.add_assoc; reflexivity|]. split; [lia|]. split; [exact G5|]. split; [intros _; exact G3|]. intros o' x H [K|K]; [discriminate|]. apply G4; [exact H|lia]. }
  destruct S4 as (d4 & -> & L4 & B4 & C4 & F4). cbn [bind].
  assert (S5 : exists d5, (if wo_of l then put_thunk i false (Img d4) (oft_of op l, op + (if wo_of l then sz * zlen (l_funcs l) else 0)) 0 else Ok (Img d4, (oft_of op l, op + (if wo_of l then sz * zlen (l_funcs l) else 0)))) =
      Ok (Img d5, (oft_of op l, op + ostep l)) /\ zlen d5 = zlen d /\ (bytes d4 -> bytes d5) /\ (wo_of l = true -> holds d5 (op + sz * zlen (l_funcs l)) (le n 0)) /\
      (forall o' x, holds d4 o' x -> wo_of l = false \/ o' + zlen x <= op + sz * zlen (l_funcs l) \/ op + library_table_size p l <= o' -> holds d5 o' x)).
  { unfold ostep in *. destruct (wo_of l).
    - destruct (put_img d4 (oft_of op l) (op + sz * zlen (l_funcs l)) 0) as (d5 & G1 & G2 & G3 & G4 & G5); [lia|lia|lia|]. exists d5. rewrite G1.
      split; [rewrite M, Z.add_assoc; reflexivity|]. split; [lia|]. split; [exact G5|]. split; [intros _; exact G3|]. intros o' x H [K|K]; [discriminate|]. apply G4; [exact H|lia].
    - exists d4. split; [reflexivity|]. split; [lia|]. split; [tauto|]. split; [discriminate|]. tauto. }
  destruct S5 as (d5 & -> & L5 & B5 & C5 & F5). cbn [bind].
  rewrite (u32_small (dpos + 20)) by lia. exists d5, (ft_of ip l), (oft_of op l). split; [rewrite Es; reflexivity|]. split; [exact L5|].
  split. { intros Bd. apply B5, B4, B3; [|exact V5]. apply B2; [apply B1; [exact Bd|unfold D; rewrite descriptor_enc; apply bytes_enc_fields]|]. apply bytes_app. split; [exact V1|]. repeat constructor; lia. }
  assert (Fz : forall o' x, holds d2 o' x -> o' + zlen x <= str + (zlen (l_name l) + 1) \/ str + library_text_size l <= o' ->
       o' + zlen x <= ip \/ ip + library_table_size p l <= o' -> wo_of l = false \/ o' + zlen x <= op \/ op + library_table_size p l <= o' -> holds d5 o' x).
  { intros o' x H K1 K2 K3. apply F5; [apply F4; [apply F3; [exact H|lia|right; lia|]|right; lia]|]; (destruct K3 as [K3|K3]; [left; exact K3|right; lia]). }
  split.
  { unfold library_written. fold D. split; [apply Fz; [apply F2; [exact C1|lia]|lia|lia|right; lia]|].
    split. { unfold library_blob. apply holds_app. rewrite Ln. split; [apply Fz; [exact C2|lia|lia|right; lia]|]. pose proof (blob_len (l_funcs l)) as Bl. apply F5; [apply F4; [exact C3|right; lia]|right; lia]. }
    split.
    - intros K1 K2. rewrite wordl_app. pose proof (istep_all _ _ K2) as Ei. rewrite Ei in C4, F4. apply holds_app. rewrite wordl_len, iat_len.
      split; [apply F5; [apply F4; [exact (I3 K1 K2)|right]|right]; rewrite wordl_len, iat_len; lia|].
      unfold wordl. cbn [map concat]. rewrite app_nil_r. apply F5; [exact (C4 K1)|right; rewrite zlen_le; lia].
    - intros K. rewrite wordl_app. apply holds_app. rewrite wordl_len, thunk_values_len. split; [apply F5; [apply F4; [exact (O3 K)|right]|right]; rewrite wordl_len, thunk_values_len; lia|].
      unfold wordl. cbn [map concat]. rewrite app_nil_r. exact (C5 K). }
  intros o' x H K1 K2 K3 K4. apply Fz; [apply F2; [apply F1; [exact H|lia]|lia]|lia|lia|exact K4].
Qed.
Fixpoint libraries_written (d : list Z) (str dpos ip op : Z) (libs : list library) : Prop :=
  match libs with
  | [] => True
  | l :: t => library_written d str dpos ip op l /\ libraries_written d (str + library_text_size l) (dpos + 20) (ip + lstep l) (op + ostep l) t
  end.
Lemma lstep_le l : 0 <= lstep l <= library_table_size p l.
Proof.
  pose proof (istep_le (wo_of l) (l_funcs l)). pose proof (word_size_ok p) as W. rewrite thunk_word in W. unfold lstep, library_table_size. pose proof (zlen_nonneg (l_funcs l)).
  assert (0 <= sz * (zlen (l_funcs l) + 1)) by (apply Z.mul_nonneg_nonneg; lia). destruct (kept l); lia.
Qed.
Lemma table_size_nonneg l : 0 <= library_table_size p l.
Proof. pose proof (zlen_nonneg (l_funcs l)). apply Z.mul_nonneg_nonneg; lia. Qed.
Lemma ltext_nonneg l : 0 <= library_text_size l. Proof. rewrite <- library_blob_len. apply zlen_nonneg. Qed.
Definition two : bool := o_build o || o_fill o.
Lemma wo_two l : wo_of l = true -> two = true.
Proof. unfold wo_of, two. destruct (kept l), (o_build o), (o_fill o); cbn; congruence. Qed.
Lemma write_libraries_ok libs : forall d str a ip b op dpos,
  Forall (fun l => kept l && o_rewrite o = false) libs -> Forall valid_library libs ->
  0 <= str -> str + total library_text_size libs <= dpos -> dpos + 20 * zlen libs <= ip -> ip + total (library_table_size p) libs <= op ->
  op + (if two then total (library_table_size p) libs else 0) <= zlen d -> s_va s + zlen d < 2^32 ->
  exists d' a' b', mfold (write_library i o) libs ((Img d, str, (a, ip), (b, op)), dpos) =
      Ok ((Img d', str + total library_text_size libs, (a', ip + total lstep libs), (b', op + total ostep libs)), dpos + 20 * zlen libs) /\ zlen d' = zlen d /\
    (bytes d -> bytes d') /\ libraries_written d' str dpos ip op libs /\
    (forall o' x, holds d o' x -> o' + zlen x <= str \/ str + total library_text_size libs <= o' -> o' + zlen x <= dpos \/ dpos + 20 * zlen libs <= o' ->
       o' + zlen x <= ip \/ ip + total (library_table_size p) libs <= o' -> two = false \/ o' + zlen x <= op \/ op + total (library_table_size p) libs <= o' -> holds d' o' x).
Proof.
  induction libs as [|l libs IH]; intros d str a ip b op dpos Fr Fv H1 H2 H3 H4 H5 H6.
  - exists d, a, b. cbn [mfold libraries_written]. change (@zlen library []) with 0 in *. change (total library_text_size []) with 0 in *. change (total lstep []) with 0 in *. change (total ostep []) with 0 in *. rewrite Z.mul_0_r, !Z.add_0_r in *. tauto.
  - inversion Fr as [|? ? Fr1 Fr2]; subst. inversion Fv as [|? ? Fv1 Fv2]; subst. rewrite zlen_cons in *. rewrite !total_cons in *. pose proof (ltext_nonneg l) as T1. pose proof (table_size_nonneg l) as T2. pose proof (lstep_le l) as T3.
    pose proof (total_nonneg library_text_size libs ltext_nonneg) as T4. pose proof (total_nonneg (library_table_size p) libs table_size_nonneg) as T5. pose proof (zlen_nonneg libs) as Z0.
    assert (Ho : 0 <= ostep l <= if two then library_table_size p l else 0) by (unfold ostep; pose proof (wo_two l) as Tw; destruct (wo_of l); [rewrite (Tw eq_refl); lia|destruct two; lia]).
    destruct (write_library_ok l d str a ip b op dpos Fr1 Fv1) as (d1 & a1 & b1 & E1 & L1 & B1 & C1 & F1); [lia|lia|lia|lia|destruct two; lia|lia|].
    cbn [mfold]. rewrite E1. cbn [bind].
    destruct (IH d1 (str + library_text_size l) a1 (ip + lstep l) b1 (op + ostep l) (dpos + 20) Fr2 Fv2) as (d2 & a2 & b2 & E2 & L2 & B2 & C2 & F2); [lia|lia|lia|lia|destruct two; lia|lia|].
    exists d2, a2, b2. rewrite E2. split; [replace (dpos + 20 * (1 + zlen libs)) with (dpos + 20 + 20 * zlen libs) by lia; rewrite !Z.add_assoc; reflexivity|]. split; [lia|]. split; [auto|].
    split.
    { cbn [libraries_written]. split; [|exact C2]. destruct C1 as (D1 & D2 & D3 & D4). pose proof (library_blob_len l) as Lb.
      split; [apply F2; [exact D1|rewrite ?descriptor_len; lia..|right; rewrite descriptor_len; lia]|]. split; [apply F2; [exact D2|lia..|right; lia]|].
      split.
      - intros K1 K2. assert (Lw : zlen (wordl (iat_values (wo_of l) (str + (zlen (l_name l) + 1)) (l_funcs l) ++ [0])) = lstep l).
        { unfold lstep. rewrite K1, wordl_len, zlen_app, iat_len, istep_all by exact K2. change (zlen [0]) with 1. lia. }
        apply F2; [exact (D3 K1 K2)|lia..|right; lia].
      - intros K. assert (Lw : zlen (wordl (thunk_values (str + (zlen (l_name l) + 1)) (l_funcs l) ++ [0])) = ostep l).
        { unfold ostep. rewrite K, wordl_len, zlen_app, thunk_values_len. reflexivity. }
        apply F2; [exact (D4 K)|lia..|right; lia]. }
    intros o' x H K1 K2 K3 K4. apply F2; [apply F1; [exact H|lia|lia|lia|]|lia|lia|lia|].
    + destruct K4 as [K4|K4]; [left|right; lia]. destruct (wo_of l) eqn:Ew; [|reflexivity]. rewrite (wo_two l Ew) in K4. discriminate.
    + destruct K4 as [K4|K4]; [left; exact K4|right]. destruct two; lia.
Qed.
End Writer.

(** ** Reading back *)
(** What is at the addresses of the other sections is the same in both images. *)
Definition same_elsewhere (p p' : pe) (i : nat) : Prop := forall a, elsewhere p i a ->
  (forall n ty h, read_rva p' a n ty h = read_rva p a n ty h) /\ (forall b ty h, length_rva p' a b ty h = length_rva p a b ty h) /\
  (forall ty h, ptr_rva p' a ty h = ptr_rva p a ty h).
Lemma elsewhere_same p p' i start start' : image_ok p start -> image_ok p' start' -> (forall j, j <> i -> nth_error (p_sections p') j = nth_error (p_sections p) j) ->
  salign p' = salign p -> p_full p' = p_full p -> same_elsewhere p p' i.
Proof.
  intros (G & W & _ & _ & Ch & Ce) (G' & W' & _ & _ & Ch' & Ce') Hj Sa Fu a (j & s & Nj & Hs & Oc).
  assert (E1 : section_from_rva p a = Ok j) by (apply (section_from_rva_spec _ _ _ (chain_layout _ _ G W Ch Ce)); exists s; split; assumption).
  assert (Hs' : nth_error (p_sections p') j = Some s) by (rewrite Hj by exact Nj; exact Hs).
  assert (E2 : section_from_rva p' a = Ok j) by (apply (section_from_rva_spec _ _ _ (chain_layout _ _ G' W' Ch' Ce')); exists s; split; [exact Hs'|rewrite Sa; exact Oc]).
  assert (Vw : forall ty, view p' s ty = view p s ty) by (intros []; cbn [view]; rewrite ?Sa; reflexivity).
  assert (Dl : forall ty, data_length p' s ty = data_length p s ty) by (intros []; cbn [data_length]; rewrite ?Sa; reflexivity).
  split; [|split].
  - intros n ty h. unfold read_rva. rewrite Fu, E1, E2. cbn [bind]. rewrite (get_section_ok _ _ _ Hs), (get_section_ok _ _ _ Hs'). cbn [bind]. rewrite Vw. reflexivity.
  - intros b ty h. unfold length_rva. rewrite Fu, E1, E2. cbn [bind]. rewrite (get_section_ok _ _ _ Hs), (get_section_ok _ _ _ Hs'). cbn [bind]. rewrite Dl. reflexivity.
  - intros ty h. unfold ptr_rva. rewrite Fu, E1, E2. cbn [bind]. rewrite (get_section_ok _ _ _ Hs), (get_section_ok _ _ _ Hs'). cbn [bind]. rewrite Vw. reflexivity.
Qed.
Section Back.
Variables (p p' : pe) (i : nat).
Hypothesis Se : same_elsewhere p p' i.
Hypothesis Pl : p_plus p' = p_plus p.
Local Notation n := (word_size p).
Local Notation sz := (Z.of_nat (word_size p)).
Lemma word_size_same : word_size p' = n. Proof. unfold word_size. rewrite Pl. reflexivity. Qed.
Lemma word_same a w : old_word p i a w -> word_at p' a w.
Proof. intros [E [H S]]. unfold word_at, shows in *. rewrite word_size_same. split; [exact H|]. rewrite (proj1 (Se a E)). exact S. Qed.
Lemma old_text a s : elsewhere p i a -> text p a s -> text p' a s.
Proof. intros E (k & d & off & H1 & H2 & H3 & H4 & H5). destruct (Se a E) as (_ & S2 & S3). exists k, d, off. rewrite S2, S3. tauto. Qed.
Lemma old_import w f : import_of p w f -> (w < 256 ^ sz / 2 -> elsewhere p i w /\ elsewhere p i (w + 2)) -> import_of p' w f.
Proof.
  unfold import_of. rewrite word_size_same. destruct (Z.leb_spec (256 ^ sz / 2) w) as [C|C]; [tauto|]. intros (H1 & H2 & H3 & H4 & H5) E.
  destruct (E C) as [E1 E2]. split; [exact H1|]. split; [apply old_text; assumption|]. split; [exact H3|].
  split; [|exact H5]. unfold shows in *. rewrite (proj1 (Se w E1)). exact H4.
Qed.
Lemma old_table_same t o fs : old_table p i t o fs -> thunk_table p' t o fs.
Proof.
  induction 1 as [t o H|t o a N H1 H2|t o w f l N1 H1 N2 H2 H3 H4 T IH].
  - apply thunks_end, word_same, H.
  - apply (thunks_end2 p' t o a N); apply word_same; assumption.
  - apply (thunks_next p' t o w f l N1 (word_same _ _ H1) N2 (word_same _ _ H2) (old_import _ _ H3 H4)). rewrite word_size_same. exact IH.
Qed.
Lemma old_table_first t o fs : old_table p i t o fs -> Forall (fun f => 0 <= m_iat f < 256 ^ sz) fs.
Proof. induction 1 as [t o H|t o a N H1 H2|t o w f l N1 [_ [H1 _]] N2 H2 H3 H4 T IH]; constructor; assumption. Qed.
(** Tables in step. *)
Fixpoint words_at (t : Z) (l : list Z) : Prop := match l with [] => True | w :: r => word_at p' t w /\ words_at (t + sz) r end.
Definition back (w : Z) (f : imported) : imported := if by_name f then mk_imported (m_name f) (m_hint f) 0 w else mk_imported [] 0 (m_ordinal f) w.
Fixpoint backs (ws : list Z) (fs : list imported) : list imported :=
  match ws, fs with w :: ws, f :: fs => back w f :: backs ws fs | _, _ => [] end.
Lemma back_iat w f : m_iat (back w f) = w. Proof. unfold back. destruct (by_name f); reflexivity. Qed.
Lemma back_same w f : same_import f (back w f).
Proof. unfold same_import, back, by_name. destruct (m_name f) eqn:E; cbn [m_name m_hint m_ordinal]; rewrite ?E; split; reflexivity. Qed.
Lemma backs_same : forall ws fs, zlen ws = zlen fs -> Forall2 same_import fs (backs ws fs) /\ map m_iat (backs ws fs) = ws.
Proof.
  induction ws as [|w ws IH]; intros [|f fs] L; try (unfold zlen in L; cbn [length] in L; lia); [split; [constructor|reflexivity]|].
  rewrite !zlen_cons in L.
  destruct (IH fs ltac:(lia)) as [I1 I2]. split; [constructor; [apply back_same|exact I1]|]. cbn [backs map]. rewrite back_iat, I2. reflexivity.
Qed.
Lemma make_table fs : forall t o iv vals, words_at t iv -> words_at o (vals ++ [0]) -> zlen iv = zlen fs -> zlen vals = zlen fs -> (exists w, word_at p' (t + sz * zlen fs) w) ->
  Forall (fun w => w <> 0) iv -> Forall (fun w => w <> 0) vals -> (forall k w f a, nth_error vals k = Some w -> nth_error fs k = Some f -> import_of p' w (back a f)) ->
  thunk_table p' t o (backs iv fs).
Proof.
  induction fs as [|f fs IH]; intros t o [|a iv] [|w vals] Wt Wo L1 L2 (wt & Ww) N1 N2 Im; rewrite ?zlen_cons in *; change (@zlen Z []) with 0 in *; change (@zlen imported []) with 0 in *;
    try (pose proof (zlen_nonneg iv)); try (pose proof (zlen_nonneg vals)); try (pose proof (zlen_nonneg fs)); try lia.
  - cbn [backs]. cbn [app words_at] in Wo. rewrite Z.mul_0_r, Z.add_0_r in Ww. destruct (Z.eq_dec wt 0) as [->|N]; [apply thunks_end; exact Ww|]. apply (thunks_end2 p' t o wt N Ww). apply Wo.
  - cbn [words_at] in Wt. cbn [app words_at] in Wo. destruct Wt as [Wt1 Wt2]. destruct Wo as [Wo1 Wo2]. inversion N1 as [|? ? N3 N4]; subst. inversion N2 as [|? ? N5 N6]; subst. cbn [backs].
    apply (thunks_next p' t o w); [rewrite back_iat; exact N3|rewrite back_iat; exact Wt1|exact N5|exact Wo1|exact (Im 0%nat w f a eq_refl eq_refl)|]. rewrite word_size_same.
    apply (IH (t + sz) (o + sz) iv vals Wt2 Wo2); try assumption; try lia.
    + exists wt. replace (t + sz + sz * zlen fs) with (t + sz * (1 + zlen fs)) by lia. exact Ww.
    + intros k w' f' a' K1 K2. exact (Im (S k) w' f' a' K1 K2).
Qed.
Lemma old_addresses_words t fs : old_addresses p i t fs -> words_at t (map m_iat fs) /\ (exists w, word_at p' (t + sz * zlen fs) w) /\ Forall (fun w => w <> 0) (map m_iat fs) /\ Forall (fun f => 0 <= m_iat f < 256 ^ sz) fs.
Proof.
  induction 1 as [t w H|t f l N H T (I1 & (w & I2) & I3 & I4)]; cbn [map words_at].
  - split; [exact I|]. split; [exists w; change (@zlen imported []) with 0; rewrite Z.mul_0_r, Z.add_0_r; apply word_same, H|]. split; constructor.
  - split; [split; [apply word_same, H|exact I1]|]. split; [exists w; rewrite zlen_cons; replace (t + sz * (1 + zlen l)) with (t + sz + sz * zlen l) by lia; exact I2|].
    split; [constructor; [exact N|exact I3]|]. constructor; [|exact I4]. destruct H as [_ [H _]]. exact H.
Qed.
Variables (s : section) (v : list Z).
Hypothesis Bk : block p' (s_va s) v.
Hypothesis Va : 0 < s_va s.
Lemma block_shows off bs : holds v off bs -> 0 < zlen bs -> shows p' (s_va s + off) bs.
Proof. intros H Hn. unfold shows. apply (block_holds _ _ _ _ _ _ Bk H); [reflexivity|exact Hn]. Qed.
Lemma block_words off l : holds v off (wordl p l) -> Forall (fun w => 0 <= w < 256 ^ sz) l -> words_at (s_va s + off) l.
Proof.
  pose proof (word_size_ok p) as W. rewrite thunk_word in W.
  revert off; induction l as [|w l IH]; intros off H F; cbn [words_at]; [exact I|]. inversion F as [|? ? F1 F2]; subst. rewrite wordl_cons in H. apply holds_app in H as [H1 H2]. rewrite zlen_le in H2.
  split; [unfold word_at; rewrite word_size_same; split; [exact F1|apply block_shows; [exact H1|rewrite zlen_le; lia]]|]. rewrite <- Z.add_assoc. apply IH; assumption.
Qed.
Lemma block_text off name : holds v off (name ++ [0]) -> ~ In 0 name -> off + zlen name + 1 < zlen v -> text p' (s_va s + off) name.
Proof.
  intros H N L. pose proof (zlen_nonneg name) as Z0. pose proof (holds_range _ _ _ H) as [R1 R2]. exists (zlen v - off), v, off.
  split; [rewrite (block_length _ _ _ _ _ Bk) by lia; reflexivity|]. split; [lia|]. split; [lia|]. split; [apply (block_ptr _ _ _ _ Bk); lia|].
  split; [|exact N]. destruct H as (_ & _ & H). rewrite zlen_app in H. exact H.
Qed.
Lemma flag_value : snap_flag p = 2^31 \/ snap_flag p = 2^63.
Proof. unfold snap_flag, base_mod. destruct (p_plus p); [right|left]; reflexivity. Qed.
Lemma half_flag : 256 ^ sz / 2 = snap_flag p.
Proof. unfold snap_flag. rewrite base_mod_word. reflexivity. Qed.
Lemma flag_ordinal x : is_u16 x -> Z.lor x (snap_flag p) = x + snap_flag p.
Proof.
  unfold is_u16. intros H. assert (K : forall k, 16 <= k -> Z.land x (2^k) = 0); [|destruct flag_value as [-> | ->]; rewrite Z.add_nocarry_lxor, Z.lxor_lor; try reflexivity; apply K; lia].
  intros k Hk. apply Z.bits_inj'. intros m Hm. rewrite Z.land_spec, Z.bits_0. destruct (Z.eqb_spec m k) as [->|N]; [|rewrite (Z.pow2_bits_false k m) by lia; apply andb_false_r].
  assert (Z.testbit x k = false) as ->; [|reflexivity]. apply Z.testbit_false; [lia|]. rewrite Z.div_small; [reflexivity|]. split; [lia|]. apply Z.lt_le_trans with (2^16); [lia|]. apply Z.pow_le_mono_r; lia.
Qed.
Lemma thunk_value_range str f : valid_import f -> 0 <= str -> s_va s + str < 2^31 -> 0 < thunk_value p s str f < 256 ^ sz.
Proof.
  intros (_ & _ & Ho & _) H1 H2. rewrite <- base_mod_word. assert (base_mod p = 2 * snap_flag p) as -> by (unfold snap_flag, base_mod; destruct (p_plus p); reflexivity).
  unfold thunk_value. destruct (by_name f); [destruct flag_value as [-> | ->]; lia|]. rewrite flag_ordinal by exact Ho. unfold is_u16 in Ho. destruct flag_value as [-> | ->]; lia.
Qed.
Lemma thunk_values_range fs : forall str, Forall valid_import fs -> 0 <= str -> s_va s + (str + total import_text_size fs) < 2^31 ->
  Forall (fun w => 0 < w < 256 ^ sz) (thunk_values p s str fs).
Proof.
  induction fs as [|f fs IH]; intros str Fv H1 H2; [constructor|]. inversion Fv as [|? ? V1 V2]; subst. rewrite total_cons in H2. pose proof (text_size_nonneg f). pose proof (total_nonneg import_text_size fs text_size_nonneg).
  cbn [thunk_values]. constructor; [apply thunk_value_range; [exact V1|lia|lia]|]. apply IH; [exact V2|lia|lia].
Qed.
Lemma thunk_import fs : forall str k w f a, holds v str (import_blob fs) -> Forall valid_import fs -> Forall (fun f => ~ In 0 (m_name f)) fs -> 0 <= str ->
  str + total import_text_size fs < zlen v -> s_va s + (str + total import_text_size fs) < 2^31 ->
  nth_error (thunk_values p s str fs) k = Some w -> nth_error fs k = Some f -> import_of p' w (back a f).
Proof.
  induction fs as [|g fs IH]; intros str [|k] w f a Hb Fv Fn H1 H2 H3 Ew Ef; try discriminate; inversion Fv as [|? ? V1 V2]; subst; inversion Fn as [|? ? N1 N2]; subst;
    rewrite total_cons in *; pose proof (text_size_nonneg g) as T1; pose proof (total_nonneg import_text_size fs text_size_nonneg) as T2; rewrite blob_cons in Hb; apply holds_app in Hb as [B1 B2]; rewrite import_bytes_len in B2.
  - cbn [thunk_values nth_error] in Ew, Ef. injection Ew as <-. injection Ef as <-. unfold import_of. rewrite word_size_same, half_flag. unfold thunk_value, back. destruct (by_name g) eqn:Eg.
    + replace (snap_flag p <=? s_va s + str) with false by (destruct flag_value as [-> | ->]; lia). cbn [m_name m_hint m_ordinal]. unfold import_bytes in B1. rewrite Eg in B1. apply holds_app in B1 as [B3 B4]. rewrite zlen_le in B4. change (Z.of_nat 2) with 2 in B4.
      rewrite named_size, Eg in *. split; [lia|]. split; [rewrite <- Z.add_assoc; apply block_text; [exact B4|exact N1|lia]|]. split; [apply V1|]. split; [|reflexivity]. apply block_shows; [exact B3|rewrite zlen_le; lia].
    + destruct V1 as (_ & _ & V1 & _). rewrite flag_ordinal by exact V1. unfold is_u16 in V1. replace (snap_flag p <=? m_ordinal g + snap_flag p) with true by lia. cbn [m_name m_hint m_ordinal]. split; [reflexivity|]. split; [reflexivity|].
      destruct flag_value as [-> | ->]; lia.
  - cbn [thunk_values nth_error] in Ew, Ef. apply (IH (str + import_text_size g) k w f a B2 V2 N2); try assumption; lia.
Qed.
Lemma Forall_nth_error {A} (P : A -> Prop) l : (forall k x, nth_error l k = Some x -> P x) -> Forall P l.
Proof. intros H. apply Forall_forall. intros x Hx. apply In_nth_error in Hx as [k Hk]. exact (H k x Hk). Qed.
Lemma words_last t l w : words_at t (l ++ [w]) -> words_at t l /\ word_at p' (t + sz * zlen l) w.
Proof.
  revert t; induction l as [|x l IH]; intros t H; cbn [app words_at] in *.
  - change (@zlen Z []) with 0. rewrite Z.mul_0_r, Z.add_0_r. tauto.
  - destruct H as [H1 H2]. destruct (IH _ H2) as [H3 H4]. split; [tauto|]. rewrite zlen_cons. replace (t + sz * (1 + zlen l)) with (t + sz + sz * zlen l) by lia. exact H4.
Qed.
Lemma library_back o str dpos ip op l :
  library_written p s o v str dpos ip op l -> valid_library l -> recoverable p i o l -> 0 <= str -> 0 <= ip -> 0 <= op -> is_u32 (s_va s + ip) -> (wo_of o l = true -> is_u32 (s_va s + op)) ->
  str + library_text_size l < zlen v -> s_va s + (str + library_text_size l) < 2^31 ->
  exists m, same_library p o l m /\ forall ls, library_table p' (s_va s + dpos + 20) ls -> library_table p' (s_va s + dpos) (m :: ls).
Proof.
  intros (Wd & Wb & Wi & Wt) (V1 & V2 & V3 & V4 & V5) (Nn & Rc) Hstr Hip Hop Uip Uop Hl Hs. pose proof (word_size_ok p) as W. rewrite thunk_word in W.
  pose proof (zlen_nonneg (l_name l)) as Z1. pose proof (total_nonneg import_text_size (l_funcs l) text_size_nonneg) as T2.
  assert (Es : str + library_text_size l = str + (zlen (l_name l) + 1) + total import_text_size (l_funcs l)) by (unfold library_text_size; lia).
  unfold library_blob in Wb. apply holds_app in Wb as [Wn Wb]. assert (Ln : zlen (l_name l ++ [0]) = zlen (l_name l) + 1) by (rewrite zlen_app; reflexivity). rewrite Ln in Wb.
  assert (Tx : text p' (s_va s + str) (l_name l)) by (apply block_text; [exact Wn|exact Nn|lia]).
  set (str1 := str + (zlen (l_name l) + 1)) in *. assert (E1 : str1 = str + (zlen (l_name l) + 1)) by reflexivity. clearbody str1. rewrite Es in Hl, Hs.
  pose proof (thunk_values_range (l_funcs l) str1 V5 ltac:(lia) Hs) as Tr.
  assert (Tz : 0 < 256 ^ sz) by (apply Z.pow_pos_nonneg; lia).
  assert (Tr' : Forall (fun w => 0 <= w < 256 ^ sz) (thunk_values p s str1 (l_funcs l) ++ [0])).
  { apply Forall_app. split; [apply (Forall_impl _ (P := fun w => 0 < w < 256 ^ sz)); [intros; lia|exact Tr]|]. constructor; [lia|constructor]. }
  assert (Tn : Forall (fun w => w <> 0) (thunk_values p s str1 (l_funcs l))) by (apply (Forall_impl _ (P := fun w => 0 < w < 256 ^ sz)); [intros; lia|exact Tr]).
  assert (Im : Forall (fun f => ~ In 0 (m_name f)) (l_funcs l) -> forall k w f a, nth_error (thunk_values p s str1 (l_funcs l)) k = Some w -> nth_error (l_funcs l) k = Some f -> import_of p' w (back a f)).
  { intros Fn k w f a K1 K2. apply (thunk_import (l_funcs l) str1 k w f a Wb V5 Fn); try assumption; lia. }
  assert (Sh : forall oft ft, descriptor (oft_of s o op l) (l_time l) 0 (s_va s + str) (ft_of s o ip l) = descriptor oft (l_time l) 0 (s_va s + str) ft -> shows p' (s_va s + dpos) (descriptor oft (l_time l) 0 (s_va s + str) ft)).
  { intros oft ft <-. apply block_shows; [exact Wd|rewrite descriptor_len; lia]. }
  assert (U0 : is_u32 (s_va s + str)) by (unfold is_u32; lia). assert (U00 : is_u32 0) by (unfold is_u32; lia).
  change (stays o l) with (kept o l) in *. unfold oft_of, ft_of in Sh. unfold same_library. change (stays o l) with (kept o l).
  destruct (kept o l) eqn:Ek.
  - destruct Rc as [Rw Rc]. destruct (o_build o && (l_oiat l =? 0) && o_fill o) eqn:Ec.
    + apply andb_true_iff in Ec as [Ec Ec3]. apply andb_true_iff in Ec as [Ec1 Ec2]. rewrite Ec1, Ec2, Ec3 in Sh. cbn [andb] in Sh. destruct Rc as [Ra Rn].
      assert (Ewo : wo_of o l = true) by (unfold wo_of; rewrite Ec3; apply orb_true_r). specialize (Uop Ewo). specialize (Wt Ewo). specialize (Im Rn).
      destruct (old_addresses_words _ _ Ra) as (A1 & (wl & A2) & A3 & A4).
      pose proof (block_words _ _ Wt Tr') as Bw.
      destruct (backs_same (map m_iat (l_funcs l)) (l_funcs l) (zlen_map _ _)) as [S1 S2].
      exists (mk_library (l_name l) (l_time l) (l_iat l) (s_va s + op) (backs (map m_iat (l_funcs l)) (l_funcs l))). cbn [l_name l_time l_iat l_oiat l_funcs].
      split. { split; [reflexivity|]. split; [reflexivity|]. split; [exact S1|]. split; [reflexivity|]. intros _. rewrite S2. apply map_ext_in. intros f Hf. rewrite Forall_forall in A4. rewrite Z.mod_small; [reflexivity|exact (A4 f Hf)]. }
      intros ls T. assert (Wf : exists w, word_at p' (l_iat l) w).
      { inversion Ra as [t w K|t f fs K1 K2 K3]; subst; [exists w; apply word_same, K|exists (m_iat f); apply word_same, K2]. }
      destruct Wf as (w1 & Wf). assert (Wg : exists w, word_at p' (s_va s + op) w).
      { destruct (thunk_values p s str1 (l_funcs l) ++ [0]) as [|w r] eqn:Ew; [apply app_eq_nil in Ew as [_ Ew]; discriminate|]. exists w. cbn [words_at] in Bw. apply Bw. }
      destruct Wg as (w2 & Wg).
      apply (libraries_next p' _ 0 (s_va s + str) w1 w2); cbn [l_name l_time l_iat l_oiat l_funcs]; try assumption; [lia|apply Sh; reflexivity|right; exact Wg|].
      replace (s_va s + op =? 0) with false by lia. apply (make_table (l_funcs l) (l_iat l) (s_va s + op) (map m_iat (l_funcs l)) (thunk_values p s str1 (l_funcs l))); try assumption; [apply zlen_map|apply thunk_values_len|exists wl; exact A2].
    + destruct Rc as (Rt & (w1 & R1) & R2).
      set (oft := if o_build o then l_oiat l else 0) in *.
      assert (Eo : (if o_build o then if (l_oiat l =? 0) && o_fill o then s_va s + op else l_oiat l else 0) = oft).
      { unfold oft. destruct (o_build o); [|reflexivity]. cbn [andb] in Ec. rewrite Ec. reflexivity. }
      rewrite Eo in Sh. exists (mk_library (l_name l) (l_time l) (l_iat l) oft (l_funcs l)). cbn [l_name l_time l_iat l_oiat l_funcs].
      split. { split; [reflexivity|]. split; [reflexivity|]. split; [clear; induction (l_funcs l); constructor; [|assumption]; unfold same_import; destruct (m_name a); split; reflexivity|]. split; [reflexivity|]. intros _. apply map_ext_in. intros f Hf.
        pose proof (old_table_first _ _ _ Rt) as Ft. rewrite Forall_forall in Ft. rewrite Z.mod_small; [reflexivity|exact (Ft f Hf)]. }
      intros ls T. assert (Uo : is_u32 oft) by (unfold oft; destruct (o_build o); assumption).
      assert (W2 : exists w2, oft = 0 \/ word_at p' oft w2).
      { destruct (Z.eq_dec oft 0) as [K|K]; [exists 0; left; exact K|]. unfold oft in *. destruct (o_build o); [|congruence]. destruct (R2 eq_refl K) as (w2 & R3). exists w2. right. apply word_same, R3. }
      destruct W2 as (w2 & W2).
      apply (libraries_next p' _ 0 (s_va s + str) w1 w2); cbn [l_name l_time l_iat l_oiat l_funcs]; try assumption; [lia|apply Sh; reflexivity|apply word_same, R1|].
      replace (if oft =? 0 then l_iat l else oft) with (if o_build o && negb (l_oiat l =? 0) then l_oiat l else l_iat l).
      2:{ unfold oft. destruct (o_build o); cbn [andb]; [|reflexivity]. destruct (l_oiat l =? 0); reflexivity. }
      apply old_table_same, Rt.
  - destruct Rc as [Rn Rc]. specialize (Im Rn). destruct (o_build o) eqn:Eb.
    + assert (Ewo : wo_of o l = true) by (unfold wo_of; rewrite Ek, Eb; reflexivity). specialize (Uop Ewo). specialize (Wt Ewo). specialize (Wi eq_refl (or_introl Ewo)). rewrite Ewo in Wi. unfold iat_values in Wi.
      pose proof (block_words _ _ Wt Tr') as Bw. rewrite base_mod_word in Wi.
      assert (Mr : Forall (fun w => 0 <= w < 256 ^ sz) (map (fun f => m_iat f mod 256 ^ sz) (l_funcs l) ++ [0])).
      { apply Forall_app. split; [|constructor; [lia|constructor]]. apply Forall_map, Forall_forall. intros f _. apply Z.mod_pos_bound. exact Tz. }
      pose proof (block_words _ _ Wi Mr) as Bi. apply words_last in Bi as [Bi Bl]. rewrite zlen_map in Bl.
      destruct (backs_same (map (fun f => m_iat f mod 256 ^ sz) (l_funcs l)) (l_funcs l) (zlen_map _ _)) as [S1 S2].
      exists (mk_library (l_name l) (l_time l) (s_va s + ip) (s_va s + op) (backs (map (fun f => m_iat f mod 256 ^ sz) (l_funcs l)) (l_funcs l))). cbn [l_name l_time l_iat l_oiat l_funcs].
      split. { split; [reflexivity|]. split; [reflexivity|]. split; [exact S1|]. split; [discriminate|]. intros _. exact S2. }
      intros ls T. assert (Wf : exists w, word_at p' (s_va s + ip) w).
      { destruct (l_funcs l) as [|f fs]; [exists 0; change (@zlen imported []) with 0 in Bl; rewrite Z.mul_0_r, Z.add_0_r in Bl; exact Bl|]. eexists. apply Bi. }
      destruct Wf as (w1 & Wf). assert (Wg : exists w, word_at p' (s_va s + op) w).
      { destruct (thunk_values p s str1 (l_funcs l) ++ [0]) as [|w r] eqn:Ew; [apply app_eq_nil in Ew as [_ Ew]; discriminate|]. exists w. cbn [words_at] in Bw. apply Bw. }
      destruct Wg as (w2 & Wg).
      apply (libraries_next p' _ 0 (s_va s + str) w1 w2); cbn [l_name l_time l_iat l_oiat l_funcs]; try assumption; [lia|apply Sh; reflexivity|right; exact Wg|].
      replace (s_va s + op =? 0) with false by lia.
      apply (make_table (l_funcs l) (s_va s + ip) (s_va s + op) (map (fun f => m_iat f mod 256 ^ sz) (l_funcs l)) (thunk_values p s str1 (l_funcs l))); try assumption; [apply zlen_map|apply thunk_values_len|exists 0; exact Bl|].
      apply Forall_map. exact Rc.
    + destruct Rc as [Rf Rc]. assert (Ewo : wo_of o l = false) by (unfold wo_of; rewrite Eb, Rf, andb_false_r; reflexivity).
      assert (Fb : Forall (fun f => by_name f = true) (l_funcs l)) by (apply (Forall_impl _ (P := fun f => m_name f <> [])); [|exact Rc]; intros f K; unfold by_name; destruct (m_name f); [congruence|reflexivity]).
      specialize (Wi eq_refl (or_intror Fb)). rewrite Ewo in Wi. unfold iat_values in Wi. pose proof (block_words _ _ Wi Tr') as Bw. pose proof (words_last _ _ _ Bw) as [Bi Bl]. rewrite thunk_values_len in Bl.
      destruct (backs_same (thunk_values p s str1 (l_funcs l)) (l_funcs l) (thunk_values_len _ _ _ _)) as [S1 S2].
      exists (mk_library (l_name l) (l_time l) (s_va s + ip) 0 (backs (thunk_values p s str1 (l_funcs l)) (l_funcs l))). cbn [l_name l_time l_iat l_oiat l_funcs].
      split. { split; [reflexivity|]. split; [reflexivity|]. split; [exact S1|]. split; [discriminate|]. intros [K|K]; discriminate. }
      intros ls T. assert (Wf : exists w, word_at p' (s_va s + ip) w).
      { destruct (thunk_values p s str1 (l_funcs l) ++ [0]) as [|w r] eqn:Ew; [apply app_eq_nil in Ew as [_ Ew]; discriminate|]. exists w. cbn [words_at] in Bw. apply Bw. }
      destruct Wf as (w1 & Wf).
      apply (libraries_next p' _ 0 (s_va s + str) w1 0); cbn [l_name l_time l_iat l_oiat l_funcs]; try assumption; [lia|apply Sh; reflexivity|left; reflexivity|].
      cbn [Z.eqb].
      apply (make_table (l_funcs l) (s_va s + ip) (s_va s + ip) (thunk_values p s str1 (l_funcs l)) (thunk_values p s str1 (l_funcs l))); try assumption; [apply thunk_values_len|apply thunk_values_len|exists 0; exact Bl].
Qed.
Lemma libraries_back o E libs : forall str dpos ip op, libraries_written p s o v str dpos ip op libs -> Forall valid_library libs -> Forall (recoverable p i o) libs ->
  0 <= str -> 0 <= ip -> 0 <= op -> ip + total (lstep p o) libs <= E -> op + total (ostep p o) libs <= E -> s_va s + E < 2^32 ->
  str + total library_text_size libs < zlen v -> s_va s + (str + total library_text_size libs) < 2^31 ->
  holds v (dpos + 20 * zlen libs) (zeros 20) ->
  exists ms, Forall2 (same_library p o) libs ms /\ library_table p' (s_va s + dpos) ms.
Proof.
  induction libs as [|l libs IH]; intros str dpos ip op Wl Fv Fr H1 H2 H3 H4 H5 H6 H7 H8 Hz.
  - exists []. split; [constructor|]. change (@zlen library []) with 0 in Hz. rewrite Z.mul_0_r, Z.add_0_r in Hz. apply (libraries_end p' _ 0 0 0 0); try (unfold is_u32; lia). apply block_shows; [exact Hz|]. rewrite descriptor_len; lia.
  - inversion Fv as [|? ? V1 V2]; subst. inversion Fr as [|? ? R1 R2]; subst. rewrite !total_cons in *. rewrite zlen_cons in Hz. destruct Wl as [W1 W2]. pose proof (ltext_nonneg l) as T1. pose proof (lstep_le p o l) as T3.
    pose proof (total_nonneg library_text_size libs ltext_nonneg) as T4. pose proof (total_nonneg (lstep p o) libs (fun x => proj1 (lstep_le p o x))) as T5.
    assert (On : forall x, 0 <= ostep p o x) by (intros x; unfold ostep; pose proof (table_size_nonneg p x); destruct (wo_of o x); lia).
    pose proof (On l) as T6. pose proof (total_nonneg (ostep p o) libs On) as T7.
    destruct (library_back o str dpos ip op l W1 V1 R1) as (m & S1 & S2); try lia; [unfold is_u32; lia|intros _; unfold is_u32; lia|].
    destruct (IH (str + library_text_size l) (dpos + 20) (ip + lstep p o l) (op + ostep p o l) W2 V2 R2) as (ms & S3 & S4); try lia.
    { replace (dpos + 20 + 20 * zlen libs) with (dpos + 20 * (1 + zlen libs)) by lia. exact Hz. }
    exists (m :: ms). split; [constructor; assumption|]. apply S2. rewrite <- Z.add_assoc. exact S4.
Qed.
Lemma libraries_written_more o d L A B E libs : (forall o' x, holds d o' x -> L <= o' -> o' + zlen x <= A \/ B <= o' -> o' + zlen x <= E -> holds v o' x) -> A <= E -> forall str dpos ip op, libraries_written p s o d str dpos ip op libs ->
  L <= str -> L <= dpos -> L <= ip -> L <= op ->
  str + total library_text_size libs <= A -> dpos + 20 * zlen libs <= A -> B <= ip -> ip + total (lstep p o) libs <= E -> B <= op -> op + total (ostep p o) libs <= E ->
  libraries_written p s o v str dpos ip op libs.
Proof.
  intros Hm HA. induction libs as [|l libs IH]; intros str dpos ip op Wl L1 L2 L3 L4 H1 H2 H5 H3 H6 H4; [exact I|]. pose proof (lstep_le p o l) as T3. pose proof (ltext_nonneg l) as T9. destruct Wl as [(D1 & D2 & D3 & D4) Wl]. rewrite !total_cons in *. rewrite zlen_cons in *.
  pose proof (total_nonneg library_text_size libs ltext_nonneg) as T4. pose proof (total_nonneg (lstep p o) libs (fun x => proj1 (lstep_le p o x))) as T5.
  assert (On : forall x, 0 <= ostep p o x) by (intros x; unfold ostep; pose proof (table_size_nonneg p x); destruct (wo_of o x); lia).
  pose proof (total_nonneg (ostep p o) libs On) as T7. pose proof (zlen_nonneg libs) as Z0. pose proof (library_blob_len l) as Lb.
  pose proof (On l) as T8.
  cbn [libraries_written]. split; [|apply IH; [exact Wl|lia..]]. split; [apply Hm; [exact D1|rewrite ?descriptor_len; lia..]|]. split; [apply Hm; [exact D2|lia..]|].
  split.
  - intros K1 K2. assert (Lw : zlen (wordl p (iat_values p s (wo_of o l) (str + (zlen (l_name l) + 1)) (l_funcs l) ++ [0])) = lstep p o l).
    { unfold lstep. rewrite K1, wordl_len, zlen_app, iat_len, istep_all by exact K2. change (zlen [0]) with 1. lia. }
    apply Hm; [exact (D3 K1 K2)|lia..].
  - intros K. assert (Lw : zlen (wordl p (thunk_values p s (str + (zlen (l_name l) + 1)) (l_funcs l) ++ [0])) = ostep p o l).
    { unfold ostep. rewrite K, wordl_len, zlen_app, thunk_values_len. reflexivity. }
    apply Hm; [exact (D4 K)|lia..].
Qed.
End Back.

(** ** The whole rebuilder *)
Lemma total_same {A} (f g : A -> Z) l : (forall x, f x = g x) -> total f l = total g l.
Proof. intros H. induction l as [|x l IH]; [reflexivity|]. rewrite !total_cons, IH, H. reflexivity. Qed.
Lemma string_size_ok libs : total library_text_size libs < 2^32 -> import_string_size libs = total library_text_size libs.
Proof.
  unfold import_string_size. assert (F : forall fs a, 0 <= a -> a + total import_text_size fs < 2^32 -> fold_left (fun n f => if by_name f then u32 (n + u32 (zlen (m_name f) + 1 + 2)) else n) fs a = a + total import_text_size fs).
  { induction fs as [|f fs IH]; intros a Ha H; [cbn; lia|]. rewrite total_cons in *. pose proof (text_size_nonneg f) as T1. pose proof (total_nonneg import_text_size fs text_size_nonneg) as T2. cbn [fold_left].
    rewrite named_size in *. pose proof (zlen_nonneg (m_name f)). destruct (by_name f).
    - rewrite (u32_small (zlen (m_name f) + 1 + 2)) by lia. rewrite u32_small by lia. rewrite IH by lia. lia.
    - rewrite IH by lia. lia. }
  assert (K : forall libs a, 0 <= a -> a + total library_text_size libs < 2^32 -> fold_left (fun n l => fold_left (fun n f => if by_name f then u32 (n + u32 (zlen (m_name f) + 1 + 2)) else n) (l_funcs l) (u32 (n + u32 (zlen (l_name l) + 1)))) libs a = a + total library_text_size libs).
  { clear libs. induction libs as [|l libs IH]; intros a Ha H; [cbn; lia|]. rewrite total_cons in *. pose proof (total_nonneg library_text_size libs ltext_nonneg) as T2. pose proof (zlen_nonneg (l_name l)).
    pose proof (total_nonneg import_text_size (l_funcs l) text_size_nonneg). unfold library_text_size in *. cbn [fold_left]. rewrite (u32_small (zlen (l_name l) + 1)) by lia. rewrite u32_small by lia.
    rewrite F by lia. rewrite IH by lia. lia. }
  intros H. apply (K libs 0); lia.
Qed.
Lemma iat_size_ok p libs : total (library_table_size p) libs < 2^32 -> import_iat_size (Z.of_nat (word_size p)) libs = total (library_table_size p) libs.
Proof.
  unfold import_iat_size. assert (K : forall libs a, 0 <= a -> a + total (library_table_size p) libs < 2^32 -> fold_left (fun n l => u32 (n + u32 (Z.of_nat (word_size p) * (1 + zlen (l_funcs l))))) libs a = a + total (library_table_size p) libs).
  { clear libs. induction libs as [|l libs IH]; intros a Ha H; [cbn; lia|]. rewrite total_cons in *. pose proof (total_nonneg (library_table_size p) libs (table_size_nonneg p)) as T2. pose proof (table_size_nonneg p l) as T1. cbn [fold_left].
    replace (Z.of_nat (word_size p) * (1 + zlen (l_funcs l))) with (library_table_size p l) by (unfold library_table_size; lia). rewrite (u32_small (library_table_size p l)) by lia. rewrite u32_small by lia. rewrite IH by lia. lia. }
  intros H. apply (K libs 0); lia.
Qed.
Lemma ostep_total p o libs : 0 <= total (ostep p o) libs <= (if two o then total (library_table_size p) libs else 0).
Proof.
  induction libs as [|l libs IH]; [cbn; destruct (two o); lia|]. rewrite !total_cons. pose proof (table_size_nonneg p l). unfold ostep at 1 3. pose proof (wo_two o l) as W. destruct (wo_of o l); [rewrite (W eq_refl) in *; lia|destruct (two o); lia].
Qed.
Lemma lstep_total p o libs : 0 <= total (lstep p o) libs <= total (library_table_size p) libs.
Proof. induction libs as [|l libs IH]; [cbn; lia|]. rewrite !total_cons. pose proof (lstep_le p o l). lia. Qed.
Lemma holds_ztake d E o x : holds d o x -> o + zlen x <= E -> E <= zlen d -> holds (ztake E d) o x.
Proof.
  intros (H1 & H2 & H3) H4 H5. pose proof (zlen_nonneg x). unfold holds. rewrite zlen_ztake by lia. split; [exact H1|]. split; [lia|]. rewrite <- H3 at 2.
  change (ztake (zlen x) (zdrop o (ztake E d)) = ztake (zlen x) (zdrop o d)). rewrite <- (ztake_zdrop E d) at 2. 
  rewrite zdrop_app_l by (rewrite zlen_ztake; lia). rewrite ztake_app_l; [reflexivity|]. rewrite zlen_zdrop; rewrite zlen_ztake; lia.
Qed.
(** An image that can be read can be read after a section has been rebuilt. *)
Lemma ready_after p p' start i t : readable p -> addressable p -> viewable p -> image_ok p' start -> p_sections p' = upd (p_sections p) i t ->
  p_full p' = p_full p -> salign p' = salign p -> nrva p' = nrva p -> dirs_ok p' -> (i < length (p_sections p))%nat -> s_old t = None ->
  zlen (raw_view t) <= span (salign p) t -> readable p' /\ addressable p' /\ viewable p'.
Proof.
  intros (_ & R2 & _ & R4 & R5) A V IO Es Ef Ea En D Hi Ho Hl. pose proof IO as ((P & _ & Lg) & W & _ & _ & Ch & Ce).
  assert (Ht : nth_error (p_sections p') i = Some t) by (rewrite Es; apply nth_error_upd_same; exact Hi).
  pose proof (nth_Forall _ _ _ _ W Ht) as Wt. pose proof (chain_upper _ _ _ (pow2_pos _ P) W Ch) as Up. pose proof (nth_Forall _ _ _ _ Up Ht) as Ut. cbn beta in Ut. unfold send in Ut. rewrite Ea in *.
  destruct (wf_ranges _ Wt) as (W1 & W2 & W3 & _). unfold is_u32 in *.
  assert (Av : aligned_vsize (salign p) t = span (salign p) t) by (apply aligned_vsize_span; try assumption; unfold is_u32; lia).
  assert (Lv : zlen (virt_view (salign p) t) = span (salign p) t).
  { rewrite (raw_view_unmapped _ Ho) in Hl. rewrite virt_view_unmapped by exact Ho. rewrite Av, zlen_app, zlen_zeros by lia. lia. }
  split; [split; [exact D|]; rewrite En, Ef; tauto|]. unfold addressable, viewable. rewrite Ea, Es. split; apply Forall_upd; try assumption; lia.
Qed.
Lemma rebuild_imports_full p libs i o start : let size := import_size p libs o in let T := total library_text_size libs in let off := o_offset o in
  0 <= off -> Forall (fun l => stays o l && o_rewrite o = false) libs -> Forall valid_library libs -> room p start i (off + size) -> dirs_ok p ->
  dir_import < nrva p <= 16 -> (o_zero_iat o = true -> dir_iat < nrva p) ->
  exists p' s, nth_error (p_sections p) i = Some s /\ rebuild_imports p libs i o = Ok (p', (s_va s + (off + T), size - T)) /\
    only_behind p p' i off /\ same_headers p p' /\ image_ok p' start /\ import_directories p p' o (s_va s + (off + T), size - T) /\
    (Forall (recoverable p i o) libs -> s_va s + (off + T) < 2^31 ->
     exists ms, library_table p' (s_va s + (off + T)) ms /\ Forall2 (same_library p o) libs ms) /\
    (readable p -> addressable p -> viewable p -> readable p' /\ addressable p' /\ viewable p') /\
    (exists v ip E, block p' (s_va s) v /\ libraries_written p s o v off (T + off) ip (ip + total (library_table_size p) libs) libs /\ holds v (T + off + 20 * zlen libs) (zeros 20) /\ off + T < zlen v /\
       0 <= ip /\ ip + total (lstep p o) libs <= E /\ ip + total (library_table_size p) libs + total (ostep p o) libs <= E /\ s_va s + E < 2^32) /\
    exists out t, zlen out <= size /\ nth_error (p_sections p') i = Some t /\ off + zlen out <= span (salign p) t /\ (forall k, 0 <= k < zlen out -> byte_of t (off + k) = nth (Z.to_nat k) out 0) /\
      forall r v, block r (s_va s) v -> holds v off out -> p_plus r = p_plus p -> Forall (fun l => stays o l = false) libs -> Forall (recoverable p i o) libs -> s_va s + (off + T) < 2^31 ->
        exists ms, library_table r (s_va s + (off + T)) ms /\ Forall2 (same_library p o) libs ms.
Proof.
  intros size T off Ho Nr V R D N N2. pose proof (word_size_ok p) as W4. rewrite thunk_word in W4.
  pose proof R as (IO & Tt & s & Hs & Hz0 & Hf & Hv & Hr & Hroom).
  pose proof IO as ((Ps & Pf & L) & W & _). pose proof (nth_Forall _ _ _ _ W Hs) as Ws.
  set (TS := total (library_table_size p) libs) in *. pose proof (total_nonneg library_text_size libs ltext_nonneg) as T0. fold T in T0.
  pose proof (total_nonneg (library_table_size p) libs (table_size_nonneg p)) as TS0. fold TS in TS0. pose proof (zlen_nonneg libs) as Z0.
  set (sz := Z.of_nat (word_size p)) in *. set (k := if two o then 2 else 1) in *.
  assert (Sz : size = T + 20 * (zlen libs + 1) + k * TS + sz) by reflexivity.
  assert (Hk : k = 1 \/ k = 2) by (unfold k; destruct (two o); lia). assert (Hk2 : TS <= k * TS <= 2 * TS) by (destruct Hk as [-> | ->]; lia).
  destruct (open_room_ok p start i (off + size) (off + size) R ltac:(pose proof (ceil_mult_least (off + size) (falign p) (pow2_pos _ Pf)); lia)) as (s' & d0 & Hs' & Eo & Pd & L1 & L2 & L3).
  rewrite Hs in Hs'. inversion Hs'; subst s'; clear Hs'.
  assert (Bd0 : bytes d0) by (apply (padded_bytes _ _ Pd), bytes_raw_view, Ws).
  assert (Bv : s_va s + zlen d0 < 2^32).
  { pose proof IO as (_ & W' & _ & _ & Ch & Ce). pose proof (chain_upper _ _ _ (pow2_pos _ Ps) W' Ch) as Up. pose proof (nth_Forall _ _ _ _ Up Hs) as Us. cbn beta in Us. unfold send in Us.
    destruct L2 as [L2|L2]; [lia|]. rewrite L2. destruct (Nat.eqb (S i) (length (p_sections p))); [pose proof (ceil_mult_least (off + size) (salign p) (pow2_pos _ Ps)); lia|lia]. }
  assert (Ei : import_iat_size sz libs = TS) by (apply iat_size_ok; fold TS; lia).
  assert (En : u32 ((1 + zlen libs) * 20 + (if o_build o || o_fill o then u32 (TS * 2) else TS) + sz + T) = size).
  { fold (two o). unfold k in *. destruct (two o); [rewrite (u32_small (TS * 2)) by lia|]; rewrite u32_small by lia; lia. }
  unfold rebuild_imports. change (thunk_size p) with sz. fold off. rewrite string_size_ok by (fold T; lia). fold T. rewrite Ei.
  rewrite (u32_small ((1 + zlen libs) * 20)) by lia. rewrite En. rewrite (Z.add_comm size off). rewrite (u32_small (off + size)) by lia. rewrite Eo. cbn [bind].
  assert (P4 : power_of_two sz) by (destruct W4 as [-> | ->]; [exists 2|exists 3]; split; [lia|reflexivity|lia|reflexivity]).
  rewrite (u32_small (T + off + (1 + zlen libs) * 20)) by lia.
  pose proof (ceil_mult_least (T + off + (1 + zlen libs) * 20) sz ltac:(lia)) as (_ & Q2 & Q3 & _). set (ip := ceil_mult (T + off + (1 + zlen libs) * 20) sz) in *.
  assert (Al : align_up (T + off + (1 + zlen libs) * 20) sz = ip) by (apply align_up_small; [exact P4|lia|lia|fold ip; lia]). rewrite Al. clearbody ip.
  rewrite (u32_small (ip + TS)) by lia. rewrite (u32_small (T + off)) by lia. rewrite (u32_small (off + T)) by lia. rewrite (u32_small (size - T)) by lia.
  assert (Hw : 0 <= s_va s) by lia.
  pose proof (ostep_total p o libs) as Hos. fold TS in Hos. pose proof (lstep_total p o libs) as Hls. fold TS in Hls.
  assert (Hop : ip + TS + (if two o then TS else 0) <= off + size) by (unfold k in *; destruct (two o); lia).
  destruct (write_libraries_ok p i s Hs Hw o libs d0 off 0 ip 0 (ip + TS) (T + off)) as (d1 & a1 & b1 & E1 & X1 & B1 & C1 & F1); try assumption; try (fold T TS; lia).
  rewrite E1. cbn [bind]. fold T TS in F1, E1.
  destruct (wr_step d1 (T + off + 20 * zlen libs) (zeros 20)) as (d2 & E2 & X2 & C2 & F2 & B2); [lia|rewrite zlen_zeros by lia; lia|].
  rewrite (wr_img p i s Hs _ _ _ _ E2). cbn [bind]. rewrite (get_img p i s Hs). cbn [bind]. rewrite zlen_zeros in F2 by lia.
  set (E := ip + TS + total (ostep p o) libs) in *. assert (HE : ip + TS <= E <= off + size) by (unfold E; destruct (two o); lia).
  destruct (opened_fields s d2) as (_ & _ & _ & _ & _ & O6 & _). rewrite O6. clear O6.
  assert (Er0 : resize d2 E = ztake E d2) by (unfold resize; replace (E <=? zlen d2) with true by lia; reflexivity). rewrite Er0. clear Er0. rewrite put_put.
  replace (set_s_data (ztake E d2) (opened s d2)) with (opened s (ztake E d2)) by (unfold opened; destruct (unmap_virtual s); reflexivity).
  set (d3 := ztake E d2) in *. assert (X3 : zlen d3 = E) by (apply zlen_ztake; lia).
  assert (Bd3 : bytes d3) by (apply bytes_ztake, B2; [apply B1, Bd0|apply bytes_zeros]).
  destruct (store_le p start i (off + size) (off + size) s d0 d3 (o_strip o) R ltac:(pose proof (ceil_mult_least (off + size) (falign p) (pow2_pos _ Pf)); lia) Hs Eo ltac:(lia) ltac:(lia) Bd3)
    as (t & Er & St & Wt2 & IO' & Lt & Vt & Spt & Lrt & Rw & Wz).
  rewrite Er. cbn [bind]. set (p2 := put_section p i t) in *. rewrite !rva_img by lia.
  pose proof (store_block p start i t s d3 IO' Hs Wt2 St Lt Bd3 Hf) as Bk. fold p2 in Bk. set (v := d3 ++ zeros (span (salign p) t - zlen d3)) in *.
  assert (Lv : zlen v = span (salign p) t) by (unfold v; rewrite zlen_app, zlen_zeros; lia).
  assert (Front : holds d3 0 (ztake off d0)).
  { apply holds_ztake; [|rewrite zlen_ztake; lia|lia]. apply F2; [|rewrite zlen_ztake; lia]. apply F1; try (rewrite zlen_ztake; lia). apply holds_front. lia. }
  assert (Ob : only_behind p p2 i off).
  { destruct St as (S1 & S2 & S3 & S4 & S5 & S6). unfold only_behind, p2. cbn [put_section set_p_sections p_sections]. rewrite upd_length. split; [reflexivity|].
    split; [intros j Hj; apply nth_error_upd_other; congruence|]. exists s, t. split; [exact Hs|]. split; [apply nth_error_upd_same, (nth_lt _ _ _ Hs)|]. repeat (split; [assumption|]).
    intros j Hj. unfold byte_of. rewrite <- (nth_padded _ _ _ S6), <- (nth_padded _ _ _ Pd). destruct Front as (_ & _ & Fr). rewrite zlen_ztake in Fr by lia.
    rewrite <- (nth_ztake d0 off) by lia. rewrite <- Fr. rewrite nth_slice by lia. reflexivity. }
  set (out := slice d3 off (E - off)). assert (Lo : zlen out = E - off) by (apply zlen_slice; lia).
  assert (Hv3 : holds v off out) by (apply holds_ext; split; [lia|]; split; [lia|]; rewrite Lo; reflexivity).
  assert (Gen : forall p0 q v', p_plus p0 = p_plus p -> same_elsewhere p0 q i -> p_plus q = p_plus p0 -> block q (s_va s) v' -> holds v' off out ->
    libraries_written p0 s o d1 off (T + off) ip (ip + TS) libs -> Forall (recoverable p0 i o) libs -> s_va s + (off + T) < 2^31 ->
    exists ms, library_table q (s_va s + (off + T)) ms /\ Forall2 (same_library p0 o) libs ms).
  { intros p0 q v' P0 Se Qp Bq Hq F0 Rc Hlow.
    assert (Hls0 : total (lstep p0 o) libs = total (lstep p o) libs) by (apply total_same; intros l; unfold lstep, istep, library_table_size, word_size; rewrite P0; reflexivity).
    assert (Hos0 : total (ostep p0 o) libs = total (ostep p o) libs) by (apply total_same; intros l; unfold ostep, library_table_size, word_size; rewrite P0; reflexivity).
    pose proof (holds_range _ _ _ Hq) as [_ Lq]. rewrite Lo in Lq. pose proof Bq as (_ & _ & Bq32 & _).
    assert (In3 : forall o' x, holds d3 o' x -> off <= o' -> o' + zlen x <= E -> holds v' o' x).
    { intros o' x H1 H2 H3. apply (holds_part v' d3 off (E - off)); [exact Hq|lia|lia|lia|exact H1|lia|lia]. }
    assert (Mono : forall o' x, holds d1 o' x -> off <= o' -> o' + zlen x <= T + off + 20 * zlen libs \/ T + off + 20 * zlen libs + 20 <= o' -> o' + zlen x <= E -> holds v' o' x).
    { intros o' x H1 H0 H2 H3. apply In3; [|exact H0|exact H3]. apply holds_ztake; [|exact H3|lia]. apply F2; assumption. }
    destruct (libraries_back p0 q i Se Qp s v' Bq Hz0 o E libs off (T + off) ip (ip + TS)) as (ms & M1 & M2); try assumption; try (fold T; lia).
    - apply (libraries_written_more p0 q Qp s v' o d1 off (T + off + 20 * zlen libs) (T + off + 20 * zlen libs + 20) E libs Mono); try assumption; try (fold T; lia).
    - apply In3; [|lia|rewrite zlen_zeros; lia]. apply holds_ztake; [exact C2|rewrite zlen_zeros; lia|lia].
    - exists ms. split; [|exact M1]. rewrite (Z.add_comm off T). exact M2. }
  assert (Back : forall q, p_sections q = p_sections p2 -> p_full q = p_full p2 -> salign q = salign p2 -> falign q = falign p2 -> p_plus q = p_plus p2 -> image_ok q start ->
    Forall (recoverable p i o) libs -> s_va s + (off + T) < 2^31 -> exists ms, library_table q (s_va s + (off + T)) ms /\ Forall2 (same_library p o) libs ms).
  { intros q Q1 Qf Qs Qa Qp Qi Rc Hlow.
    assert (Se : same_elsewhere p q i).
    { apply (elsewhere_same p q i start start IO Qi); [|exact Qs|exact Qf]. intros j Hj. rewrite Q1. unfold p2. cbn [put_section set_p_sections p_sections]. apply nth_error_upd_other. congruence. }
    assert (Bq : block q (s_va s) v) by (apply (block_ext p2); assumption). apply (Gen p q v eq_refl Se Qp Bq Hv3 C1 Rc Hlow). }
  assert (Written : forall q, p_sections q = p_sections p2 -> p_full q = p_full p2 -> salign q = salign p2 -> falign q = falign p2 ->
    exists v ip E, block q (s_va s) v /\ libraries_written p s o v off (T + off) ip (ip + TS) libs /\ holds v (T + off + 20 * zlen libs) (zeros 20) /\ off + T < zlen v /\
       0 <= ip /\ ip + total (lstep p o) libs <= E /\ ip + TS + total (ostep p o) libs <= E /\ s_va s + E < 2^32).
  { intros q Q1 Qf Qs Qa. exists v, ip, E. split; [apply (block_ext p2); assumption|].
    assert (In3 : forall o' x, holds d3 o' x -> off <= o' -> o' + zlen x <= E -> holds v o' x) by (intros o' x H1 _ _; apply holds_ext; exact H1).
    split; [|split; [apply In3; [apply holds_ztake; [exact C2|rewrite zlen_zeros; lia|lia]|lia|rewrite zlen_zeros; lia]|repeat split; lia]].
    apply (libraries_written_more p p2 eq_refl s v o d1 off (T + off + 20 * zlen libs) (T + off + 20 * zlen libs + 20) E libs); try assumption; try (fold T; lia).
    intros o' x H1 H0 H2 H3. apply In3; [|exact H0|exact H3]. apply holds_ztake; [|exact H3|lia]. apply F2; assumption. }
  assert (Any : exists out t0, zlen out <= size /\ nth_error (p_sections p2) i = Some t0 /\ off + zlen out <= span (salign p) t0 /\ (forall k, 0 <= k < zlen out -> byte_of t0 (off + k) = nth (Z.to_nat k) out 0) /\
      forall r v, block r (s_va s) v -> holds v off out -> p_plus r = p_plus p -> Forall (fun l => stays o l = false) libs -> Forall (recoverable p i o) libs -> s_va s + (off + T) < 2^31 ->
        exists ms, library_table r (s_va s + (off + T)) ms /\ Forall2 (same_library p o) libs ms).
  { exists out, t. split; [lia|]. split; [apply nth_error_upd_same, (nth_lt _ _ _ Hs)|]. split; [lia|]. split.
    - intros k0 Hk0. destruct St as (_ & _ & _ & _ & _ & S6). unfold byte_of. rewrite <- (nth_padded _ _ _ S6). unfold out. rewrite nth_slice by lia. reflexivity.
    - intros r v' Bv' Hv' Pr Ns Rc Hlow. apply (Gen (set_p_sections [] p) r v'); try assumption; [reflexivity| |].
      + intros a (j & s' & _ & Hj & _). destruct j; discriminate Hj.
      + rewrite Forall_forall in *. intros l Hl. specialize (Rc l Hl). specialize (Ns l Hl). unfold recoverable in *. rewrite Ns in *. exact Rc. }
  assert (Ready : forall q, p_sections q = p_sections p2 -> p_full q = p_full p2 -> salign q = salign p2 -> nrva q = nrva p2 -> dirs_ok q -> image_ok q start ->
    readable p -> addressable p -> viewable p -> readable q /\ addressable q /\ viewable q).
  { intros q Q1 Q2' Q3' Q4 Q5 Q6 Z1 Z2 Z3. apply (ready_after p q start i t Z1 Z2 Z3 Q6 Q1 Q2' Q3' Q4 Q5 (nth_lt _ _ _ Hs)); [apply St|lia]. }
  change dir_import with 1 in *. change dir_iat with 12 in *. unfold import_directories. change dir_import with 1. change dir_iat with 12.
  destruct (o_headers o); cbn [bind fst snd].
  - rewrite set_directory_ok; [|exact D|change (nrva p2) with (nrva p); lia|change (nrva p2) with (nrva p); lia]. cbn [bind].
    set (e := (s_va s + (off + T), size - T)). set (p3 := store_dir p2 1 e).
    pose proof (store_dir_only p p2 1 e D ltac:(lia) eq_refl) as [Od1 Od2]. fold p3 in Od1, Od2.
    assert (D3 : dirs_ok p3) by (apply store_dir_dirs_ok; [exact D|unfold e; cbn [fst snd]; unfold is_u32; lia..]).
    destruct (o_zero_iat o) eqn:Ez.
    + rewrite set_directory_ok; [|exact D3|change (nrva p3) with (nrva p); specialize (N2 eq_refl); lia|change (nrva p3) with (nrva p); lia]. cbn [bind].
      exists (store_dir p3 12 (0, 0)), s. split; [exact Hs|]. split; [reflexivity|]. split; [exact Ob|]. split; [reflexivity|]. split; [exact IO'|].
      pose proof (store_dir_only p3 p3 12 (0, 0) D3 ltac:(lia) eq_refl) as [Oz1 Oz2].
      assert (D4 : dirs_ok (store_dir p3 12 (0, 0))) by (apply store_dir_dirs_ok; [exact D3|cbn; unfold is_u32; lia..]).
      split; [|split; [apply Back|split; [apply Ready|split; [apply Written|exact Any]]]; try reflexivity; try exact IO'; exact D4].
      split; [apply Oz2; [lia|exact Od1]|]. split; [intros _; exact Oz1|]. intros j x K1 K2. rewrite (Oz2 j x) by (intros K; apply K2; split; [reflexivity|exact K]). apply Od2. exact K1.
    + exists p3, s. split; [exact Hs|]. split; [reflexivity|]. split; [exact Ob|]. split; [reflexivity|]. split; [exact IO'|].
      split; [|split; [apply Back|split; [apply Ready|split; [apply Written|exact Any]]]; try reflexivity; try exact IO'; exact D3]. split; [exact Od1|]. split; [discriminate|]. intros j x K1 _. apply Od2. exact K1.
  - exists p2, s. split; [exact Hs|]. split; [reflexivity|]. split; [exact Ob|]. split; [reflexivity|]. split; [exact IO'|]. split; [reflexivity|]. split; [apply Back|split; [apply Ready|split; [apply Written|exact Any]]]; try reflexivity; try exact IO'; exact D.
Qed.
Lemma rebuild_imports_strong p libs i o start : let size := import_size p libs o in let T := total library_text_size libs in let off := o_offset o in
  0 <= off -> Forall (fun l => stays o l && o_rewrite o = false) libs -> Forall valid_library libs -> room p start i (off + size) -> dirs_ok p ->
  dir_import < nrva p <= 16 -> (o_zero_iat o = true -> dir_iat < nrva p) ->
  exists p' s, nth_error (p_sections p) i = Some s /\ rebuild_imports p libs i o = Ok (p', (s_va s + (off + T), size - T)) /\
    only_behind p p' i off /\ same_headers p p' /\ image_ok p' start /\ import_directories p p' o (s_va s + (off + T), size - T) /\
    (Forall (recoverable p i o) libs -> s_va s + (off + T) < 2^31 ->
     exists ms, library_table p' (s_va s + (off + T)) ms /\ Forall2 (same_library p o) libs ms) /\
    (readable p -> addressable p -> viewable p -> readable p' /\ addressable p' /\ viewable p') /\
    exists out t, zlen out <= size /\ nth_error (p_sections p') i = Some t /\ off + zlen out <= span (salign p) t /\ (forall k, 0 <= k < zlen out -> byte_of t (off + k) = nth (Z.to_nat k) out 0) /\
      forall r v, block r (s_va s) v -> holds v off out -> p_plus r = p_plus p -> Forall (fun l => stays o l = false) libs -> Forall (recoverable p i o) libs -> s_va s + (off + T) < 2^31 ->
        exists ms, library_table r (s_va s + (off + T)) ms /\ Forall2 (same_library p o) libs ms.
Proof.
  intros size T off Ho Nr V R D N N2. destruct (rebuild_imports_full p libs i o start Ho Nr V R D N N2) as (p' & s & E1 & E2 & E3 & E4 & E5 & E6 & E7 & E8 & _ & E9).
  exists p', s. do 8 (split; [assumption|]). exact E9.
Qed.
Lemma rebuild_imports_ok p libs i o start : let size := import_size p libs o in let T := total library_text_size libs in let off := o_offset o in
  0 <= off -> Forall (fun l => stays o l && o_rewrite o = false) libs -> Forall valid_library libs -> room p start i (off + size) -> dirs_ok p ->
  dir_import < nrva p <= 16 -> (o_zero_iat o = true -> dir_iat < nrva p) ->
  exists p' s, nth_error (p_sections p) i = Some s /\ rebuild_imports p libs i o = Ok (p', (s_va s + (off + T), size - T)) /\
    only_behind p p' i off /\ same_headers p p' /\ image_ok p' start /\ import_directories p p' o (s_va s + (off + T), size - T) /\
    (Forall (recoverable p i o) libs -> s_va s + (off + T) < 2^31 ->
     exists ms, library_table p' (s_va s + (off + T)) ms /\ Forall2 (same_library p o) libs ms) /\
    (readable p -> addressable p -> viewable p -> readable p' /\ addressable p' /\ viewable p').
Proof.
  intros size T off Ho Nr V R D N N2. destruct (rebuild_imports_strong p libs i o start Ho Nr V R D N N2) as (p' & s & E1 & E2 & E3 & E4 & E5 & E6 & E7 & E8 & _).
  exists p', s. do 7 (split; [assumption|]). exact E8.
Qed.
Lemma imports_detached p libs i o : nth_error (p_sections p) i = None -> rebuild_imports p libs i o = Throw section_is_not_attached.
Proof. intros H. unfold rebuild_imports. rewrite open_room_detached by exact H. reflexivity. Qed.
Lemma imports_full p libs i o : 0 <= o_offset o -> o_offset o + import_size p libs o < 2^32 -> no_room p i (o_offset o + import_size p libs o) ->
  rebuild_imports p libs i o = Throw insufficient_space.
Proof.
  intros Ho Hs R. pose proof (word_size_ok p) as W4. rewrite thunk_word in W4. pose proof (total_nonneg library_text_size libs ltext_nonneg) as T0.
  pose proof (total_nonneg (library_table_size p) libs (table_size_nonneg p)) as TS0. pose proof (zlen_nonneg libs) as Z0. unfold import_size in *.
  set (T := total library_text_size libs) in *. set (TS := total (library_table_size p) libs) in *.
  assert (Hk : TS <= (if o_build o || o_fill o then 2 else 1) * TS) by (destruct (o_build o || o_fill o); lia).
  unfold rebuild_imports. change (thunk_size p) with (Z.of_nat (word_size p)). rewrite string_size_ok by (fold T; lia). fold T. rewrite iat_size_ok by (fold TS; lia). fold TS.
  rewrite (u32_small ((1 + zlen libs) * 20)) by lia. match goal with |- context [u32 (u32 ?a + _)] => set (n := a) end.
  assert (En : n = T + 20 * (zlen libs + 1) + (if o_build o || o_fill o then 2 else 1) * TS + Z.of_nat (word_size p)).
  { unfold n. destruct (o_build o || o_fill o); [rewrite (u32_small (TS * 2)) by lia|]; lia. }
  rewrite En. rewrite (u32_small (T + _ + _ + _)) by lia. rewrite u32_small by lia. rewrite Z.add_comm. rewrite open_room_full by exact R. reflexivity.
Qed.
(** What is read back is what was rebuilt. *)
Lemma imports_round p libs i o start s : let off := o_offset o in let base := s_va s + (off + total library_text_size libs) in
  0 <= off -> Forall (fun l => stays o l && o_rewrite o = false) libs -> Forall valid_library libs -> room p start i (off + import_size p libs o) ->
  dir_import < nrva p <= 16 -> (o_zero_iat o = true -> dir_iat < nrva p) -> o_headers o = true ->
  readable p -> addressable p -> viewable p -> nth_error (p_sections p) i = Some s -> base < 2^31 -> Forall (recoverable p i o) libs ->
  exists p' where_ ms, rebuild_imports p libs i o = Ok (p', where_) /\ get_imports p' = Ok ms /\ Forall2 (same_library p o) libs ms.
Proof.
  intros off base Ho Nr V R N N2 Hh Rd Ad Vw Hs Hb Rc. pose proof R as (_ & _ & s' & Hs' & Hz & _). rewrite Hs in Hs'. injection Hs' as <-.
  destruct (rebuild_imports_ok p libs i o start Ho Nr V R (proj1 Rd) N N2) as (p' & s' & Hs' & E & _ & Sh & _ & Id & Bk & Rdy). rewrite Hs in Hs'. injection Hs' as <-. fold off base in E, Id, Bk.
  destruct (Bk Rc Hb) as (ms & M1 & M2). destruct (Rdy Rd Ad Vw) as (R' & A' & V'). unfold import_directories in Id. rewrite Hh in Id. destruct Id as [Id _].
  exists p', (base, import_size p libs o - total library_text_size libs), ms. split; [exact E|]. split; [|exact M2].
  apply (imports_exact p' R' A' V' base (import_size p libs o - total library_text_size libs)); try assumption.
  - assert (nrva p' = nrva p) by (exact (f_equal nrva Sh)). lia.
  - pose proof (total_nonneg library_text_size libs ltext_nonneg). unfold base. lia.
Qed.

