(** Proofs that the TLS and load configuration readers return what the directories say (C73). *)
From Verif Require Export SpecExact TlsFacts.

Lemma base_word p : base_size p = word_size p. Proof. reflexivity. Qed.
Lemma bm_word p : base_mod p = 256 ^ Z.of_nat (word_size p). Proof. rewrite <- base_word. apply base_mod_pow. Qed.
Lemma bm_range p : 2^32 <= base_mod p <= 2^64. Proof. destruct (base_mod_cases p) as [(-> & _)|(-> & _)]; lia. Qed.
Lemma va_to_rva_of p va r : base_ok p -> 0 <= va < base_mod p -> (va_to_rva p va true = Ok r <-> va_of p va r).
Proof. intros B V. pose proof (bm_range p). unfold base_ok in B. apply va_to_rva_spec; unfold is_u64; lia. Qed.
Lemma va_of_inj p va r r' : va_of p va r -> va_of p va r' -> r = r'.
Proof.
  intros [U E] [U' E']. unfold is_u32 in *. rewrite E in E'. assert (K : ((imagebase p + r) - (imagebase p + r')) mod 2^64 = 0) by (rewrite Zminus_mod, E', Z.sub_diag; reflexivity).
  lia.
Qed.
Lemma field_rva_of p va r : base_ok p -> 0 <= va < base_mod p -> (field_rva p va = Ok r <-> field_of p va r).
Proof. intros B V. unfold field_rva, field_of. destruct (va =? 0); [split; congruence|]. apply va_to_rva_of; assumption. Qed.
Lemma next_rva p v rva rva' : base_ok p -> 0 <= v < base_mod p -> va_of p v rva -> rva + Z.of_nat (word_size p) < 2^32 ->
  va_of p ((v + Z.of_nat (word_size p)) mod base_mod p) rva' -> rva' = rva + Z.of_nat (word_size p).
Proof.
  intros B V [U E] L [U' E']. unfold base_ok, is_u32 in *. rewrite <- base_word in *. destruct (base_mod_cases p) as [(Em & Es & _)|(Em & Es & _)]; rewrite Em, Es in *.
  - change (Z.of_nat 4) with 4 in *. rewrite Z.mod_small in E by lia. rewrite Z.mod_small in E' by lia. subst v. lia.
  - change (Z.of_nat 8) with 8 in *. lia.
Qed.
Section Table.
Variables (p : pe) (ty : datatype) (hdrs : bool) (next : Z -> Z) (conv : Z -> res Z) (rel : Z -> Z -> Prop) (va0 : Z).
Hypotheses (R : readable p) (B : base_ok p) (Hva : 0 <= va0 < base_mod p).
Hypothesis Hend : forall rva bs, is_u32 rva -> read_rva p rva (Z.of_nat (base_size p)) ty hdrs = Ok bs -> rva + Z.of_nat (base_size p) < 2^32.
Hypothesis Hnext : forall k, 0 <= k -> k + Z.of_nat (base_size p) < 2^32 -> next k = k + Z.of_nat (base_size p).
Hypothesis Hrel : forall w v, 0 <= w < base_mod p -> (conv w = Ok v <-> rel w v).
Local Notation sz := (Z.of_nat (base_size p)).
Local Notation at_ k := ((va0 + k) mod base_mod p).
Let body := (fun st : Z * list Z => let '(k, acc) := st in
    bs <- read_va p (at_ k) sz ty hdrs ;;
    if unle bs =? 0 then Ok (inr acc) else r <- conv (unle bs) ;; Ok (@inl _ (list Z) (next k, acc ++ [r]))).
Lemma at_range k : 0 <= at_ k < base_mod p.
Proof. apply Z.mod_pos_bound. pose proof (bm_range p). lia. Qed.
Lemma word_read k w : word_va p ty hdrs (word_size p) (at_ k) w <-> exists bs, read_va p (at_ k) sz ty hdrs = Ok bs /\ unle bs = w.
Proof.
  pose proof (at_range k) as Ra. split.
  - intros (Hw & rva & Hv & E). exists (le (word_size p) w). split; [|apply unle_le_small, Hw]. unfold read_va. rewrite (proj2 (va_to_rva_of p _ rva B Ra) Hv). cbn [bind]. exact E.
  - intros (bs & E & <-). unfold read_va in E. bnd E rva Er. apply (va_to_rva_of p _ _ B Ra) in Er. pose proof (read_rva_bytes _ _ _ _ _ _ R E) as Bb. pose proof (read_rva_len _ _ _ _ _ _ E) as Lb.
    split; [|exists rva; split; [exact Er|]].
    + rewrite <- base_word, <- Lb. apply unle_bound, Bb.
    + rewrite le_unle_n; [exact E|exact Bb|]. unfold zlen in Lb. rewrite <- base_word. lia.
Qed.
Definition inv (k : Z) : Prop := 0 <= k /\ forall rva, va_of p (at_ k) rva -> k <= rva.
Lemma inv_next k w : inv k -> word_va p ty hdrs (word_size p) (at_ k) w -> next k = k + sz /\ inv (k + sz) /\ at_ (k + sz) = (at_ k + sz) mod base_mod p /\
  exists rva, va_of p (at_ k) rva /\ rva + sz < 2^32.
Proof.
  intros [Hk Hi] (_ & rva & Hv & E). pose proof (Hi rva Hv) as L. pose proof (proj1 Hv) as U. pose proof (Hend rva _ U E) as He.
  assert (Ea : at_ (k + sz) = (at_ k + sz) mod base_mod p) by (rewrite Zplus_mod_idemp_l; f_equal; lia).
  split; [apply Hnext; lia|]. split; [split; [lia|]|split; [exact Ea|exists rva; split; assumption]].
  intros r Hr. rewrite Ea in Hr. pose proof (next_rva p (at_ k) rva r B (at_range k) Hv He Hr). unfold is_u32 in U. rewrite base_word in *. lia.
Qed.
Lemma inv0 : inv 0. Proof. split; [lia|]. intros rva [U _]. unfold is_u32 in U. lia. Qed.
Lemma loop_table n : forall k acc r, inv k -> nloop n body (k, acc) = Ok (inr r) -> exists l, r = acc ++ l /\ va_table p ty hdrs rel (at_ k) l.
Proof.
  induction n as [|n IH]; intros k acc r Hi H; [discriminate|]. cbn [nloop] in H. unfold body at 1 in H.
  destruct (read_va p (at_ k) sz ty hdrs) as [bs| | |] eqn:Eb; try discriminate. cbn [bind] in H.
  pose proof (proj2 (word_read k (unle bs)) (ex_intro _ bs (conj Eb eq_refl))) as W. destruct (Z.eqb_spec (unle bs) 0) as [E0|E0].
  - injection H as <-. exists []. rewrite app_nil_r. split; [reflexivity|]. apply va_end. rewrite <- E0. exact W.
  - destruct (conv (unle bs)) as [v| | |] eqn:Ec; try discriminate. cbn [bind] in H. destruct (inv_next k _ Hi W) as (En & Hi' & Ea & _). rewrite En in H.
    destruct (IH _ _ _ Hi' H) as (l & -> & T). exists (v :: l). rewrite <- app_assoc. split; [reflexivity|]. apply (va_next _ _ _ _ _ (unle bs)); [exact W|exact E0| |].
    + apply Hrel; [|exact Ec]. rewrite bm_word. exact (proj1 W).
    + rewrite Ea in T. rewrite <- bm_word, <- base_word. exact T.
Qed.
Lemma table_loop va l : va_table p ty hdrs rel va l -> forall k acc, inv k -> va = at_ k ->
  nloop (S (length l)) body (k, acc) = Ok (inr (acc ++ l)) /\ exists rva, va_of p va rva /\ rva + sz * (zlen l + 1) < 2^32.
Proof.
  induction 1 as [va W|va w v l W N0 Rv T IH]; intros k acc Hi ->.
  - destruct (proj1 (word_read k 0) W) as (bs & Eb & E0). destruct (inv_next k _ Hi W) as (_ & _ & _ & rva & Hv & He). split.
    + cbn [length nloop]. unfold body. rewrite Eb. cbn [bind]. rewrite E0. cbn [Z.eqb]. rewrite app_nil_r. reflexivity.
    + exists rva. split; [exact Hv|]. change (@zlen Z []) with 0. lia.
  - destruct (proj1 (word_read k w) W) as (bs & Eb & E0). destruct (inv_next k _ Hi W) as (En & Hi' & Ea & rva & Hv & He).
    destruct (IH (k + sz) (acc ++ [v]) Hi') as (Ex & r & Hr & Hl); [rewrite Ea, bm_word; reflexivity|]. split.
    + cbn [length]. erewrite nloop_next; cycle 1.
      { unfold body. rewrite Eb. cbn [bind]. rewrite E0. replace (w =? 0) with false by lia. rewrite (proj2 (Hrel w v ltac:(rewrite bm_word; exact (proj1 W))) Rv). cbn [bind]. rewrite En. reflexivity. }
      rewrite Ex, <- app_assoc. reflexivity.
    + exists rva. split; [exact Hv|]. rewrite zlen_cons. rewrite <- bm_word in Hr. pose proof (next_rva p _ rva r B (at_range k) Hv ltac:(rewrite <- base_word; exact He) Hr) as Q. rewrite <- base_word in Q. subst r. replace (rva + sz * (1 + zlen l + 1)) with (rva + sz + sz * (zlen l + 1)) by ring. exact Hl.
Qed.
Lemma va_list_exact l : va_list p ty hdrs next conv va0 = Ok l <-> va_table p ty hdrs rel va0 l.
Proof.
  assert (E0 : va0 = at_ 0) by (rewrite Z.add_0_r, Z.mod_small by exact Hva; reflexivity). unfold va_list. fold body. split.
  - intros H. rewrite mloop_nloop in H. destruct (nloop (Pos.to_nat big_fuel) body (0, [])) as [[st|r]| | |] eqn:N; try discriminate. injection H as <-.
    destruct (loop_table _ _ _ _ inv0 N) as (l & -> & T). rewrite <- E0 in T. exact T.
  - intros T. destruct (table_loop _ _ T 0 [] inv0 E0) as (Ex & rva & [U _] & Hl). eapply mloop_exec; [exact Ex|]. change (Zpos big_fuel) with (2^33 + 1).
    assert (sz = 4 \/ sz = 8) by (destruct (base_mod_cases p) as [(_ & -> & _)|(_ & -> & _)]; lia). unfold is_u32, zlen in *. lia.
Qed.
End Table.

(** ** Thread-local storage *)
Lemma fix_bounds p a b start end_ : base_ok p -> 0 <= a < base_mod p -> 0 <= b < base_mod p ->
  (fix_addresses p a b = Ok (start, end_) <-> template_bounds p a b start end_).
Proof.
  intros B Ha Hb. unfold fix_addresses, template_bounds. destruct (Z.eqb_spec b a) as [<-|N].
  - pose proof (va_to_rva_of p b) as K. destruct (va_to_rva p b true) as [r|x|u|] eqn:E; try (pose proof (va_to_rva_safe p b true) as S; rewrite E in S; contradiction).
    + assert (V : va_of p b r) by (apply (K r B Hb); reflexivity). split.
      * intros H. injection H as <- <-. right. split; [intros _; exists r; exact V|split; reflexivity].
      * intros [(_ & F & _)|(_ & -> & ->)]; [exfalso; exact (F r V)|reflexivity].
    + assert (V : forall r, ~ va_of p b r) by (intros r V; apply (K r B Hb) in V; discriminate V). split.
      * intros H. injection H as <- <-. left. split; [reflexivity|]. split; [exact V|split; reflexivity].
      * intros [(_ & _ & -> & ->)|(F & _)]; [reflexivity|]. destruct (F eq_refl) as [r Hr]. exfalso. exact (V r Hr).
  - split.
    + intros H. injection H as <- <-. right. split; [intros; congruence|split; reflexivity].
    + intros [(E & _)|(_ & -> & ->)]; [congruence|reflexivity].
Qed.
Lemma bounds_range p a b start end_ : template_bounds p a b start end_ -> 0 <= a < base_mod p -> 0 <= b < base_mod p -> 0 <= start < base_mod p /\ 0 <= end_ < base_mod p.
Proof. pose proof (bm_range p). intros [(_ & _ & -> & ->)|(_ & -> & ->)]; lia. Qed.
(** The raw data. *)
Lemma template_read p start end_ r data : readable p -> viewable p -> base_ok p -> 0 <= start < base_mod p -> 0 <= end_ < base_mod p -> start <> 0 -> va_of p start r ->
  let n := (end_ - start) mod base_mod p in
  ((len <- length_va p start start VirtData true ;; throw_if (len <? n) incorrect_tls_directory) = Ok tt /\
   (if (start =? 0) || (start =? end_) then Ok [] else r <- va_to_rva p start true ;; q <- ptr_rva p r VirtData true ;; rd (fst q) (snd q) (u32 n)) = Ok data
   <-> zlen data = n /\ bytes_shown p r data).
Proof.
  intros R V B Hs He N0 Hv n. pose proof (bm_range p) as Bm. pose proof (Z.mod_pos_bound (end_ - start) (base_mod p) ltac:(lia)) as Hn. fold n in Hn.
  pose proof (proj2 (va_to_rva_of p start r B Hs) Hv) as Er. unfold length_va. rewrite Er. cbn [bind]. replace (start =? 0) with false by lia. cbn [orb]. pose proof (proj1 Hv) as U.
  assert (Nz : start = end_ <-> n = 0).
  { unfold n. split; [intros ->; rewrite Z.sub_diag; reflexivity|]. intros H. apply Z.mod_divide in H; [|lia]. destruct H as [q Hq]. assert (q = 0) by (destruct (Z.lt_trichotomy q 0) as [Q|[Q|Q]]; [|exact Q|]; exfalso; clear - Hq Hs He Q; nia). subst q. lia. }
  unfold bytes_shown. destruct (length_rva p r r VirtData true) as [len|x|u|] eqn:El; cbn [bind]; try (split; [intros [H _]; discriminate H|intros (_ & ? & ? & ? & H & _); discriminate H]).
  destruct (ptr_room p r VirtData len R (or_intror V) U El) as (d & off & -> & P1 & P2 & P3 & P4). cbn [bind fst snd].
  destruct (Z.eqb_spec start end_) as [E|E].
  - assert (n = 0) as -> by tauto. split.
    + intros [_ H]. injection H as <-. split; [reflexivity|]. exists len, d, off. split; [reflexivity|]. change (@zlen Z []) with 0. split; [lia|]. split; reflexivity.
    + intros (H & _). split; [unfold throw_if; replace (len <? 0) with false by lia; reflexivity|]. destruct data; [reflexivity|rewrite zlen_cons in H; pose proof (zlen_nonneg data); lia].
  - assert (n <> 0) by tauto. split.
    + intros [H1 H2]. apply throw_if_ok' in H1. rewrite u32_small in H2 by lia. rewrite rd_ok in H2 by lia. injection H2 as <-. rewrite zlen_slice by lia. split; [lia|].
      exists len, d, off. split; [reflexivity|]. split; [lia|]. split; [reflexivity|]. reflexivity.
    + intros (H1 & len' & d' & off' & E1 & E2 & E3 & E4). injection E1 as <-. injection E3 as <- <-. rewrite H1 in *. unfold throw_if. replace (len <? n) with false by lia. split; [reflexivity|].
      rewrite u32_small by lia. rewrite rd_ok by lia. rewrite E4. reflexivity.
Qed.
Lemma tls_bytes_eq p a b c d x y : enc_fields (tls_widths p) [a; b; c; d; x; y] = le (word_size p) a ++ le (word_size p) b ++ le (word_size p) c ++ le (word_size p) d ++ le 4 x ++ le 4 y.
Proof. unfold tls_widths. cbn [enc_fields]. rewrite app_nil_r, base_word. reflexivity. Qed.
Lemma tls_body p rva t : readable p -> base_ok p -> addressable p -> viewable p -> is_u32 rva ->
  (e <- read_rva p rva (tls_size p) VirtData true ;;
   match dec_fields (tls_widths p) e with
   | [start0; end0; index; callbacks; zero; chars] =>
      ' (start, end_) <- fix_addresses p start0 end0 ;;
      let n := (end_ - start) mod base_mod p in
      (if start =? 0 then Ok tt else len <- length_va p start start VirtData true ;; throw_if (len <? n) incorrect_tls_directory) ;;;
      a <- field_rva p start ;; b <- field_rva p end_ ;; c <- field_rva p index ;; d <- field_rva p callbacks ;;
      data <- (if (start =? 0) || (start =? end_) then Ok []
               else r <- va_to_rva p start true ;; q <- ptr_rva p r VirtData true ;; rd (fst q) (snd q) (u32 n)) ;;
      l <- (if d =? 0 then Ok []
            else va_list p VirtData true (fun k => u32 (k + Z.of_nat (base_size p))) (fun va => va_to_rva p va false) callbacks) ;;
      Ok (mk_tls a b c d zero chars data l)
   | _ => Throw incorrect_tls_directory
   end) = Ok t <-> tls_shown p rva t.
Proof.
  intros R B A V Ur.
  assert (Hsz : Z.of_nat (base_size p) = 4 \/ Z.of_nat (base_size p) = 8) by (destruct (base_mod_cases p) as [(_ & -> & _)|(_ & -> & _)]; lia).
  assert (VL : forall cb l, 0 <= cb < base_mod p -> va_list p VirtData true (fun k => u32 (k + Z.of_nat (base_size p))) (fun va => va_to_rva p va false) cb = Ok l <->
     va_table p VirtData true (fun w v => v = (w - imagebase p) mod 2^32) cb l).
  { intros cb l Hc. apply va_list_exact; try assumption.
    - intros r bs U E. apply (read_rva_end p r _ true bs); try assumption; lia.
    - intros k Hk Hl. apply u32_small. lia.
    - intros w v Hw. unfold va_to_rva. cbn [andb throw_if bind]. unfold u32. split; congruence. }
  split.
  - intros H. bnd H e Ee. pose proof (read_rva_bytes _ _ _ _ _ _ R Ee) as Be. pose proof (read_rva_len _ _ _ _ _ _ Ee) as Le.
    destruct (dec_tls_eq p e) as (a & b & c & d & x & y & Ed). pose proof (dec_fields_fits (tls_widths p) e Be) as Ft. pose proof (enc_dec_fields (tls_widths p) e Be Le) as En. rewrite Ed in *. rewrite tls_bytes_eq in En.
    unfold tls_widths in Ft. cbn [fits] in Ft. rewrite <- base_mod_pow in Ft. destruct Ft as (Fa & Fb & Fc & Fd & Fx & Fy & _).
    bnd H se Ef. destruct se as [start end_]. apply fix_bounds in Ef; [|assumption..]. destruct (bounds_range _ _ _ _ _ Ef Fa Fb) as [Rs Re]. cbv zeta in H.
    bnd H u Eu. destruct u. bnd H sa Esa. bnd H sb Esb. bnd H sc Esc. bnd H sd Esd. bnd H data Edata. bnd H l El. injection H as <-.
    exists a, b, start, end_, c, d. cbv zeta. cbn [t_start t_end t_index t_callbacks t_zero t_chars t_data t_list]. rewrite <- bm_word.
    split; [repeat (apply Forall_cons; [assumption|]); apply Forall_nil|]. split; [exact Fx|]. split; [exact Fy|].
    split; [unfold shows; rewrite En, Le; exact Ee|]. split; [exact Ef|].
    apply field_rva_of in Esa, Esb, Esc, Esd; try assumption. do 4 (split; [assumption|]). split.
    + destruct (Z.eqb_spec start 0) as [E0|E0]; [cbn [orb] in Edata; congruence|]. unfold field_of in Esa. replace (start =? 0) with false in Esa by lia.
      apply (template_read p start end_ sa data); try assumption. split; [exact Eu|]. replace (start =? 0) with false by lia. exact Edata.
    + destruct (sd =? 0); [congruence|]. apply VL; assumption.
  - intros (a & b & start & end_ & c & d & H). cbv zeta in H. destruct t as [sa sb sc sd x y data l]. cbn [t_start t_end t_index t_callbacks t_zero t_chars t_data t_list] in H. rewrite <- bm_word in H.
    destruct H as (F & Fx & Fy & S & Ef & Esa & Esb & Esc & Esd & Dt & Lt).
    inversion F as [|? ? Fa F']; subst. inversion F' as [|? ? Fb F'']; subst. inversion F'' as [|? ? Fc F3]; subst. inversion F3 as [|? ? Fd F4]; subst. clear F F' F'' F3 F4.
    destruct (bounds_range _ _ _ _ _ Ef Fa Fb) as [Rs Re].
    assert (Ft : fits (tls_widths p) [a; b; c; d; x; y]) by (unfold tls_widths; cbn [fits]; rewrite <- base_mod_pow; unfold is_u32 in *; tauto).
    unfold shows in S. rewrite <- tls_bytes_eq in S. rewrite enc_fields_length in S by reflexivity. fold (tls_size p) in S. rewrite S. cbn [bind].
    rewrite <- (app_nil_r (enc_fields _ _)), (dec_enc_fields _ _ _ Ft). rewrite (proj2 (fix_bounds p a b start end_ B Fa Fb) Ef). cbn [bind]. cbv zeta.
    assert (Q : (if start =? 0 then Ok tt else len <- length_va p start start VirtData true ;; throw_if (len <? (end_ - start) mod base_mod p) incorrect_tls_directory) = Ok tt /\
      (if (start =? 0) || (start =? end_) then Ok [] else r <- va_to_rva p start true ;; q <- ptr_rva p r VirtData true ;; rd (fst q) (snd q) (u32 ((end_ - start) mod base_mod p))) = Ok data).
    { destruct (Z.eqb_spec start 0) as [E0|E0]; [subst data; split; reflexivity|]. unfold field_of in Esa. replace (start =? 0) with false in Esa by lia.
      pose proof (proj2 (template_read p start end_ sa data R V B Rs Re E0 Esa) Dt) as Q. cbv zeta in Q. replace (start =? 0) with false in Q by lia. exact Q. }
    destruct Q as [-> Q]. cbn [bind]. rewrite (proj2 (field_rva_of p start sa B Rs) Esa), (proj2 (field_rva_of p end_ sb B Re) Esb), (proj2 (field_rva_of p c sc B Fc) Esc), (proj2 (field_rva_of p d sd B Fd) Esd). cbn [bind]. rewrite Q. cbn [bind].
    destruct (sd =? 0); [subst l; reflexivity|]. rewrite (proj2 (VL d l Fd) Lt). reflexivity.
Qed.
Lemma tls_exact p : readable p -> base_ok p -> addressable p -> viewable p -> forall rva size t, dir_is p dir_tls (rva, size) -> dir_tls < nrva p -> rva <> 0 ->
  (get_tls p = Ok t <-> tls_shown p rva t).
Proof.
  intros R B A V rva size t D N Hr. destruct (dir_get p dir_tls R ltac:(unfold dir_tls; lia)) as (rva' & size' & Ur & _ & D' & Er & _ & Ex).
  assert (rva' = rva) by (unfold dir_is in *; destruct D as [_ D], D' as [_ D']; congruence). subst rva'.
  unfold get_tls. rewrite (Ex N), Er. replace (nrva p <=? dir_tls) with false by lia. cbn [bind]. replace (rva =? 0) with false by lia. cbn [negb throw_if bind]. apply tls_body; assumption.
Qed.
Lemma tls_absent p : directory_exists p dir_tls = Ok false -> get_tls p = Throw directory_does_not_exist.
Proof. intros H. unfold get_tls. rewrite H. reflexivity. Qed.

(** ** Load configuration *)
Lemma handlers_exact p table count l : readable p -> base_ok p -> 0 <= count < 2^32 -> 0 <= table -> table + 4 * count < base_mod p ->
  (config_handlers p table count = Ok l <-> zlen l = count /\ dwords_va p table l).
Proof.
  intros R B Hc Ht Hl. unfold config_handlers.
  set (body := fun st : Z * list Z => let '(i, acc) := st in
    if i =? count then Ok (inr acc) else bs <- read_va p ((table + i * 4) mod base_mod p) 4 RawData false ;; Ok (@inl _ (list Z) (i + 1, acc ++ [unle bs]))).
  assert (W : forall i w, 0 <= i < count -> word_va p RawData false 4 (table + i * 4) w <-> exists bs, read_va p ((table + i * 4) mod base_mod p) 4 RawData false = Ok bs /\ unle bs = w).
  { intros i w Hi. rewrite Z.mod_small by lia. split.
    - intros (Hw & rva & Hv & E). exists (le 4 w). split; [|apply unle_le_small, Hw]. unfold read_va. rewrite (proj2 (va_to_rva_of p (table + i * 4) rva B ltac:(lia)) Hv). cbn [bind]. exact E.
    - intros (bs & E & <-). unfold read_va in E. bnd E rva Er. apply (va_to_rva_of p (table + i * 4) rva B ltac:(lia)) in Er. pose proof (read_rva_bytes _ _ _ _ _ _ R E) as Bb. pose proof (read_rva_len _ _ _ _ _ _ E) as Lb.
      split; [|exists rva; split; [exact Er|]].
      + change (Z.of_nat 4) with 4. rewrite <- Lb. apply unle_bound, Bb.
      + rewrite le_unle_n; [exact E|exact Bb|]. unfold zlen in Lb. lia. }
  split.
  - intros H. rewrite mloop_nloop in H. destruct (nloop (Pos.to_nat big_fuel) body (0, [])) as [[st|r]| | |] eqn:N; try discriminate. injection H as <-.
    assert (K : forall n i acc r, 0 <= i <= count -> nloop n body (i, acc) = Ok (inr r) -> exists t, r = acc ++ t /\ zlen t = count - i /\ dwords_va p (table + i * 4) t).
    { clear N r. induction n as [|n IH]; intros i acc r Hi H; [discriminate|]. cbn [nloop] in H. unfold body at 1 in H. destruct (Z.eqb_spec i count) as [E|E].
      - injection H as <-. exists []. rewrite app_nil_r. split; [reflexivity|]. change (@zlen Z []) with 0. split; [lia|exact I].
      - destruct (read_va p ((table + i * 4) mod base_mod p) 4 RawData false) as [bs| | |] eqn:Eb; try discriminate. cbn [bind] in H. assert (Hi2 : 0 <= i + 1 <= count) by lia. destruct (IH _ _ _ Hi2 H) as (t & -> & L & D).
        exists (unle bs :: t). rewrite <- app_assoc. split; [reflexivity|]. split; [rewrite zlen_cons; lia|]. cbn [dwords_va]. split; [apply W; [lia|]; exists bs; split; [exact Eb|reflexivity]|].
        replace (table + i * 4 + 4) with (table + (i + 1) * 4) by lia. exact D. }
    destruct (K _ 0 [] r ltac:(lia) N) as (t & -> & L & D). rewrite Z.add_0_r in D. split; [cbn [app]; lia|exact D].
  - intros [L D]. assert (K : forall l i acc, 0 <= i -> i + zlen l = count -> dwords_va p (table + i * 4) l -> nloop (S (length l)) body (i, acc) = Ok (inr (acc ++ l))).
    { clear l L D. induction l as [|w l IH]; intros i acc Hi L D.
      - change (@zlen Z []) with 0 in L. cbn [length nloop]. unfold body. replace (i =? count) with true by lia. rewrite app_nil_r. reflexivity.
      - rewrite zlen_cons in L. pose proof (zlen_nonneg l). cbn [dwords_va] in D. destruct D as [D1 D2]. destruct (proj1 (W i w ltac:(lia)) D1) as (bs & Eb & Ew).
        cbn [length]. erewrite nloop_next; cycle 1. { unfold body. replace (i =? count) with false by lia. rewrite Eb. cbn [bind]. reflexivity. }
        rewrite Ew, IH; [rewrite <- app_assoc; reflexivity|lia|lia|]. replace (table + (i + 1) * 4) with (table + i * 4 + 4) by lia. exact D2. }
    eapply mloop_exec; [apply (K l 0 []); [lia|lia|rewrite Z.add_0_r; exact D]|]. change (Zpos big_fuel) with (2^33 + 1). unfold zlen in L. lia.
Qed.
Definition config_list (p : pe) (size reserved : Z) (c : config) : list Z :=
  [size; c_time c; c_major c; c_minor c; c_clear c; c_set c; c_timeout c; c_free c; c_total c; c_lock_table c; c_max c; c_threshold c;
   (if p_plus p then c_affinity c else c_heap c); (if p_plus p then c_heap c else c_affinity c); c_pack c; reserved; c_edit c; c_cookie c; c_table c; c_count c].
Lemma config_image_eq p size reserved c : enc_fields (config_widths p) (config_list p size reserved c) = config_image p size reserved c.
Proof.
  unfold config_widths, config_list, config_image. rewrite base_word. destruct (p_plus p); cbn [app enc_fields]; rewrite ?app_nil_r, <- ?app_assoc; reflexivity.
Qed.
Lemma config_fits p size reserved c : fits (config_widths p) (config_list p size reserved c) <->
  is_u32 size /\ is_u16 reserved /\ is_u32 (c_time c) /\ is_u16 (c_major c) /\ is_u16 (c_minor c) /\ is_u32 (c_clear c) /\ is_u32 (c_set c) /\
    is_u32 (c_timeout c) /\ is_u32 (c_heap c) /\ is_u16 (c_pack c) /\
    Forall (fun v => 0 <= v < base_mod p)
      [c_free c; c_total c; c_lock_table c; c_max c; c_threshold c; c_affinity c; c_edit c; c_cookie c; c_table c; c_count c].
Proof.
  rewrite !Forall_cons_iff, Forall_nil_iff. unfold config_widths, config_list. destruct (base_mod_cases p) as [(-> & -> & ->)|(-> & -> & ->)]; cbn [app fits]; unfold is_u32, is_u16;
    change (256 ^ Z.of_nat 4) with (2^32); change (256 ^ Z.of_nat 2) with (2^16); change (256 ^ Z.of_nat 8) with (2^64); tauto.
Qed.
Lemma config_locks p lock l : readable p -> base_ok p -> raw_addressable p -> 0 <= lock < base_mod p ->
  va_list p RawData false (fun k => (k + Z.of_nat (base_size p)) mod (2^32 * Z.of_nat (base_size p))) (fun va => va_to_rva p va true) lock = Ok l <-> va_table p RawData false (va_of p) lock l.
Proof.
  intros R B A Hl. assert (Hsz : Z.of_nat (base_size p) = 4 \/ Z.of_nat (base_size p) = 8) by (destruct (base_mod_cases p) as [(_ & -> & _)|(_ & -> & _)]; lia).
  apply va_list_exact; try assumption.
  - intros r bs U E. apply (raw_end p r _ bs); try assumption; lia.
  - intros k Hk Hn. apply Z.mod_small. lia.
  - intros w v Hw. apply va_to_rva_of; assumption.
Qed.
Lemma config_exact p : readable p -> base_ok p -> raw_addressable p -> forall rva size c, dir_is p dir_load_config (rva, size) -> dir_load_config < nrva p -> rva <> 0 ->
  (get_config p = Ok c <-> config_shown p rva c).
Proof.
  intros R B A rva size0 c D N Hr. destruct (dir_get p dir_load_config R ltac:(unfold dir_load_config; lia)) as (rva' & size' & Ur & _ & D' & Er & _ & Ex).
  assert (rva' = rva) by (unfold dir_is in *; destruct D as [_ D], D' as [_ D']; congruence). subst rva'.
  unfold get_config. rewrite (Ex N), Er. replace (nrva p <=? dir_load_config) with false by lia. cbn [bind]. replace (rva =? 0) with false by lia. cbn [negb throw_if bind]. split.
  - intros H. bnd H e Ee. pose proof (read_rva_bytes _ _ _ _ _ _ R Ee) as Be. pose proof (read_rva_len _ _ _ _ _ _ Ee) as Le.
    destruct (dec_config_eq p e) as (size & time & major & minor & clear & set & timeout & free & total & lock & max & threshold & x & y & pack & z & edit & cookie & table & count & Ed).
    pose proof (dec_fields_fits (config_widths p) e Be) as Ft. pose proof (enc_dec_fields (config_widths p) e Be Le) as En. rewrite Ed in *.
    thr H C1. thr H C2. bnd H hs Eh. bnd H ls El. injection H as E.
    assert (L : [size; time; major; minor; clear; set; timeout; free; total; lock; max; threshold; x; y; pack; z; edit; cookie; table; count] = config_list p size z c).
    { rewrite <- E. unfold config_list. cbn [c_time c_major c_minor c_clear c_set c_timeout c_free c_total c_lock_table c_max c_threshold c_affinity c_heap c_pack c_edit c_cookie c_table c_count]. destruct (p_plus p); reflexivity. }
    rewrite L in *. rewrite config_image_eq in En. pose proof (proj1 (config_fits p size z c) Ft) as F. exists size, z. cbv zeta. rewrite <- bm_word. do 10 (destruct F as [? F]; split; [assumption|]). split; [exact F|].
    rewrite !Forall_cons_iff in F. destruct F as (_ & _ & Fl & _ & _ & _ & _ & _ & Ft' & Fn & _). pose proof (bm_range p) as Bm.
    split; [rewrite En, Le; exact Ee|]. split; [rewrite <- config_size_eq; lia|].
    rewrite <- E in *. cbn [c_lock_table c_table c_count c_handlers c_locks] in *. change (max_dword / 4) with (2^30 - 1) in C2. apply orb_false_iff in C2 as [C2 C3].
    split; [lia|]. split; [lia|]. apply handlers_exact in Eh; [|try assumption; lia..]. split; [apply Eh|]. split; [apply Eh|].
    destruct (lock =? 0); [congruence|]. apply config_locks; assumption.
  - intros (size & z & H). cbv zeta in H. rewrite <- bm_word in H. destruct H as (F1 & F2 & F3 & F4 & F5 & F6 & F7 & F8 & F9 & F10 & F11 & Rd & Hsz & Hn & Ht & Lh & Dh & Lk).
    assert (Ft : fits (config_widths p) (config_list p size z c)) by (apply config_fits; do 10 (split; [assumption|]); exact F11).
    rewrite <- config_image_eq in Rd. rewrite enc_fields_length in Rd by (unfold config_widths; destruct (p_plus p); reflexivity). fold (config_size p) in Rd. rewrite Rd. cbn [bind].
    rewrite <- (app_nil_r (enc_fields _ _)), (dec_enc_fields _ _ _ Ft). unfold config_list. rewrite config_size_eq. replace (size <? (if p_plus p then 112 else 72)) with false by lia. cbn [throw_if bind].
    rewrite !Forall_cons_iff in F11. destruct F11 as (_ & _ & Fl & _ & _ & _ & _ & _ & Ft' & Fn & _).
    change (max_dword / 4) with (2^30 - 1). replace (2^30 - 1 <=? c_count c) with false by lia. replace (base_mod p - 1 - c_count c * 4 <=? c_table c) with false by lia. cbn [orb throw_if bind].
    rewrite (proj2 (handlers_exact p (c_table c) (c_count c) (c_handlers c) R B ltac:(lia) ltac:(lia) ltac:(lia)) (conj Lh Dh)). cbn [bind].
    assert (El : (if c_lock_table c =? 0 then Ok [] else va_list p RawData false (fun k => (k + Z.of_nat (base_size p)) mod (2^32 * Z.of_nat (base_size p))) (fun va => va_to_rva p va true) (c_lock_table c)) = Ok (c_locks c)).
    { destruct (c_lock_table c =? 0); [congruence|]. apply config_locks; assumption. }
    rewrite El. cbn [bind]. destruct c, (p_plus p); reflexivity.
Qed.
Lemma config_absent p : directory_exists p dir_load_config = Ok false -> get_config p = Throw directory_does_not_exist.
Proof. intros H. unfold get_config. rewrite H. reflexivity. Qed.
