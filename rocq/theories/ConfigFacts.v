(** Facts about the load configuration and lists of addresses (C47, C64). *)
From Verif Require Export SpecConfig ImportFacts.

Lemma base_mod_pow p : base_mod p = 256 ^ Z.of_nat (base_size p).
Proof. unfold base_mod, base_size. destruct (p_plus p); reflexivity. Qed.
Lemma base_mod_cases p : base_mod p = 2^32 /\ base_size p = 4%nat /\ p_plus p = false \/ base_mod p = 2^64 /\ base_size p = 8%nat /\ p_plus p = true.
Proof. unfold base_mod, base_size. destruct (p_plus p); tauto. Qed.
Lemma raw_end p rva n bs : readable p -> raw_addressable p -> is_u32 rva -> 0 <= n -> read_rva p rva n RawData false = Ok bs -> rva + n < 2^32.
Proof.
  intros (_ & _ & W & _ & Fl) A Hr Hn H. unfold read_rva in H. cbn [andb] in H.
  bnd H i E1. bnd H s E2. thr H E3. apply rd_inv in H as (B & _ & D & _). apply get_section_inv in E2.
  pose proof (nth_Forall _ _ _ _ A E2) as As. cbn beta in As. cbn [view] in *. lia.
Qed.
Lemma va_to_rva_safe p va b : safe (va_to_rva p va b).
Proof. unfold va_to_rva. destruct (b && _); exact I. Qed.
Lemma va_to_rva_range p va b r : va_to_rva p va b = Ok r -> is_u32 r.
Proof. unfold va_to_rva. intros H. thr H E. injection H as <-. apply u32_range. Qed.
Lemma read_va_safe p va n ty h : Forall wf_section (p_sections p) -> 0 <= n -> safe (read_va p va n ty h).
Proof.
  intros W Hn. unfold read_va. apply safe_bind; [apply va_to_rva_safe|]. intros r Hr. apply read_rva_safe; [exact W|exact (va_to_rva_range _ _ _ _ Hr)|exact Hn].
Qed.
Lemma read_va_inv p va n ty h bs : is_u64 va -> is_u64 (imagebase p) -> read_va p va n ty h = Ok bs -> exists r, is_u32 r /\ va = u64 (imagebase p + r) /\ read_rva p r n ty h = Ok bs.
Proof. intros Hv Hi H. unfold read_va in H. bnd H r E. exists r. pose proof (proj1 (va_to_rva_spec p va r Hv Hi) E). tauto. Qed.
Lemma read_va_at p r n ty h : base_ok p -> is_u32 r -> imagebase p + r < base_mod p -> read_va p (imagebase p + r) n ty h = read_rva p r n ty h.
Proof.
  intros B Hr H. unfold read_va. unfold base_ok in B. assert (base_mod p <= 2^64) by (destruct (base_mod_cases p) as [(-> & _)|(-> & _)]; lia). unfold is_u32 in *.
  rewrite (proj2 (va_to_rva_spec p (imagebase p + r) r ltac:(unfold is_u64; lia) ltac:(unfold is_u64; lia))); [reflexivity|]. split; [exact Hr|]. symmetry. apply Z.mod_small. lia.
Qed.
(** ** The lists of addresses *)
Section VaList.
Variables (p : pe) (ty : datatype) (hdrs : bool) (next : Z -> Z) (conv : Z -> res Z).
Hypotheses (R : readable p) (B : base_ok p).
Hypothesis Hend : forall rva bs, is_u32 rva -> read_rva p rva (Z.of_nat (base_size p)) ty hdrs = Ok bs -> rva + Z.of_nat (base_size p) < 2^32.
Hypothesis Hnext : forall k, 0 <= k -> k + Z.of_nat (base_size p) < 2^32 -> next k = k + Z.of_nat (base_size p).
Local Notation sz := (Z.of_nat (base_size p)).
Local Notation f va k := (u64 ((va + k) mod base_mod p - imagebase p)).
Lemma va_list_safe va : (forall x, safe (conv x)) -> 0 <= va < base_mod p -> safe (va_list p ty hdrs next conv va).
Proof.
  intros Cs Hva. unfold va_list. pose proof R as (_ & _ & W & _ & _). pose proof (u64_range (va - imagebase p)) as U0.
  assert (Hsz : sz = 4 \/ sz = 8) by (destruct (base_mod_cases p) as [(_ & -> & _)|(_ & -> & _)]; lia).
  assert (Hb : 0 < base_mod p <= 2^64) by (destruct (base_mod_cases p) as [(-> & _)|(-> & _)]; lia).
  apply (mloop_safe _ big_fuel (fun st => 0 <= fst st /\ (f va (fst st) < 2^32 -> fst st <= f va (fst st))) (fun st => if f va (fst st) <? 2^32 then 2^32 - f va (fst st) else 0)).
  - intros [k acc] [Hk Hi]. cbn [fst] in *. pose proof (u64_range ((va + k) mod base_mod p - imagebase p)) as U.
    split; [destruct (Z.ltb_spec (f va k) (2^32)); lia|].
    pose proof (read_va_safe p ((va + k) mod base_mod p) sz ty hdrs W ltac:(lia)) as Rs. destruct (read_va p ((va + k) mod base_mod p) sz ty hdrs) as [bs| | |] eqn:E; try exact Rs. cbn [bind].
    destruct (unle bs =? 0); [exact I|]. specialize (Cs (unle bs)). destruct (conv (unle bs)) as [r| | |]; try exact Cs. cbn [bind fst].
    pose proof (Z.mod_pos_bound (va + k) (base_mod p) ltac:(lia)) as Mb. unfold base_ok in B.
    apply read_va_inv in E as (rva & Ur & Ev & E); [|unfold is_u64; lia|unfold is_u64; lia]. pose proof (Hend rva bs Ur E) as He. unfold is_u32 in Ur.
    assert (Ef : f va k = rva) by (apply u64_u32_sub; [exact Ur|exact Ev]). rewrite Ef in *. rewrite Hnext by lia.
    assert (Ef' : f va (k + sz) = rva + sz \/ 2^32 <= f va (k + sz)).
    { rewrite Z.add_assoc. destruct (base_mod_cases p) as [(Em & Es & _)|(Em & Es & _)]; rewrite Em, Es in *; clear Hi Rs Cs.
      - assert (Ev' : (va + k) mod 2^32 = imagebase p + rva) by (rewrite Ev; unfold u64; apply Z.mod_small; lia). clear Ev Ef E. change (Z.of_nat 4) with 4 in *.
        destruct (Z.ltb_spec (imagebase p + rva + 4) (2^32)) as [L|L].
        + left. assert (Ew : (va + k + 4) mod 2^32 = imagebase p + rva + 4) by (rewrite Z.add_mod, Ev' by lia; change (4 mod 2^32) with 4; apply Z.mod_small; lia).
          rewrite Ew. unfold u64. rewrite Z.mod_small; lia.
        + right. assert (Ew : (va + k + 4) mod 2^32 = imagebase p + rva + 4 - 2^32).
          { rewrite Z.add_mod, Ev' by lia. change (4 mod 2^32) with 4. symmetry. apply (Z.mod_unique_pos _ _ 1); lia. }
          rewrite Ew. unfold u64. rewrite <- (Z.mod_unique_pos (imagebase p + rva + 4 - 2^32 - imagebase p) (2^64) (-1) (rva + 4 - 2^32 + 2^64)); lia.
      - left. change (Z.of_nat 8) with 8 in *. unfold u64 in *. rewrite Z.add_mod, Ev by lia. change (8 mod 2^64) with 8. rewrite Zplus_mod_idemp_l, Zminus_mod_idemp_l.
        replace (imagebase p + rva + 8 - imagebase p) with (rva + 8) by lia. apply Z.mod_small. lia. }
    split; [split; [lia|destruct Ef' as [-> | Ef']; lia]|]. replace (rva <? 2^32) with true by lia.
    destruct Ef' as [-> | Ef']; [destruct (Z.ltb_spec (rva + sz) (2^32)); lia|]. replace (f va (k + sz) <? 2^32) with false by lia. lia.
  - cbn [fst]. pose proof (u64_range ((va + 0) mod base_mod p - imagebase p)) as U. lia.
  - cbn [fst]. pose proof (u64_range ((va + 0) mod base_mod p - imagebase p)) as U. change (Zpos big_fuel) with (2^33 + 1). destruct (Z.ltb_spec (f va 0) (2^32)); lia.
Qed.
Lemma va_list_ok rva ws vs : 0 <= rva -> words_read p ty hdrs (base_size p) rva (ws ++ [0]) -> Forall (fun w => w <> 0) ws -> Forall2 (fun w v => conv w = Ok v) ws vs ->
  rva + sz * (zlen ws + 1) < 2^32 -> imagebase p + rva + sz * (zlen ws + 1) <= base_mod p -> va_list p ty hdrs next conv (imagebase p + rva) = Ok vs.
Proof.
  clear R Hend. intros Hr Wr Nz Cv H1 H2. unfold va_list. assert (Hsz : sz = 4 \/ sz = 8) by (destruct (base_mod_cases p) as [(_ & -> & _)|(_ & -> & _)]; lia). pose proof B as [B1 B2].
  assert (K : forall ws vs k acc, 0 <= k -> words_read p ty hdrs (base_size p) (rva + k) (ws ++ [0]) -> Forall (fun w => w <> 0) ws -> Forall2 (fun w v => conv w = Ok v) ws vs ->
    rva + k + sz * (zlen ws + 1) < 2^32 -> imagebase p + rva + k + sz * (zlen ws + 1) <= base_mod p ->
    nloop (S (length ws)) (fun st : Z * list Z => let '(k, acc) := st in
      bs <- read_va p ((imagebase p + rva + k) mod base_mod p) sz ty hdrs ;;
      if unle bs =? 0 then Ok (inr acc) else r <- conv (unle bs) ;; Ok (inl (next k, acc ++ [r]))) (k, acc) = Ok (inr (acc ++ vs))).
  { clear ws vs Wr Nz Cv H1 H2. induction ws as [|w ws IH]; intros vs k acc Hk Wr Nz Cv H1 H2.
    - inversion Cv; subst. destruct Wr as (_ & E & _). change (@zlen Z []) with 0 in *. cbn [length nloop]. rewrite Z.mod_small by lia. rewrite <- Z.add_assoc, read_va_at by (try assumption; unfold is_u32; lia).
      rewrite E. cbn [bind]. rewrite unle_le_small by (split; [lia|apply Z.pow_pos_nonneg; lia]). cbn [Z.eqb]. rewrite app_nil_r. reflexivity.
    - inversion Cv as [|? v ? vs' C1 C2]; subst. inversion Nz as [|? ? N1 N2]; subst. destruct Wr as (Wb & E & Wr). rewrite zlen_cons in *. pose proof (zlen_nonneg ws) as Zw.
      cbn [length]. erewrite nloop_next; cycle 1.
      { rewrite Z.mod_small by lia. rewrite <- Z.add_assoc, read_va_at by (try assumption; unfold is_u32; lia). rewrite E. cbn [bind]. rewrite unle_le_small by exact Wb. replace (w =? 0) with false by lia. rewrite C1. reflexivity. }
      rewrite Hnext by lia. replace (acc ++ v :: vs') with ((acc ++ [v]) ++ vs') by (rewrite <- app_assoc; reflexivity). apply IH; try assumption; try lia. rewrite Z.add_assoc. exact Wr. }
  pose proof (K ws vs 0 [] ltac:(lia) ltac:(rewrite Z.add_0_r; exact Wr) Nz Cv ltac:(lia) ltac:(lia)) as N.
  eapply mloop_exec; [exact N|]. change (Zpos big_fuel) with (2^33 + 1). unfold zlen in *. lia.
Qed.
End VaList.

(** ** The reader *)
Lemma handlers_safe p table count : readable p -> 0 <= count < 2^32 -> safe (config_handlers p table count).
Proof.
  intros (_ & _ & W & _) Hc. unfold config_handlers. apply (mloop_safe _ big_fuel (fun st => 0 <= fst st <= count) (fun st => count - fst st)).
  - intros [k acc] Hk. cbn [fst] in *. split; [lia|]. destruct (Z.eqb_spec k count); [exact I|].
    pose proof (read_va_safe p ((table + k * 4) mod base_mod p) 4 RawData false W ltac:(lia)) as Rs. destruct (read_va p ((table + k * 4) mod base_mod p) 4 RawData false) as [bs| | |]; try exact Rs. cbn [bind fst]. lia.
  - cbn [fst]. lia.
  - cbn [fst]. change (Zpos big_fuel) with (2^33 + 1). lia.
Qed.
Lemma handlers_ok p rva l : base_ok p -> 0 <= rva -> words_read p RawData false 4 rva l -> rva + 4 * zlen l < 2^32 -> imagebase p + rva + 4 * zlen l < base_mod p ->
  config_handlers p (imagebase p + rva) (zlen l) = Ok l.
Proof.
  intros B Hr Wr H1 H2. unfold config_handlers. set (n := zlen l) in *. pose proof B as [B1 B2].
  assert (K : forall l k acc, 0 <= k -> words_read p RawData false 4 (rva + 4 * k) l -> k + zlen l = n ->
    nloop (S (length l)) (fun st : Z * list Z => let '(i, acc) := st in
      if i =? n then Ok (inr acc) else bs <- read_va p ((imagebase p + rva + i * 4) mod base_mod p) 4 RawData false ;; Ok (inl (i + 1, acc ++ [unle bs]))) (k, acc) = Ok (inr (acc ++ l))).
  { clearbody n. clear l Wr. induction l as [|w l IH]; intros k acc Hk Wr Hn.
    - change (@zlen Z []) with 0 in Hn. cbn [length nloop]. replace (k =? n) with true by lia. rewrite app_nil_r. reflexivity.
    - rewrite zlen_cons in Hn. pose proof (zlen_nonneg l) as Zl. destruct Wr as (Wb & E & Wr). cbn [length]. erewrite nloop_next; cycle 1.
      { replace (k =? n) with false by lia. rewrite Z.mod_small by lia. replace (imagebase p + rva + k * 4) with (imagebase p + (rva + 4 * k)) by lia.
        rewrite read_va_at by (try assumption; unfold is_u32; lia). change 4 with (Z.of_nat 4) at 2. rewrite E. cbn [bind]. rewrite unle_le_small by exact Wb. reflexivity. }
      replace (acc ++ w :: l) with ((acc ++ [w]) ++ l) by (rewrite <- app_assoc; reflexivity). apply IH; try lia. replace (rva + 4 * (k + 1)) with (rva + 4 * k + Z.of_nat 4) by lia. exact Wr. }
  pose proof (K l 0 [] ltac:(lia) ltac:(rewrite Z.mul_0_r, Z.add_0_r; exact Wr) eq_refl) as N.
  eapply mloop_exec; [exact N|]. change (Zpos big_fuel) with (2^33 + 1). unfold n, zlen in *. lia.
Qed.
Lemma config_size_eq p : config_size p = if p_plus p then 112 else 72.
Proof. unfold config_size, config_widths, base_size. destruct (p_plus p); reflexivity. Qed.
Lemma dec_config_eq p e : exists size time major minor clear set timeout free total lock max threshold x y pack z edit cookie table count,
  dec_fields (config_widths p) e = [size; time; major; minor; clear; set; timeout; free; total; lock; max; threshold; x; y; pack; z; edit; cookie; table; count].
Proof. unfold config_widths, base_size. destruct (p_plus p); cbn [app dec_fields]; repeat eexists. Qed.
Lemma fits_widths ws vs : fits ws vs -> Forall2 (fun w v => 0 <= v < 256 ^ Z.of_nat w) ws vs.
Proof. revert vs; induction ws as [|w ws IH]; intros [|v vs] H; cbn [fits] in H; try contradiction; constructor; [tauto|apply IH; tauto]. Qed.
Lemma config_safe p : readable p -> base_ok p -> raw_addressable p -> safe (get_config p).
Proof.
  intros R B A. unfold get_config. pose proof R as (_ & _ & W & _). destruct (dir_get p dir_load_config R ltac:(unfold dir_load_config; lia)) as (rva & size & Ur & _ & _ & Er & _ & Ex).
  destruct (directory_exists_safe p dir_load_config R ltac:(unfold dir_load_config; lia)) as [ex ->]. cbn [bind]. case_throw Hex; [exact I|]. rewrite Er. destruct (nrva p <=? dir_load_config); [exact I|]. cbn [bind].
  assert (Sz : 0 <= config_size p) by (rewrite config_size_eq; destruct (p_plus p); lia).
  apply safe_bind; [apply read_rva_safe; assumption|]. intros e He. pose proof (read_rva_bytes _ _ _ _ _ _ R He) as Be.
  destruct (dec_config_eq p e) as (v1 & v2 & v3 & v4 & v5 & v6 & v7 & v8 & v9 & lock & v11 & v12 & v13 & v14 & v15 & v16 & v17 & v18 & table & count & Ed).
  pose proof (dec_fields_fits (config_widths p) e Be) as Ft. rewrite Ed in *.
  assert (Fl : 0 <= lock < base_mod p /\ 0 <= count).
  { rewrite base_mod_pow. unfold config_widths in Ft. destruct (p_plus p); cbn [app fits] in Ft; tauto. }
  case_throw C1; [exact I|]. case_throw C2; [exact I|]. apply safe_bind; [apply handlers_safe; [exact R|unfold max_dword in C2; lia]|]. intros hs _.
  apply safe_bind; [|intros; exact I]. destruct (lock =? 0); [exact I|].
  assert (Hsz : Z.of_nat (base_size p) = 4 \/ Z.of_nat (base_size p) = 8) by (destruct (base_mod_cases p) as [(_ & -> & _)|(_ & -> & _)]; lia).
  apply va_list_safe; try assumption.
  - intros r bs U E. apply (raw_end p r _ bs); try assumption; lia.
  - intros k Hk Hl. apply Z.mod_small. lia.
  - intros x. apply va_to_rva_safe.
  - tauto.
Qed.

(** ** Sorting *)
Lemma insert_perm x l : Permutation (x :: l) (insert_number x l).
Proof. induction l as [|y l IH]; cbn [insert_number]; [reflexivity|]. destruct (x <=? y); [reflexivity|]. rewrite perm_swap. constructor. exact IH. Qed.
Lemma insert_sorted x l : StronglySorted Z.le l -> StronglySorted Z.le (insert_number x l).
Proof.
  induction 1 as [|y l S IH F]; cbn [insert_number]; [repeat constructor|]. destruct (Z.leb_spec x y) as [L|L].
  - constructor; [constructor; assumption|]. constructor; [exact L|]. apply (Forall_impl _ (P := Z.le y)); [intros; lia|exact F].
  - constructor; [exact IH|]. apply (Permutation_Forall (insert_perm x l)). constructor; [lia|exact F].
Qed.
Lemma sort_numbers_ok l : sorted_list l (sort_numbers l).
Proof.
  induction l as [|x l [P S]]; [split; constructor|]. cbn [sort_numbers fold_right]. fold (sort_numbers l). split; [|apply insert_sorted, S].
  rewrite <- insert_perm. constructor. exact P.
Qed.
Lemma sorted_same_len l l' : sorted_list l l' -> zlen l' = zlen l.
Proof. intros [P _]. unfold zlen. rewrite (Permutation_length P). reflexivity. Qed.

(** ** Words *)
Definition wordn (n : nat) (l : list Z) : list Z := concat (map (le n) l).
Lemma wordn_cons n x l : wordn n (x :: l) = le n x ++ wordn n l. Proof. reflexivity. Qed.
Lemma wordn_len n l : zlen (wordn n l) = Z.of_nat n * zlen l.
Proof. induction l as [|x l IH]; [change (wordn n []) with (@nil Z); change (@zlen Z []) with 0; lia|]. rewrite wordn_cons, zlen_app, zlen_le, IH, zlen_cons. lia. Qed.
Lemma wordn_bytes n l : bytes (wordn n l).
Proof. induction l as [|x l IH]; [constructor|]. rewrite wordn_cons. apply bytes_app. split; [apply bytes_le|exact IH]. Qed.
Lemma write_words_ok n l : forall d pos out at_, at_ = pos + zlen out -> 0 <= pos -> pos + zlen out + Z.of_nat n * zlen l <= zlen d -> zlen d < 2^32 ->
  exists e, mfold (write_words n) l (splice d pos out, at_) = Ok (splice d pos (out ++ wordn n l), e).
Proof.
  induction l as [|w l IH]; intros d pos out at_ -> Hp Hl Hd; [exists (pos + zlen out); cbn [mfold]; rewrite app_nil_r; reflexivity|].
  rewrite zlen_cons in Hl. pose proof (zlen_nonneg l) as Zl. pose proof (zlen_nonneg out) as Zo. cbn [mfold]. unfold write_words at 1. cbn [fst snd]. rewrite wr_append by (rewrite ?zlen_le; lia). cbn [bind].
  rewrite u32_small by lia. destruct (IH d pos (out ++ le n w) (pos + zlen out + Z.of_nat n)) as [e E]; try (rewrite ?zlen_app, ?zlen_le; lia).
  exists e. rewrite wordn_cons, app_assoc. exact E.
Qed.
(** What a rebuilder stored in a section, in the section's raw data. *)
Lemma raw_read p base v i t off n : block p base v -> nth_error (p_sections p) i = Some t -> s_va t = base -> zlen v = span (salign p) t ->
  0 <= off < zlen v -> 0 <= n -> off + n <= zlen (raw_view t) -> read_rva p (base + off) n RawData false = Ok (slice (raw_view t) off n).
Proof.
  intros (Lay & Hf & Hb & _) Hs Va Sp Ho Hn Hl. pose proof (zlen_nonneg (p_full p)) as Zf.
  assert (E : section_from_rva p (base + off) = Ok i) by (apply (section_from_rva_spec _ _ _ Lay); exists t; split; [exact Hs|unfold occupies, send; lia]).
  unfold read_rva. cbn [andb]. rewrite E. cbn [bind]. rewrite (get_section_ok _ _ _ Hs). cbn [bind view]. rewrite Va. replace (base + off - base) with off by lia.
  rewrite u32_small by lia. replace (zlen (raw_view t) <? off + n) with false by lia. cbn [throw_if bind]. apply rd_ok; lia.
Qed.
Lemma raw_words p base v i t n l : (0 < n)%nat -> block p base v -> nth_error (p_sections p) i = Some t -> s_va t = base -> zlen v = span (salign p) t -> zlen (raw_view t) <= zlen v ->
  forall off, holds (raw_view t) off (wordn n l) -> Forall (fun w => 0 <= w < 256 ^ Z.of_nat n) l -> words_read p RawData false n (base + off) l.
Proof.
  intros Hn Bk Ht Va Sp Lr. induction l as [|w l IH]; intros off H F; [exact I|]. inversion F as [|? ? F1 F2]; subst. rewrite wordn_cons in H. apply holds_app in H as [H1 H2]. rewrite zlen_le in H2.
  pose proof (holds_range _ _ _ H1) as Rg. rewrite zlen_le in Rg. cbn [words_read]. split; [exact F1|]. split.
  - rewrite (raw_read p (s_va t) v i t) by (try assumption; try reflexivity; lia). rewrite (holds_slice _ _ _ _ H1) by (rewrite zlen_le; reflexivity). reflexivity.
  - rewrite <- Z.add_assoc. apply IH; assumption.
Qed.
Lemma words_read_same p q i ty h n l : same_elsewhere p q i -> forall rva, words_read p ty h n rva l -> (forall k, 0 <= k < zlen l -> elsewhere p i (rva + Z.of_nat n * k)) -> words_read q ty h n rva l.
Proof.
  intros Se. induction l as [|w l IH]; intros rva Wr El; [exact I|]. destruct Wr as (A & E & Wr). rewrite zlen_cons in El. pose proof (zlen_nonneg l) as Zl. cbn [words_read]. split; [exact A|]. split.
  - assert (E0 : elsewhere p i rva) by (replace rva with (rva + Z.of_nat n * 0) by lia; apply El; lia). rewrite (proj1 (Se rva E0)). exact E.
  - apply IH; [exact Wr|]. intros k Hk. replace (rva + Z.of_nat n + Z.of_nat n * k) with (rva + Z.of_nat n * (k + 1)) by lia. apply El. lia.
Qed.
Lemma rva_to_va_ok p r : base_ok p -> is_u32 r -> imagebase p + r < base_mod p -> rva_to_va p r = Ok (imagebase p + r).
Proof.
  intros [B1 B2] U H. unfold rva_to_va. destruct (base_mod_cases p) as [(E & _ & Ep)|(E & _ & Ep)]; rewrite Ep, E in *.
  - apply rva_to_va_32_spec; [unfold is_u32; lia|exact U|lia].
  - rewrite rva_to_va_64_spec. unfold u64. rewrite Z.mod_small by (unfold is_u32 in U; lia). reflexivity.
Qed.
Lemma lock_vas p l : base_ok p -> Forall (has_va p) l -> mmap (rva_to_va p) l = Ok (map (Z.add (imagebase p)) l).
Proof.
  intros B F. induction F as [|r l [U V] F IH]; [reflexivity|]. cbn [mmap map]. rewrite rva_to_va_ok by (assumption || lia). cbn [bind]. rewrite IH. reflexivity.
Qed.
Lemma lock_conv p l : base_ok p -> Forall (has_va p) l -> Forall2 (fun w v => va_to_rva p w true = Ok v) (map (Z.add (imagebase p)) l) l.
Proof.
  intros B F. pose proof B as [B1 B2]. assert (base_mod p <= 2^64) by (destruct (base_mod_cases p) as [(-> & _)|(-> & _)]; lia). induction F as [|r l [U V] F IH]; constructor; [|exact IH].
  unfold is_u32 in U. apply va_to_rva_spec; [unfold is_u64; lia..|]. split; [exact U|]. symmetry. apply Z.mod_small. lia.
Qed.

(** ** The rebuilder *)
Definition config_fields (p : pe) (c : config) (lock table : Z) : list Z :=
  [config_size p; c_time c; c_major c; c_minor c; c_clear c; c_set c; c_timeout c; c_free c; c_total c; lock;
   c_max c; c_threshold c; (if p_plus p then c_affinity c else c_heap c); (if p_plus p then c_heap c else c_affinity c); c_pack c; 0; c_edit c; c_cookie c; table; zlen (c_handlers c)].
Lemma config_fits p c lock table : valid_config p c -> 0 <= lock < base_mod p -> 0 <= table < base_mod p -> zlen (c_handlers c) < 2^32 -> fits (config_widths p) (config_fields p c lock table).
Proof.
  intros (V1 & V2 & V3 & V4 & V5 & V6 & V7 & V8 & F & _) Hl Ht Hz. pose proof (zlen_nonneg (c_handlers c)) as Z0. unfold is_u32, is_u16 in *.
  repeat match goal with H : Forall _ (_ :: _) |- _ => inversion H; subst; clear H end.
  unfold config_fields, config_widths. rewrite config_size_eq. destruct (base_mod_cases p) as [(E & Es & Ep)|(E & Es & Ep)]; rewrite Ep, E, Es in *; cbn [app fits];
    change (256 ^ Z.of_nat 2) with (2^16); change (256 ^ Z.of_nat 4) with (2^32); change (256 ^ Z.of_nat 8) with (2^64); repeat split; lia.
Qed.
Lemma rebuild_config_ok p start i c off handlers locks save strip s : let pos := ceil_mult off (Z.of_nat (word_size p)) in let size := config_bytes p c handlers locks in
  0 <= off -> valid_config p c -> zlen (c_handlers c) < 2^32 -> room p start i (pos + size) -> dirs_ok p -> dir_load_config < nrva p <= 16 -> base_ok p ->
  nth_error (p_sections p) i = Some s -> imagebase p + s_va s + (pos + size) < base_mod p - 1 ->
  exists p' out, rebuild_config p c i off handlers locks save strip = Ok (p', (s_va s + pos, config_size p)) /\ zlen out <= size /\ only_section p p' i pos out /\
    same_headers p p' /\ image_ok p' start /\
    (if save then only_directory p p' dir_load_config (s_va s + pos, config_size p) else h_dirs (p_nt p') = h_dirs (p_nt p)) /\
    (save = true -> strip = false \/ S i = length (p_sections p) -> kept_lists p i c handlers locks ->
     exists c', get_config p' = Ok c' /\ same_fields c c' /\ c_count c' = zlen (c_handlers c) /\
       same_list handlers sorted_list (c_table c) (c_table c') (c_handlers c) (c_handlers c') /\
       same_list locks eq (c_lock_table c) (c_lock_table c') (c_locks c) (c_locks c')).
Proof.
  intros pos size Ho V Hz R D N B Hs Hb. set (nh := zlen (c_handlers c)) in *. set (nl := zlen (c_locks c)) in *. change (word_size p) with (base_size p) in *.
  pose proof (zlen_nonneg (c_handlers c)) as Zh. pose proof (zlen_nonneg (c_locks c)) as Zl. fold nh in Zh. fold nl in Zl.
  set (sz := Z.of_nat (base_size p)) in *. assert (Hsz : sz = 4 \/ sz = 8) by (unfold sz; destruct (base_mod_cases p) as [(_ & -> & _)|(_ & -> & _)]; lia).
  assert (Cs : config_size p = 72 \/ config_size p = 112) by (rewrite config_size_eq; destruct (p_plus p); lia).
  assert (P4 : power_of_two sz) by (destruct Hsz as [-> | ->]; [exists 2|exists 3]; split; [lia|reflexivity|lia|reflexivity]).
  pose proof (ceil_mult_least off sz ltac:(lia)) as (_ & Q2 & Q3 & _). fold pos in Q2, Q3.
  assert (Se : size = config_size p + (if handlers then 4 * nh else 0) + (if locks then sz * (nl + 1) else 0)) by (unfold size, config_bytes; rewrite config_size_eq; reflexivity).
  clearbody size. pose proof R as (IO & Tt & s' & Hs' & Hz0 & Hf & _). rewrite Hs in Hs'. injection Hs' as <-.
  assert (Hs1 : config_size p <= size) by (rewrite Se; destruct handlers, locks; lia).
  pose proof IO as ((Ps & Pf & L) & W & _). pose proof (nth_Forall _ _ _ _ W Hs) as Ws.
  destruct (open_room_ok p start i (pos + size) (pos + size) R ltac:(pose proof (ceil_mult_least (pos + size) (falign p) (pow2_pos _ Pf)); lia)) as (s' & d0 & Hs' & Eo & Pd & L1 & L2 & L3).
  rewrite Hs in Hs'. injection Hs' as <-.
  unfold rebuild_config. fold sz nh nl.
  assert (Al : align_up off sz = pos) by (apply align_up_small; [exact P4|lia|unfold is_u32; lia|fold pos; lia]). rewrite Al.
  rewrite (u32_small (pos - off)) by lia. replace (off + (pos - off)) with pos by lia. rewrite (u32_small pos) by lia. rewrite (u32_small (config_size p + pos)) by lia. rewrite (u32_small nh) by lia.
  set (n1 := config_size p + (if handlers then 4 * nh else 0)).
  assert (Hn1 : config_size p <= n1 <= size) by (unfold n1; rewrite Se; destruct handlers, locks; lia).
  replace (if handlers then u32 (config_size p + nh * 4) else config_size p) with n1 by (unfold n1; destruct handlers; [rewrite u32_small by (unfold n1 in Hn1; lia)|]; lia).
  rewrite (u32_small (n1 + pos)) by lia.
  replace (if locks then u32 (n1 + u32 ((nl + 1) * sz)) else n1) with size.
  2: { unfold n1 in *. rewrite Se in *. destruct locks; [rewrite (u32_small ((nl + 1) * sz)) by lia; rewrite u32_small by lia; lia|lia]. }
  rewrite (u32_small (size + pos)) by lia. rewrite (Z.add_comm size pos), Eo. cbn [bind].
  set (wh := handlers && negb (nh =? 0)). set (wl := locks && negb (nl =? 0)).
  assert (Od : opened s d0 = opened s d0) by reflexivity. destruct (opened_fields s d0) as (_ & _ & O3 & _ & _ & O6 & _).
  set (table := if wh then imagebase p + (s_va s + (pos + config_size p)) else if handlers then 0 else c_table c).
  set (lock := if wl then imagebase p + (s_va s + (pos + n1)) else if locks then 0 else c_lock_table c).
  pose proof V as (_ & _ & _ & _ & _ & _ & _ & _ & Vf & Vh & Vl). pose proof B as [B1 B2].
  assert (Bm : 2^32 <= base_mod p <= 2^64) by (destruct (base_mod_cases p) as [(-> & _)|(-> & _)]; lia).
  assert (Vf' : forall v, In v [c_free c; c_total c; c_lock_table c; c_max c; c_threshold c; c_affinity c; c_edit c; c_cookie c; c_table c] -> v mod base_mod p = v).
  { intros v Hv. apply Z.mod_small. exact (proj1 (Forall_forall _ _) Vf v Hv). }
  assert (Sv : s_va s + (pos + size) < 2^32).
  { pose proof IO as (_ & W' & _ & _ & Ch & Ce). pose proof (chain_upper _ _ _ (pow2_pos _ Ps) W' Ch) as Up. pose proof (nth_Forall _ _ _ _ Up Hs) as Us. cbn beta in Us. unfold send in Us.
    destruct R as (_ & _ & s2 & Hs2 & _ & _ & _ & Hr & Rr). rewrite Hs in Hs2. injection Hs2 as <-. destruct (Nat.eqb (S i) (length (p_sections p))); [pose proof (ceil_mult_least (pos + size) (salign p) (pow2_pos _ Ps)); lia|lia]. }
  assert (Et : (if wh then rva_to_va p (rva_from_section_offset (opened s d0) (config_size p + pos)) else Ok (if handlers then 0 else c_table c mod base_mod p)) = Ok table).
  { unfold table, rva_from_section_offset. rewrite O3. destruct wh; [|rewrite Vf' by (cbn; tauto); reflexivity]. rewrite u32_small by lia. replace (s_va s + (config_size p + pos)) with (s_va s + (pos + config_size p)) by lia. apply rva_to_va_ok; [exact B|unfold is_u32; lia|lia]. }
  rewrite Et. cbn [bind]. clear Et.
  assert (Et : (if wl then rva_to_va p (rva_from_section_offset (opened s d0) (n1 + pos)) else Ok (if locks then 0 else c_lock_table c mod base_mod p)) = Ok lock).
  { unfold lock, rva_from_section_offset. rewrite O3. destruct wl; [|rewrite Vf' by (cbn; tauto); reflexivity]. rewrite u32_small by lia. replace (s_va s + (n1 + pos)) with (s_va s + (pos + n1)) by lia. apply rva_to_va_ok; [exact B|unfold is_u32; lia|lia]. }
  rewrite Et. cbn [bind]. clear Et.
  rewrite !Vf' by (cbn; tauto). rewrite (Z.mod_small nh) by lia. change (enc_fields _ _) with (enc_fields (config_widths p) (config_fields p c lock table)).
  set (hd := enc_fields (config_widths p) (config_fields p c lock table)).
  assert (Lh : zlen hd = config_size p) by (unfold hd; apply enc_fields_length; unfold config_widths; destruct (p_plus p); reflexivity).
  assert (Hl : 0 <= lock < base_mod p).
  { unfold lock. destruct wl; [lia|]. destruct locks; [lia|]. apply (proj1 (Forall_forall _ _) Vf (c_lock_table c)); cbn; tauto. }
  assert (Ht : 0 <= table < base_mod p).
  { unfold table. destruct wh; [lia|]. destruct handlers; [lia|]. apply (proj1 (Forall_forall _ _) Vf (c_table c)); cbn; tauto. }
  assert (Ft : fits (config_widths p) (config_fields p c lock table)) by (apply config_fits; assumption).
  rewrite O6. rewrite wr_ok by lia. cbn [bind].
  assert (Zd : zlen d0 < 2^32) by (destruct R as (_ & _ & s2 & Hs2 & _ & _ & _ & Hr & _); rewrite Hs in Hs2; injection Hs2 as <-; lia).
  set (hs := if wh then wordn 4 (sort_numbers (c_handlers c)) else []).
  assert (Sl : zlen (sort_numbers (c_handlers c)) = nh) by apply (sorted_same_len _ _ (sort_numbers_ok _)).
  assert (Lhs : zlen hs = if handlers then 4 * nh else 0).
  { unfold hs, wh. destruct handlers; cbn [andb]; [|reflexivity]. destruct (Z.eqb_spec nh 0) as [E0|E0]; cbn [negb]; [rewrite E0; reflexivity|]. rewrite wordn_len, Sl. reflexivity. }
  assert (E2 : (if wh then ' (d, _) <- mfold (write_words 4) (sort_numbers (c_handlers c)) (splice d0 pos hd, config_size p + pos) ;; Ok d else Ok (splice d0 pos hd)) = Ok (splice d0 pos (hd ++ hs))).
  { unfold hs. destruct wh eqn:Ewh; [|rewrite app_nil_r; reflexivity]. unfold wh in Ewh. destruct handlers; [|discriminate Ewh].
    destruct (write_words_ok 4 (sort_numbers (c_handlers c)) d0 pos hd (config_size p + pos)) as [e ->]; try lia; reflexivity. }
  rewrite E2. cbn [bind]. clear E2. set (vas := map (Z.add (imagebase p)) (c_locks c)).
  assert (Lva : zlen (vas ++ [0]) = nl + 1) by (rewrite zlen_app; unfold vas; rewrite zlen_map; reflexivity).
  set (ls := if wl then wordn (base_size p) (vas ++ [0]) else []).
  assert (Lls : zlen ls <= if locks then sz * (nl + 1) else 0).
  { unfold ls, wl. destruct locks; cbn [andb]; [|change (@zlen Z []) with 0; lia]. destruct (Z.eqb_spec nl 0) as [E0|E0]; cbn [negb]; [change (@zlen Z []) with 0; lia|]. rewrite wordn_len, Lva. fold sz. lia. }
  assert (E2 : (if wl then vas <- mmap (rva_to_va p) (c_locks c) ;; ' (d, _) <- mfold (write_words (base_size p)) (vas ++ [0]) (splice d0 pos (hd ++ hs), n1 + pos) ;; Ok d else Ok (splice d0 pos (hd ++ hs))) = Ok (splice d0 pos (hd ++ hs ++ ls))).
  { unfold ls. destruct wl eqn:Ewl; [|rewrite app_nil_r; reflexivity]. unfold wl in Ewl. destruct locks; [|discriminate Ewl].
    rewrite lock_vas by assumption. cbn [bind]. fold vas. destruct (write_words_ok (base_size p) (vas ++ [0]) d0 pos (hd ++ hs) (n1 + pos)) as [e ->]; try lia; [rewrite zlen_app; unfold n1; lia|rewrite zlen_app, Lva; fold sz; lia|].
    cbn [bind]. rewrite <- app_assoc. reflexivity. }
  rewrite E2. clear E2. cbn [bind]. set (out := hd ++ hs ++ ls).
  assert (Lo : zlen out = n1 + zlen ls) by (unfold out; rewrite !zlen_app, Lh, Lhs; unfold n1; lia).
  assert (Bo : bytes out).
  { unfold out. apply bytes_app. split; [apply bytes_enc_fields|]. apply bytes_app. unfold hs, ls. split; [destruct wh|destruct wl]; try apply wordn_bytes; constructor. }
  assert (Hlo : zlen out <= size) by (rewrite Lo; unfold n1; lia).
  destruct (finish_ok p start i (pos + size) (pos + size) s d0 pos out strip save dir_load_config (config_size p) R ltac:(pose proof (ceil_mult_least (pos + size) (falign p) (pow2_pos _ Pf)); lia) Hs Eo ltac:(lia) ltac:(lia) ltac:(lia) Bo D ltac:(unfold dir_load_config in *; lia) ltac:(lia))
    as (p' & t & E & Os & Sh & IO' & Sd & Hp & St & Wt & Spt & Rw & Hf' & Ef & Bk).
  exists p', out. split; [exact E|]. split; [exact Hlo|]. split; [exact Os|]. split; [exact Sh|]. split; [exact IO'|]. split; [destruct save; tauto|].
  intros -> St2 (Kh & Kl). specialize (Rw St2). destruct Sd as (_ & Dx & Dr & Dsz).
  assert (Ls : zlen (splice d0 pos out) = zlen d0) by (apply zlen_splice; lia).
  set (v := splice d0 pos out ++ zeros (span (salign p) t - zlen (splice d0 pos out))) in *.
  assert (Lv : zlen v = span (salign p) t) by (unfold v; rewrite zlen_app, zlen_zeros by lia; lia).
  assert (Lr : zlen (raw_view t) <= zlen v) by (rewrite Rw, Ls, Lv; exact Spt).
  assert (Ep : p_plus p' = p_plus p) by (exact (f_equal p_plus Sh)). assert (Eb : imagebase p' = imagebase p) by (exact (f_equal imagebase Sh)).
  assert (Ew : config_widths p' = config_widths p) by (unfold config_widths, base_size; rewrite Ep; reflexivity).
  assert (Es : base_size p' = base_size p) by (unfold base_size; rewrite Ep; reflexivity). assert (Em : base_mod p' = base_mod p) by (unfold base_mod; rewrite Ep; reflexivity).
  assert (Sa : salign p' = salign p) by (exact (f_equal salign Sh)).
  assert (Sl' : same_elsewhere p p' i) by (apply (elsewhere_same p p' i start start IO IO'); [exact (proj1 (proj2 Os))|exact Sa|exact Ef]).
  assert (Ho' : holds (splice d0 pos out) pos out) by (apply holds_splice; lia).
  assert (B' : base_ok p') by (unfold base_ok; rewrite Eb, Em; exact B).
  unfold get_config. rewrite Dx. cbn [bind negb throw_if]. rewrite Dr. cbn [bind]. unfold config_size. rewrite Ew. fold (config_size p).
  assert (Hh : holds v pos hd) by (apply holds_ext; unfold out in Ho'; apply holds_app in Ho'; tauto).
  assert (Rd : read_rva p' (s_va s + pos) (config_size p) VirtData false = Ok hd).
  { pose proof (block_holds p' (s_va s) v pos hd (config_size p) Bk Hh ltac:(lia) ltac:(lia)) as Rd. unfold read_rva in *. cbn [andb] in *. replace (s_va s + pos + config_size p <? zlen (p_full p')) with false in Rd by lia. rewrite andb_false_r in Rd. exact Rd. }
  rewrite Rd. cbn [bind]. rewrite <- (app_nil_r hd). unfold hd. rewrite dec_enc_fields by exact Ft. unfold config_fields at 1.
  replace (config_size p <? config_size p) with false by lia. cbn [throw_if bind]. fold nh. rewrite Em, Es, Ep.
  assert (Ch : (max_dword / 4 <=? nh) || (base_mod p - 1 - nh * 4 <=? table) = false /\ exists hl, config_handlers p' table nh = Ok hl /\ same_list handlers sorted_list (c_table c) table (c_handlers c) hl).
  { change (max_dword / 4) with 1073741823. unfold table, same_list, wh in *. destruct handlers; cbn [andb] in *.
    - destruct (Z.eqb_spec nh 0) as [E0|E0]; cbn [negb] in *.
      + rewrite E0. split; [lia|]. exists []. assert (En : c_handlers c = []) by (destruct (c_handlers c); [reflexivity|unfold nh in E0; rewrite zlen_cons in E0; pose proof (zlen_nonneg l); lia]).
        split; [unfold config_handlers; eapply mloop_exec; [instantiate (1 := 1%nat); reflexivity|vm_compute; congruence]|]. rewrite En. split; [split; [reflexivity|constructor]|reflexivity].
      + split; [lia|]. exists (sort_numbers (c_handlers c)). split.
        * rewrite <- Sl, <- Eb. apply handlers_ok; [exact B'|lia| |lia|lia].
          assert (Hw : holds (raw_view t) (pos + config_size p) (wordn 4 (sort_numbers (c_handlers c)))).
          { rewrite Rw. unfold out in Ho'. rewrite !holds_app, Lh in Ho'. unfold hs in Ho'. tauto. }
          apply (raw_words p' (s_va s) v i t); try assumption; try lia; try apply St; [rewrite Sa; exact Lv|].
          apply (Permutation_Forall (proj1 (sort_numbers_ok (c_handlers c)))). exact Vh.
        * split; [apply sort_numbers_ok|]. intros E1. unfold nh in E0. rewrite E1 in E0. elim E0. reflexivity.
    - destruct (Kh eq_refl) as [[K1 K2]|(rva & K1 & K2 & K3 & K4 & K5 & K6)].
      + unfold nh in *. rewrite K1 in *. change (@zlen Z []) with 0 in *. split; [lia|]. exists []. split; [|split; reflexivity]. unfold config_handlers; eapply mloop_exec; [instantiate (1 := 1%nat); reflexivity|vm_compute; congruence].
      + change (Z.of_nat 4) with 4 in *. fold nh in K3, K4, K6. split; [lia|]. exists (c_handlers c). split; [|split; reflexivity]. rewrite K1, <- Eb. apply handlers_ok; [exact B'|lia| |fold nh; lia|fold nh; lia].
        apply (words_read_same p p' i); assumption. }
  destruct Ch as (-> & hl & -> & Sh2). cbn [throw_if bind].
  assert (Ck : exists ll, (if lock =? 0 then Ok [] else va_list p' RawData false (fun k => (k + Z.of_nat (base_size p)) mod (2^32 * Z.of_nat (base_size p))) (fun va => va_to_rva p' va true) lock) = Ok ll /\
    same_list locks eq (c_lock_table c) lock (c_locks c) ll).
  { assert (Nx : forall k, 0 <= k -> k + Z.of_nat (base_size p') < 2^32 -> (k + Z.of_nat (base_size p)) mod (2^32 * Z.of_nat (base_size p)) = k + Z.of_nat (base_size p')) by (intros k K1 K2; rewrite Es in K2 |- *; fold sz in K2 |- *; apply Z.mod_small; lia).
    assert (Cv : Forall2 (fun w u => va_to_rva p' w true = Ok u) vas (c_locks c)).
    { pose proof (lock_conv p (c_locks c) B Vl) as Cv. fold vas in Cv. unfold va_to_rva in *. rewrite Eb. exact Cv. }
    assert (Nz : Forall (fun w => w <> 0) vas) by (unfold vas; apply Forall_map; apply (Forall_impl _ (P := has_va p)); [unfold has_va; intros; lia|exact Vl]).
    assert (Rg : Forall (fun w => 0 <= w < 256 ^ Z.of_nat (base_size p)) (vas ++ [0])).
    { rewrite <- base_mod_pow. apply Forall_app. split; [unfold vas; apply Forall_map; apply (Forall_impl _ (P := has_va p)); [unfold has_va; intros; lia|exact Vl]|repeat constructor; lia]. }
    assert (Zv : zlen vas = nl) by (unfold vas; apply zlen_map).
    unfold lock, same_list, wl in *. destruct locks; cbn [andb] in *.
    - destruct (Z.eqb_spec nl 0) as [E0|E0]; cbn [negb] in *.
      + exists []. cbn [Z.eqb]. assert (En : c_locks c = []) by (destruct (c_locks c); [reflexivity|unfold nl in E0; rewrite zlen_cons in E0; pose proof (zlen_nonneg l); lia]). rewrite En. split; [reflexivity|split; reflexivity].
      + exists (c_locks c). replace (imagebase p + (s_va s + (pos + n1)) =? 0) with false by lia. split.
        * rewrite <- Eb. apply (va_list_ok p' RawData false _ _ B' Nx (s_va s + (pos + n1)) vas); try assumption; rewrite ?Es, ?Em, ?Eb, ?Zv; fold sz; try lia.
          assert (Hw : holds (raw_view t) (pos + n1) (wordn (base_size p) (vas ++ [0]))).
          { rewrite Rw. unfold out in Ho'. rewrite !holds_app, Lh, Lhs in Ho'. replace (pos + n1) with (pos + config_size p + (if handlers then 4 * nh else 0)) by (unfold n1; lia). unfold ls in Ho'. tauto. }
          apply (raw_words p' (s_va s) v i t); try assumption; try lia; try apply St; rewrite Sa; exact Lv.
        * split; [reflexivity|]. intros E1. unfold nl in E0. rewrite E1 in E0. elim E0. reflexivity.
    - destruct (Kl eq_refl) as [[K1 K2]|(K0 & rva & K1 & K2 & K3 & K4 & K5 & K6)].
      + exists []. rewrite K2, K1. cbn [Z.eqb]. split; [reflexivity|split; reflexivity].
      + exists (c_locks c). replace (c_lock_table c =? 0) with false by lia. split; [|split; reflexivity]. fold vas in K3, K4, K5, K6. change (word_size p) with (base_size p) in *. fold sz in K3, K4, K6. rewrite Lva in *.
        rewrite K1, <- Eb. apply (va_list_ok p' RawData false _ _ B' Nx rva vas); try assumption; rewrite ?Es, ?Em, ?Eb, ?Zv; fold sz; try lia.
        apply (words_read_same p p' i); try assumption. rewrite Lva. fold sz. exact K6. }
  destruct Ck as (ll & -> & Sl2). cbn [bind]. eexists. split; [reflexivity|].
  unfold same_fields. cbn [c_time c_major c_minor c_clear c_set c_timeout c_free c_total c_lock_table c_max c_threshold c_affinity c_heap c_pack c_edit c_cookie c_table c_count c_handlers c_locks].
  split; [destruct (p_plus p); repeat split; reflexivity|]. split; [reflexivity|]. split; assumption.
Qed.
Lemma config_detached p c i off handlers locks save strip : nth_error (p_sections p) i = None -> rebuild_config p c i off handlers locks save strip = Throw section_is_not_attached.
Proof. intros H. unfold rebuild_config. rewrite open_room_detached by exact H. reflexivity. Qed.
Lemma config_full p c i off handlers locks save strip : let n := ceil_mult off (Z.of_nat (word_size p)) + config_bytes p c handlers locks in
  0 <= off -> zlen (c_handlers c) < 2^32 -> n < 2^32 -> no_room p i n -> rebuild_config p c i off handlers locks save strip = Throw insufficient_space.
Proof.
  intros n Ho Hz Hn R. unfold n in *. clear n. change (word_size p) with (base_size p) in *. unfold config_bytes in *. rewrite <- config_size_eq in *. change (word_size p) with (base_size p) in *.
  pose proof (zlen_nonneg (c_handlers c)) as Zh. pose proof (zlen_nonneg (c_locks c)) as Zl. unfold rebuild_config.
  set (sz := Z.of_nat (base_size p)) in *. assert (Hsz : sz = 4 \/ sz = 8) by (unfold sz; destruct (base_mod_cases p) as [(_ & -> & _)|(_ & -> & _)]; lia).
  assert (Cs : config_size p = 72 \/ config_size p = 112) by (rewrite config_size_eq; destruct (p_plus p); lia).
  assert (P4 : power_of_two sz) by (destruct Hsz as [-> | ->]; [exists 2|exists 3]; split; [lia|reflexivity|lia|reflexivity]).
  pose proof (ceil_mult_least off sz ltac:(lia)) as (_ & Q2 & Q3 & _). set (pos := ceil_mult off sz) in *.
  assert (Hp : pos < 2^32) by (destruct handlers, locks; lia).
  assert (Al : align_up off sz = pos) by (apply align_up_small; [exact P4|lia|unfold is_u32; lia|fold pos; lia]). rewrite Al.
  rewrite (u32_small (pos - off)) by lia. replace (off + (pos - off)) with pos by lia. rewrite (u32_small pos) by lia. rewrite (u32_small (zlen (c_handlers c))) by lia.
  assert (E1 : (if handlers then u32 (config_size p + zlen (c_handlers c) * 4) else config_size p) = config_size p + (if handlers then 4 * zlen (c_handlers c) else 0)).
  { destruct handlers; [rewrite u32_small by (destruct locks; lia)|]; lia. }
  rewrite E1. set (n1 := config_size p + (if handlers then 4 * zlen (c_handlers c) else 0)) in *.
  assert (H1 : 0 <= n1) by (unfold n1; destruct handlers; lia).
  assert (E2 : (if locks then u32 (n1 + u32 ((zlen (c_locks c) + 1) * sz)) else n1) = n1 + (if locks then sz * (zlen (c_locks c) + 1) else 0)).
  { destruct locks; [|lia]. rewrite (u32_small ((zlen (c_locks c) + 1) * sz)) by lia. rewrite u32_small by lia. lia. }
  rewrite E2. rewrite (u32_small (_ + pos)) by (destruct locks; lia). rewrite (Z.add_comm (n1 + _) pos). rewrite open_room_full by exact R. reflexivity.
Qed.
