(** Lemmas about PeModel.v: directories, addresses, lookups, reads. *)
From Verif Require Export SectionFacts PeModel SpecPe.

(** ** Directories (C06, C07, C08) *)
Lemma dirs_lookup p id : dirs_ok p -> 0 <= id < 16 -> exists d, nth_error (h_dirs (p_nt p)) (Z.to_nat id) = Some d /\ nth_ub (h_dirs (p_nt p)) id = Ok d.
Proof.
  intros [L _] H. destruct (nth_error (h_dirs (p_nt p)) (Z.to_nat id)) as [d|] eqn:E.
  - exists d; split; [reflexivity|apply nth_ub_ok; [assumption|lia]].
  - apply nth_error_None in E. lia.
Qed.
Lemma get_dir_spec p id d :
  dirs_ok p -> nrva p <= 16 -> dir_is p id d -> id < nrva p ->
  get_directory_rva p id = Ok (fst d) /\ get_directory_size p id = Ok (snd d).
Proof.
  intros D N [H0 H1] H2. unfold get_directory_rva, get_directory_size.
  destruct (Z.leb_spec (nrva p) id); [lia|]. cbn [throw_if bind].
  rewrite (nth_ub_ok _ _ _ H1 H0). split; reflexivity.
Qed.
Lemma get_dir_throws p id :
  nrva p <= id -> get_directory_rva p id = Throw directory_does_not_exist /\
  get_directory_size p id = Throw directory_does_not_exist /\
  (forall v, set_directory_rva p id v = Throw directory_does_not_exist) /\
  (forall v, set_directory_size p id v = Throw directory_does_not_exist).
Proof.
  intros H. unfold get_directory_rva, get_directory_size, set_directory_rva, set_directory_size.
  destruct (Z.leb_spec (nrva p) id); [|lia]. repeat split; reflexivity.
Qed.
Lemma store_dir_dirs p id d : h_dirs (p_nt (store_dir p id d)) = upd (h_dirs (p_nt p)) (Z.to_nat id) d.
Proof. reflexivity. Qed.
Lemma store_dir_frame p id d : same_but_dirs (store_dir p id d) p.
Proof. unfold same_but_dirs, store_dir, with_nt; destruct p as [? ? ? ? ? n]; destruct n; reflexivity. Qed.
Lemma store_dir_nrva p id d : nrva (store_dir p id d) = nrva p.
Proof. reflexivity. Qed.
Lemma store_dir_is p id d : dirs_ok p -> 0 <= id < 16 ->
  dir_is (store_dir p id d) id d /\ (forall j e, j <> id -> (dir_is (store_dir p id d) j e <-> dir_is p j e)).
Proof.
  intros [L _] H. unfold dir_is. rewrite store_dir_dirs. split.
  - split; [lia|]. apply nth_error_upd_same. lia.
  - intros j e Hj. split; intros [H0 H1]; split; try assumption.
    + rewrite nth_error_upd_other in H1 by lia. assumption.
    + rewrite nth_error_upd_other by lia. assumption.
Qed.
Lemma Forall_upd {A} (P : A -> Prop) l i x : Forall P l -> P x -> Forall P (upd l i x).
Proof.
  intros H; revert i; induction H as [|h t Hh Ht IH]; intros [|i] Hx; cbn [upd]; constructor; auto.
Qed.
Lemma store_dir_ok p id d : dirs_ok p -> is_u32 (fst d) -> is_u32 (snd d) -> dirs_ok (store_dir p id d).
Proof.
  intros [L F] H1 H2. unfold dirs_ok. rewrite store_dir_dirs, upd_length. split; [assumption|].
  apply Forall_upd; auto.
Qed.
Lemma set_rva_spec p id v rva size :
  dirs_ok p -> nrva p <= 16 -> dir_is p id (rva, size) -> id < nrva p ->
  exists p', set_directory_rva p id v = Ok p' /\ dir_is p' id (v, size) /\
  (forall j e, j <> id -> (dir_is p' j e <-> dir_is p j e)) /\ same_but_dirs p' p.
Proof.
  intros D N [H0 H1] H2. unfold set_directory_rva.
  destruct (Z.leb_spec (nrva p) id); [lia|]. cbn [throw_if bind].
  rewrite (nth_ub_ok _ _ _ H1 H0). cbn [bind snd]. eexists; split; [reflexivity|].
  destruct (store_dir_is p id (v, size) D ltac:(lia)) as [S1 S2].
  split; [exact S1|split; [exact S2|apply store_dir_frame]].
Qed.
Lemma set_size_spec p id v rva size :
  dirs_ok p -> nrva p <= 16 -> dir_is p id (rva, size) -> id < nrva p ->
  exists p', set_directory_size p id v = Ok p' /\ dir_is p' id (rva, v) /\
  (forall j e, j <> id -> (dir_is p' j e <-> dir_is p j e)) /\ same_but_dirs p' p.
Proof.
  intros D N [H0 H1] H2. unfold set_directory_size.
  destruct (Z.leb_spec (nrva p) id); [lia|]. cbn [throw_if bind].
  rewrite (nth_ub_ok _ _ _ H1 H0). cbn [bind fst]. eexists; split; [reflexivity|].
  destruct (store_dir_is p id (rva, v) D ltac:(lia)) as [S1 S2].
  split; [exact S1|split; [exact S2|apply store_dir_frame]].
Qed.
Lemma directory_exists_spec p id :
  dirs_ok p -> 1 <= nrva p <= 16 -> 0 <= id ->
  exists b, directory_exists p id = Ok b /\
  (b = true <-> id < nrva p /\ exists d, dir_is p id d /\ fst d <> 0).
Proof.
  intros D N H0. unfold directory_exists. rewrite u32_small by lia.
  destruct (Z.leb_spec id (nrva p - 1)).
  - destruct (dirs_lookup p id D ltac:(lia)) as [d [E1 E2]]. rewrite E2. cbn [bind].
    eexists; split; [reflexivity|]. split.
    + intros Hb. split; [lia|]. exists d; split; [split; assumption|]. lia.
    + intros [_ [e [[_ He] Hne]]]. rewrite E1 in He; inversion He; subst. lia.
  - eexists; split; [reflexivity|]. split; [discriminate|lia].
Qed.
Lemma same_but_dirs_trans p q r : same_but_dirs p q -> same_but_dirs q r -> same_but_dirs p r.
Proof. unfold same_but_dirs; congruence. Qed.
Lemma remove_directory_spec p id :
  dirs_ok p -> 1 <= nrva p <= 16 -> 0 <= id ->
  exists p', remove_directory p id = Ok p' /\
  (directory_exists p id = Ok false -> p' = p) /\
  (directory_exists p id = Ok true ->
     dir_is p' id (0, 0) /\ (forall j e, j <> id -> (dir_is p' j e <-> dir_is p j e)) /\
     same_but_dirs (with_nt (fun h => set_h_dllchars (h_dllchars (p_nt p)) (set_h_chars (h_chars (p_nt p)) h)) p') p /\
     h_chars (p_nt p') =
       (if id =? dir_basereloc then Z.lor (h_chars (p_nt p)) image_file_relocs_stripped
        else if id =? dir_export then Z.land (h_chars (p_nt p)) (u16 (Z.lnot image_file_dll))
        else h_chars (p_nt p)) /\
     h_dllchars (p_nt p') =
       (if id =? dir_basereloc then Z.land (h_dllchars (p_nt p)) (u16 (Z.lnot image_dllcharacteristics_dynamic_base))
        else h_dllchars (p_nt p))).
Proof.
  intros D N H0. destruct (directory_exists_spec p id D N H0) as [b [Eb Hb]].
  unfold remove_directory. rewrite Eb. cbn [bind]. destruct b.
  - assert (Hid : id < nrva p) by (apply Hb; reflexivity).
    destruct (store_dir_is p id (0, 0) D ltac:(lia)) as [S1 S2].
    eexists; split; [reflexivity|]. split; [discriminate|]. intros _.
    destruct (id =? dir_basereloc).
    + split; [exact S1|]. split; [exact S2|].
      split; [unfold same_but_dirs, with_nt; destruct p as [? ? ? ? ? n]; destruct n; reflexivity|].
      split; reflexivity.
    + destruct (id =? dir_export).
      * split; [exact S1|]. split; [exact S2|].
        split; [unfold same_but_dirs, with_nt; destruct p as [? ? ? ? ? n]; destruct n; reflexivity|].
        split; reflexivity.
      * split; [exact S1|]. split; [exact S2|].
        split; [unfold same_but_dirs, with_nt; destruct p as [? ? ? ? ? n]; destruct n; reflexivity|].
        split; reflexivity.
  - eexists; split; [reflexivity|]. split; [reflexivity|discriminate].
Qed.

Lemma strip_loop_spec dirs k mc iat :
  (k <= length dirs)%nat ->
  exists r, strip_dirs_loop dirs k mc iat = Ok r /\ 0 <= r <= Z.of_nat k /\
  (forall i d, nth_error dirs i = Some d -> (i < k)%nat -> fst d <> 0 ->
     (Z.of_nat i = dir_iat -> iat = false) -> Z.of_nat i < r) /\
  Z.min (Z.of_nat k) (s32 mc - 1) <= r.
Proof.
  induction k as [|k IH]; intros Hk.
  - exists 0. cbn [strip_dirs_loop]. split; [reflexivity|]. split; [lia|]. split; [intros; lia|lia].
  - cbn [strip_dirs_loop].
    destruct (nth_error dirs k) as [d|] eqn:E; [|apply nth_error_None in E; lia].
    rewrite (nth_ub_ok dirs (Z.of_nat k) d) by (rewrite ?Nat2Z.id; try assumption; lia).
    cbn [bind].
    destruct (negb (fst d =? 0) && (negb (Z.of_nat k =? dir_iat) || negb iat)) eqn:C.
    + eexists; split; [reflexivity|]. split; [lia|]. split; [intros; lia|lia].
    + destruct (Z.leb_spec (Z.of_nat k) (s32 mc - 2)).
      * eexists; split; [reflexivity|]. split; [lia|]. split; [intros; lia|lia].
      * destruct (IH ltac:(lia)) as [r [E1 [E2 [E3 E4]]]].
        exists r. split; [assumption|]. split; [lia|]. split; [|lia].
        intros i d' Hi Hik Hnz Hiat.
        destruct (Nat.eq_dec i k) as [->|]; [|apply (E3 i d'); auto; lia].
        exfalso. rewrite E in Hi; inversion Hi; subst d'.
        destruct (Z.eqb_spec (fst d) 0); [congruence|]. cbn [negb andb] in C.
        destruct (Z.eqb_spec (Z.of_nat k) dir_iat) as [Ei|]; [|discriminate].
        rewrite (Hiat Ei) in C; discriminate.
Qed.
Lemma strip_data_directories_spec p mc iat :
  dirs_ok p -> 0 <= nrva p <= 16 -> 0 <= mc < 2^31 ->
  exists p' k, strip_data_directories p mc iat = Ok (p', k) /\ nrva p' = k /\ k <= nrva p /\
  (forall id d, dir_is p id d -> id < nrva p -> fst d <> 0 -> (id = dir_iat -> iat = false) -> id < k) /\
  Z.min (nrva p) (mc - 1) <= k /\
  p' = with_nt (set_h_nrva k) p.
Proof.
  intros [L F] N M. unfold strip_data_directories.
  destruct (Z.leb_spec (nrva p) 16); [|lia].
  destruct (strip_loop_spec (h_dirs (p_nt p)) (Z.to_nat (nrva p)) mc iat ltac:(lia)) as [r [E1 [E2 [E3 E4]]]].
  rewrite E1. cbn [bind].
  assert (S : s32 mc = mc).
  { unfold s32. rewrite u32_small by lia. destruct (Z.ltb_spec mc (2^31)); [reflexivity|lia]. }
  rewrite S in E4.
  assert (G : forall id d, dir_is p id d -> id < nrva p -> fst d <> 0 -> (id = dir_iat -> iat = false) -> id < r).
  { intros id d [H0 H1] H2 H3 H4. specialize (E3 _ _ H1 ltac:(lia) H3). lia. }
  unfold image_numberof_directory_entries.
  destruct (Z.eqb_spec r 16) as [->|].
  - exists p, 16. split; [reflexivity|].
    assert (nrva p = 16) by lia.
    split; [assumption|]. split; [lia|]. split; [exact G|]. split; [lia|].
    unfold nrva in *. destruct p as [? ? ? ? ? n]; destruct n; cbn in *; subst; reflexivity.
  - exists (set_number_of_rvas_and_sizes r p), r. split; [reflexivity|].
    split; [reflexivity|]. split; [lia|]. split; [exact G|]. split; [lia|reflexivity].
Qed.

(** ** VA / RVA (C09) *)
Lemma rva_to_va_32_spec p r :
  is_u32 (imagebase p) -> is_u32 r ->
  (imagebase p + r < 2^32 -> rva_to_va_32 p r = Ok (imagebase p + r)) /\
  (2^32 <= imagebase p + r -> rva_to_va_32 p r = Throw incorrect_address_conversion).
Proof.
  unfold is_u32; intros Hi Hr. unfold rva_to_va_32. rewrite (u32_small (imagebase p)) by lia.
  pose proof (is_sum_safe_spec r (imagebase p) ltac:(lia)) as S.
  destruct (is_sum_safe r (imagebase p)); split; intros H; cbn [negb throw_if bind].
  - rewrite u32_small by lia. f_equal; lia.
  - exfalso. assert (r + imagebase p < 2^32) by (apply S; reflexivity). lia.
  - exfalso. assert (false = true) by (apply S; lia). discriminate.
  - reflexivity.
Qed.
Lemma rva_to_va_64_spec p r : rva_to_va_64 p r = Ok (u64 (imagebase p + r)).
Proof. unfold rva_to_va_64. do 2 f_equal; lia. Qed.
Lemma u64_u32_sub v b r : is_u32 r -> v = u64 (b + r) -> u64 (v - b) = r.
Proof.
  unfold is_u32, u64; intros Hr ->. rewrite Zminus_mod_idemp_l.
  replace (b + r - b) with r by lia. apply Z.mod_small; lia.
Qed.
Lemma va_to_rva_spec p va r :
  is_u64 va -> is_u64 (imagebase p) ->
  (va_to_rva p va true = Ok r <-> is_u32 r /\ va = u64 (imagebase p + r)).
Proof.
  unfold is_u64, is_u32; intros Hv Hi. unfold va_to_rva, max_dword.
  pose proof (u64_range (va - imagebase p)) as R.
  assert (B : u64 (va - imagebase p) < 2^32 -> u32 (va - imagebase p) = u64 (va - imagebase p)).
  { intros. unfold u32, u64 in *.
    replace ((va - imagebase p) mod 2^32) with (((va - imagebase p) mod 2^64) mod 2^32).
    - apply Z.mod_small; lia.
    - rewrite <- Znumtheory.Zmod_div_mod; [reflexivity|lia|lia|exists (2^32); reflexivity]. }
  split.
  - intros H. destruct (Z.ltb_spec 4294967295 (u64 (va - imagebase p))) as [C|C]; [discriminate|].
    cbn [andb throw_if bind] in H. inversion H; subst; clear H.
    rewrite B by lia. split; [lia|].
    unfold u64. rewrite Zplus_mod_idemp_r. replace (imagebase p + (va - imagebase p)) with va by lia.
    symmetry; apply Z.mod_small; lia.
  - intros [Hr E]. pose proof (u64_u32_sub _ _ _ Hr E) as E2.
    rewrite E2 in *. destruct (Z.ltb_spec 4294967295 r) as [C|C]; [lia|].
    cbn [andb throw_if bind]. f_equal. rewrite B by lia. reflexivity.
Qed.
Lemma va_to_rva_throws p va :
  is_u64 va -> is_u64 (imagebase p) ->
  (forall r, is_u32 r -> va <> u64 (imagebase p + r)) ->
  va_to_rva p va true = Throw incorrect_address_conversion.
Proof.
  intros Hv Hi H. destruct (va_to_rva p va true) as [r|e|k|] eqn:E.
  - apply va_to_rva_spec in E; [|assumption|assumption]. destruct E as [E1 E2]. exfalso; eapply H; eassumption.
  - unfold va_to_rva in E. destruct (true && _); cbn in E; congruence.
  - unfold va_to_rva in E. destruct (true && _); cbn in E; congruence.
  - unfold va_to_rva in E. destruct (true && _); cbn in E; congruence.
Qed.
Lemma va_round_trip p r va b :
  is_u64 (imagebase p) -> is_u32 r ->
  rva_to_va_64 p r = Ok va -> va_to_rva p va b = Ok r.
Proof.
  intros Hi Hr E. rewrite rva_to_va_64_spec in E. inversion E; subst; clear E.
  assert (V : va_to_rva p (u64 (imagebase p + r)) true = Ok r).
  { apply va_to_rva_spec; [apply u64_range|assumption|]. split; [assumption|reflexivity]. }
  destruct b; [exact V|].
  unfold va_to_rva in *. destruct (true && _); cbn [throw_if bind andb] in *; [discriminate|exact V].
Qed.
Lemma va_round_trip_32 p r va b :
  is_u32 (imagebase p) -> is_u32 r ->
  rva_to_va_32 p r = Ok va -> va_to_rva p va b = Ok r.
Proof.
  intros Hi Hr E. destruct (rva_to_va_32_spec p r Hi Hr) as [S1 S2].
  unfold is_u32 in *.
  destruct (Z.lt_ge_cases (imagebase p + r) (2^32)) as [C|C]; [|rewrite S2 in E by lia; discriminate].
  apply (va_round_trip p r va b); [unfold is_u64; lia|assumption|].
  rewrite S1 in E by assumption. inversion E; subst. rewrite rva_to_va_64_spec.
  rewrite u64_small by lia. reflexivity.
Qed.
Lemma va_round_trip_back p va r :
  is_u64 va -> is_u64 (imagebase p) -> va_to_rva p va true = Ok r -> rva_to_va_64 p r = Ok va.
Proof.
  intros Hv Hi E. apply va_to_rva_spec in E; [|assumption|assumption]. destruct E as [_ ->]. apply rva_to_va_64_spec.
Qed.

(** ** Section lookup (C10) *)
Lemma aligned_vsize_span sa s :
  power_of_two sa -> sa < 2^32 -> is_u32 (s_vsize s) -> is_u32 (s_rawsize s) -> span sa s < 2^32 ->
  aligned_vsize sa s = span sa s.
Proof.
  unfold is_u32; intros P L Hv Hr Hs. unfold aligned_vsize, span in *.
  destruct (Z.eqb_spec (s_vsize s) 0) as [E|E].
  - destruct (Z.eqb_spec (s_rawsize s) 0) as [E2|E2]; cbn [negb andb].
    + rewrite E, E2 in *. apply align_up_small; auto; lia.
    + apply align_up_small; auto; lia.
  - rewrite andb_false_r. apply align_up_small; auto; lia.
Qed.
Lemma aligned_vsize_range sa s : is_u32 (s_vsize s) -> is_u32 (s_rawsize s) -> is_u32 (aligned_vsize sa s).
Proof. intros. unfold aligned_vsize. case_if C; apply align_up_range; assumption. Qed.
Lemma span_nonneg sa s : 0 < sa -> is_u32 (s_vsize s) -> is_u32 (s_rawsize s) -> 0 <= span sa s.
Proof.
  unfold is_u32; intros P Hv Hr. unfold span.
  pose proof (ceil_mult_least (if s_vsize s =? 0 then s_rawsize s else s_vsize s) sa P) as (_ & C & _).
  destruct (s_vsize s =? 0); lia.
Qed.
Lemma wf_ranges s : wf_section s -> is_u32 (s_vsize s) /\ is_u32 (s_va s) /\ is_u32 (s_rawsize s) /\ is_u32 (s_rawptr s).
Proof. unfold wf_section; tauto. Qed.
Lemma in_section_occupies sa s r :
  power_of_two sa -> sa < 2^32 -> wf_section s -> send sa s < 2^32 ->
  (in_section sa r s = true <-> occupies sa s r).
Proof.
  intros P L W Hs. destruct (wf_ranges s W) as (H1 & H2 & H3 & _).
  pose proof (span_nonneg sa s (pow2_pos _ P) H1 H3) as Hn.
  unfold in_section, occupies, send in *. unfold is_u32 in *.
  rewrite aligned_vsize_span by (auto; unfold is_u32; lia).
  rewrite u32_small by lia. rewrite andb_true_iff. lia.
Qed.
Lemma find_index_some {A} (f : A -> bool) l i :
  find_index f l = Some i -> exists x, nth_error l i = Some x /\ f x = true.
Proof.
  revert i; induction l as [|x t IH]; intros i; cbn [find_index]; [discriminate|].
  destruct (f x) eqn:E.
  - intros H; inversion H; subst. exists x; split; [reflexivity|assumption].
  - destruct (find_index f t) as [j|] eqn:E2; cbn [option_map]; [|discriminate].
    intros H; inversion H; subst. cbn [nth_error]. apply IH; reflexivity.
Qed.
Lemma find_index_none {A} (f : A -> bool) l :
  find_index f l = None <-> forall i x, nth_error l i = Some x -> f x = false.
Proof.
  induction l as [|x t IH]; cbn [find_index].
  - split; [intros _ [|i] y; discriminate|reflexivity].
  - destruct (f x) eqn:E.
    + split; [discriminate|]. intros H. specialize (H O x eq_refl). congruence.
    + destruct (find_index f t) as [j|] eqn:E2; cbn [option_map].
      * split; [discriminate|]. intros H. assert (Some j = None); [|discriminate].
        apply IH. intros i y Hi. apply (H (S i) y Hi).
      * split; [|reflexivity]. intros _ [|i] y Hi; cbn [nth_error] in Hi.
        -- congruence.
        -- apply (proj1 IH eq_refl i y Hi).
Qed.
Lemma find_index_first {A} (f : A -> bool) l i :
  find_index f l = Some i -> forall j x, (j < i)%nat -> nth_error l j = Some x -> f x = false.
Proof.
  revert i; induction l as [|y t IH]; intros i; cbn [find_index]; [discriminate|].
  destruct (f y) eqn:E.
  - intros H; inversion H; subst. lia.
  - destruct (find_index f t) as [k|] eqn:E2; cbn [option_map]; [|discriminate].
    intros H; inversion H; subst. intros [|j] x Hj Hx; cbn [nth_error] in Hx; [congruence|].
    apply (IH k eq_refl j x); [lia|assumption].
Qed.
Lemma section_from_rva_inv p rva i :
  section_from_rva p rva = Ok i -> exists s, nth_error (p_sections p) i = Some s /\ in_section (salign p) rva s = true.
Proof.
  unfold section_from_rva. destruct (find_index _ _) as [j|] eqn:E; [|discriminate].
  intros H; inversion H; subst. apply find_index_some in E. exact E.
Qed.
Lemma section_from_rva_safe p rva : safe (section_from_rva p rva).
Proof. unfold section_from_rva. destruct (find_index _ _); exact I. Qed.
Lemma get_section_ok p i s : nth_error (p_sections p) i = Some s -> get_section p i = Ok s.
Proof. unfold get_section; intros ->; reflexivity. Qed.
Lemma get_section_inv p i s : get_section p i = Ok s -> nth_error (p_sections p) i = Some s.
Proof. unfold get_section. destruct (nth_error _ i); [intros H; inversion H; reflexivity|discriminate]. Qed.
Lemma nth_Forall {A} (P : A -> Prop) l i x : Forall P l -> nth_error l i = Some x -> P x.
Proof. intros F H. rewrite Forall_forall in F. apply F. eapply nth_error_In; eassumption. Qed.
Lemma section_from_rva_spec p r i :
  spec_layout p ->
  (section_from_rva p r = Ok i <-> exists s, nth_error (p_sections p) i = Some s /\ occupies (salign p) s r).
Proof.
  intros ((P & _ & L) & W & Fs & D). split.
  - intros H. destruct (section_from_rva_inv _ _ _ H) as [s [Hs Hin]]. exists s; split; [assumption|].
    apply in_section_occupies in Hin; [assumption|assumption|lia| |].
    + exact (nth_Forall _ _ _ _ W Hs).
    + exact (nth_Forall _ _ _ _ Fs Hs).
  - intros [s [Hs Ho]]. unfold section_from_rva.
    assert (Hin : in_section (salign p) r s = true).
    { apply in_section_occupies; [assumption|lia| | |assumption].
      - exact (nth_Forall _ _ _ _ W Hs).
      - exact (nth_Forall _ _ _ _ Fs Hs). }
    destruct (find_index _ _) as [j|] eqn:E.
    + destruct (find_index_some _ _ _ E) as [t [Ht Htin]].
      apply in_section_occupies in Htin; [|assumption|lia| |].
      * f_equal. exact (D j i t s r Ht Hs Htin Ho).
      * exact (nth_Forall _ _ _ _ W Ht).
      * exact (nth_Forall _ _ _ _ Fs Ht).
    + exfalso. rewrite find_index_none in E. rewrite (E i s Hs) in Hin. discriminate.
Qed.
Lemma section_from_rva_throws p r :
  spec_layout p ->
  (section_from_rva p r = Throw no_section_found <->
   forall i s, nth_error (p_sections p) i = Some s -> ~ occupies (salign p) s r).
Proof.
  intros Lay. pose proof (section_from_rva_spec p r) as S. split.
  - intros H i s Hs Ho. assert (section_from_rva p r = Ok i) by (apply (S i Lay); exists s; split; assumption). congruence.
  - intros H. destruct (section_from_rva p r) as [i|e|k|] eqn:E.
    + destruct (proj1 (section_from_rva_spec p r i Lay) E) as [s [Hs Ho]]. exfalso; eapply H; eassumption.
    + unfold section_from_rva in E. destruct (find_index _ _); congruence.
    + unfold section_from_rva in E. destruct (find_index _ _); congruence.
    + unfold section_from_rva in E. destruct (find_index _ _); congruence.
Qed.
(** A contiguous section table has the layout property. *)
Lemma chain_lower sa start l :
  0 < sa -> Forall wf_section l -> chain sa start l ->
  Forall (fun s => start <= s_va s) l /\ start <= chain_end sa start l.
Proof.
  intros P W; revert start; induction W as [|s t Ws Wt IH]; intros start C; cbn [chain chain_end] in *.
  - split; [constructor|lia].
  - destruct C as [Hs C]. destruct (IH _ C) as [I1 I2].
    destruct (wf_ranges s Ws) as (H1 & H2 & H3 & _).
    pose proof (span_nonneg sa s P H1 H3). unfold send in *.
    split; [constructor; [lia|]|lia].
    eapply Forall_impl; [|exact I1]. cbn; intros; lia.
Qed.
Lemma chain_upper sa start l :
  0 < sa -> Forall wf_section l -> chain sa start l ->
  Forall (fun s => send sa s <= chain_end sa start l) l.
Proof.
  intros P W; revert start; induction W as [|s t Ws Wt IH]; intros start C; cbn [chain chain_end] in *; [constructor|].
  destruct C as [Hs C]. constructor.
  - apply (chain_lower sa _ t P Wt C).
  - apply IH; assumption.
Qed.
Lemma chain_disjoint sa start l :
  0 < sa -> Forall wf_section l -> chain sa start l -> disjoint_sections sa l.
Proof.
  intros P W; revert start; induction W as [|s t Ws Wt IH]; intros start C; cbn [chain] in *.
  - intros [|i] j a b r Ha; discriminate.
  - destruct C as [Hs C]. pose proof (chain_lower sa _ t P Wt C) as [L _].
    intros [|i] [|j] a b r Ha Hb Oa Ob; cbn [nth_error] in Ha, Hb.
    + reflexivity.
    + exfalso. inversion Ha; subst a. pose proof (nth_Forall _ _ _ _ L Hb) as Hl. cbn beta in Hl.
      unfold occupies in *. lia.
    + exfalso. inversion Hb; subst b. pose proof (nth_Forall _ _ _ _ L Ha) as Hl. cbn beta in Hl.
      unfold occupies in *. lia.
    + f_equal. exact (IH _ C i j a b r Ha Hb Oa Ob).
Qed.
Lemma chain_layout p start :
  good_align p -> Forall wf_section (p_sections p) -> chain (salign p) start (p_sections p) ->
  chain_end (salign p) start (p_sections p) < 2^32 -> spec_layout p.
Proof.
  intros G W C E. pose proof (pow2_pos _ (proj1 G)) as P.
  split; [assumption|]. split; [assumption|]. split.
  - eapply Forall_impl; [|exact (chain_upper _ _ _ P W C)]. cbn; intros; lia.
  - exact (chain_disjoint _ _ _ P W C).
Qed.

(** ** Typed reads (C12) *)
Lemma view_safe_rd l off n : 0 <= off -> 0 <= n -> off + n <= zlen l -> safe (rd l off n).
Proof. intros; rewrite rd_ok by assumption; exact I. Qed.
Lemma in_section_le sa rva s : in_section sa rva s = true -> s_va s <= rva.
Proof. unfold in_section; lia. Qed.
Lemma wf_in_list p i s : Forall wf_section (p_sections p) -> nth_error (p_sections p) i = Some s -> wf_section s.
Proof. apply nth_Forall. Qed.
Lemma read_in_section_safe p s rva n ty :
  wf_section s -> is_u32 rva -> 0 <= n -> safe (read_in_section p s rva n ty).
Proof.
  intros W Hr Hn. unfold read_in_section. destruct (in_section _ _ _) eqn:E; cbn [andb]; [|exact I].
  destruct (is_sum_safe _ _); [|exact I].
  apply in_section_le in E. destruct (wf_ranges s W) as (_ & H2 & _). unfold is_u32 in *.
  case_throw C; [exact I|].
  rewrite u32_small in C by lia. apply view_safe_rd; lia.
Qed.
Lemma read_rva_safe p rva n ty hdrs :
  Forall wf_section (p_sections p) -> is_u32 rva -> 0 <= n -> safe (read_rva p rva n ty hdrs).
Proof.
  intros W Hr Hn. unfold read_rva.
  destruct (hdrs && is_sum_safe rva n && (rva + n <? zlen (p_full p))) eqn:C.
  - unfold is_u32 in *. apply view_safe_rd; lia.
  - apply safe_bind; [apply section_from_rva_safe|]. intros i Hi.
    destruct (section_from_rva_inv _ _ _ Hi) as [s [Hs Hin]].
    rewrite (get_section_ok _ _ _ Hs). cbn [bind].
    pose proof (wf_in_list _ _ _ W Hs) as Ws. destruct (wf_ranges s Ws) as (_ & H2 & _).
    apply in_section_le in Hin. unfold is_u32 in *.
    case_throw C2; [exact I|].
    rewrite u32_small in C2 by lia. apply view_safe_rd; lia.
Qed.
Lemma view_contents p s ty :
  power_of_two (salign p) -> salign p < 2^32 -> wf_section s -> send (salign p) s < 2^32 -> s_old s = None ->
  view p s ty = contents p s ty.
Proof.
  intros P L W Hs Ho. destruct (wf_ranges s W) as (H1 & H2 & H3 & _).
  destruct ty; cbn [view contents].
  - apply raw_view_unmapped; assumption.
  - rewrite virt_view_unmapped by assumption.
    rewrite aligned_vsize_span; [reflexivity|assumption|assumption|assumption|assumption|].
    unfold send, is_u32 in *. lia.
Qed.
Lemma read_rva_exact p rva n ty hdrs bs :
  spec_layout p -> unmapped p -> is_u32 rva -> 0 <= n ->
  read_rva p rva n ty hdrs = Ok bs -> zlen bs = n /\ mapped_at p ty hdrs rva bs.
Proof.
  intros Lay U Hr Hn E. pose proof Lay as ((P & _ & L) & W & Fs & D). unfold read_rva in E.
  destruct (hdrs && is_sum_safe rva n && (rva + n <? zlen (p_full p))) eqn:C.
  - apply rd_inv in E as (E1 & E2 & E3 & ->).
    assert (Z : zlen (slice (p_full p) rva n) = n) by (apply zlen_slice; assumption).
    split; [exact Z|]. left. rewrite Z. destruct hdrs; [|discriminate]. repeat split; assumption.
  - apply bind_ok in E as [i [Ei E]].
    destruct (proj1 (section_from_rva_spec p rva i Lay) Ei) as [s [Hs Ho]].
    rewrite (get_section_ok _ _ _ Hs) in E. cbn [bind] in E.
    apply bind_ok in E as [u [_ E]]. apply rd_inv in E as (E1 & E2 & E3 & ->).
    assert (Z : zlen (slice (view p s ty) (rva - s_va s) n) = n) by (apply zlen_slice; assumption).
    split; [exact Z|]. right. exists i, s. rewrite Z.
    assert (V : view p s ty = contents p s ty).
    { apply view_contents; [assumption|lia|exact (nth_Forall _ _ _ _ W Hs)|exact (nth_Forall _ _ _ _ Fs Hs)|exact (nth_Forall _ _ _ _ U Hs)]. }
    rewrite V in *. repeat split; try assumption; apply Ho.
Qed.
(** The read succeeds whenever the section has the bytes. *)
Lemma read_rva_total p rva n ty i s :
  spec_layout p -> unmapped p -> is_u32 rva -> 0 <= n ->
  nth_error (p_sections p) i = Some s -> occupies (salign p) s rva ->
  rva - s_va s + n <= zlen (contents p s ty) ->
  read_rva p rva n ty false = Ok (slice (contents p s ty) (rva - s_va s) n).
Proof.
  intros Lay U Hr Hn Hs Ho Hl. pose proof Lay as ((P & _ & L) & W & Fs & D).
  unfold read_rva. cbn [andb].
  rewrite (proj2 (section_from_rva_spec p rva i Lay)) by (exists s; split; assumption).
  cbn [bind]. rewrite (get_section_ok _ _ _ Hs). cbn [bind].
  pose proof (nth_Forall _ _ _ _ W Hs) as Ws. destruct (wf_ranges s Ws) as (_ & H2 & _).
  assert (V : view p s ty = contents p s ty).
  { apply view_contents; [assumption|lia|assumption|exact (nth_Forall _ _ _ _ Fs Hs)|exact (nth_Forall _ _ _ _ U Hs)]. }
  rewrite V. unfold occupies, is_u32 in *. rewrite u32_small by lia.
  destruct (Z.ltb_spec (zlen (contents p s ty)) (rva - s_va s + n)); [lia|]. cbn [throw_if bind].
  apply rd_ok; lia.
Qed.

(** ** File offsets (C11) *)
Lemma has_raw_offset_spec s o : wf_section s -> s_rawptr s + s_rawsize s < 2^32 -> (has_raw_offset o s = true <-> in_file s o).
Proof.
  intros W H. destruct (wf_ranges s W) as (_ & _ & H3 & H4). unfold is_u32 in *.
  unfold has_raw_offset, in_file. rewrite u32_small by lia. lia.
Qed.
Lemma file_offset_to_section_spec p o i :
  Forall wf_section (p_sections p) -> file_layout p ->
  (file_offset_to_section p o = Ok i <-> exists s, nth_error (p_sections p) i = Some s /\ in_file s o).
Proof.
  intros W [F D]. unfold file_offset_to_section. split.
  - destruct (find_index _ _) as [j|] eqn:E; [|discriminate]. intros H; inversion H; subst j.
    destruct (find_index_some _ _ _ E) as [s [Hs Hb]]. exists s; split; [assumption|].
    apply has_raw_offset_spec in Hb; [assumption|exact (nth_Forall _ _ _ _ W Hs)|apply (nth_Forall _ _ _ _ F Hs)].
  - intros [s [Hs Ho]].
    assert (Hb : has_raw_offset o s = true) by (apply has_raw_offset_spec; [exact (nth_Forall _ _ _ _ W Hs)|apply (nth_Forall _ _ _ _ F Hs)|assumption]).
    destruct (find_index _ _) as [j|] eqn:E.
    + destruct (find_index_some _ _ _ E) as [t [Ht Hbt]].
      apply has_raw_offset_spec in Hbt; [|exact (nth_Forall _ _ _ _ W Ht)|apply (nth_Forall _ _ _ _ F Ht)].
      f_equal. exact (D j i t s o Ht Hs Hbt Ho).
    + exfalso. rewrite find_index_none in E. rewrite (E i s Hs) in Hb. discriminate.
Qed.
Lemma file_offset_to_section_throws p o :
  Forall wf_section (p_sections p) -> file_layout p ->
  (forall i s, nth_error (p_sections p) i = Some s -> ~ in_file s o) ->
  file_offset_to_section p o = Throw no_section_found.
Proof.
  intros W F H. destruct (file_offset_to_section p o) as [i|e|k|] eqn:E.
  - destruct (proj1 (file_offset_to_section_spec p o i W F) E) as [s [Hs Ho]]. exfalso; eapply H; eassumption.
  - unfold file_offset_to_section in E. destruct (find_index _ _); congruence.
  - unfold file_offset_to_section in E. destruct (find_index _ _); congruence.
  - unfold file_offset_to_section in E. destruct (find_index _ _); congruence.
Qed.
Lemma rva_file_round_trip p r i s :
  spec_layout p -> file_layout p -> is_u32 r -> hdrsize p <= r ->
  nth_error (p_sections p) i = Some s -> occupies (salign p) s r -> r - s_va s < s_rawsize s ->
  exists o, rva_to_file_offset p r = Ok o /\ o = s_rawptr s + (r - s_va s) /\ file_offset_to_rva p o = Ok r.
Proof.
  intros Lay FL Hr Hh Hs Ho Hb. pose proof Lay as (G & W & Fs & D). pose proof FL as [F FD].
  pose proof (nth_Forall _ _ _ _ W Hs) as Ws. destruct (wf_ranges s Ws) as (_ & H2 & H3 & H4).
  pose proof (nth_Forall _ _ _ _ F Hs) as [F1 F2]. cbn beta in F1, F2.
  exists (s_rawptr s + (r - s_va s)). unfold occupies, is_u32 in *. split; [|split; [reflexivity|]].
  - unfold rva_to_file_offset. destruct (Z.ltb_spec r (hdrsize p)); [lia|].
    rewrite (proj2 (section_from_rva_spec p r i Lay)) by (exists s; split; assumption).
    cbn [bind]. rewrite (get_section_ok _ _ _ Hs). cbn [bind]. rewrite u32_small by lia. f_equal; lia.
  - unfold file_offset_to_rva. specialize (F2 ltac:(lia)).
    destruct (Z.ltb_spec (s_rawptr s + (r - s_va s)) (hdrsize p)); [lia|].
    rewrite (proj2 (file_offset_to_section_spec p _ i W FL)).
    2: { exists s; split; [assumption|unfold in_file; lia]. }
    cbn [bind]. rewrite (get_section_ok _ _ _ Hs). cbn [bind].
    rewrite u32_small by lia. f_equal; lia.
Qed.
Lemma file_rva_round_trip p o i s :
  spec_layout p -> file_layout p -> is_u32 o -> hdrsize p <= o ->
  nth_error (p_sections p) i = Some s -> in_file s o -> o - s_rawptr s < span (salign p) s -> hdrsize p <= s_va s ->
  exists r, file_offset_to_rva p o = Ok r /\ r = s_va s + (o - s_rawptr s) /\ rva_to_file_offset p r = Ok o.
Proof.
  intros Lay FL Hr Hh Hs Ho Hb Hv. pose proof Lay as (G & W & Fs & D). pose proof FL as [F FD].
  pose proof (nth_Forall _ _ _ _ W Hs) as Ws. destruct (wf_ranges s Ws) as (_ & H2 & H3 & H4).
  pose proof (nth_Forall _ _ _ _ F Hs) as [F1 F2]. cbn beta in F1, F2.
  pose proof (nth_Forall _ _ _ _ Fs Hs) as Hsend. cbn beta in Hsend. unfold send in Hsend.
  exists (s_va s + (o - s_rawptr s)). unfold in_file, is_u32 in *. split; [|split; [reflexivity|]].
  - unfold file_offset_to_rva. destruct (Z.ltb_spec o (hdrsize p)); [lia|].
    rewrite (proj2 (file_offset_to_section_spec p _ i W FL)).
    2: { exists s; split; [assumption|unfold in_file; lia]. }
    cbn [bind]. rewrite (get_section_ok _ _ _ Hs). cbn [bind]. rewrite u32_small by lia. f_equal; lia.
  - unfold rva_to_file_offset. destruct (Z.ltb_spec (s_va s + (o - s_rawptr s)) (hdrsize p)); [lia|].
    rewrite (proj2 (section_from_rva_spec p _ i Lay)).
    2: { exists s; split; [assumption|unfold occupies, send; lia]. }
    cbn [bind]. rewrite (get_section_ok _ _ _ Hs). cbn [bind]. rewrite u32_small by lia. f_equal; lia.
Qed.
Lemma headers_offset p r : r < hdrsize p -> rva_to_file_offset p r = Ok r /\ file_offset_to_rva p r = Ok r.
Proof.
  intros H. unfold rva_to_file_offset, file_offset_to_rva. destruct (Z.ltb_spec r (hdrsize p)); [|lia]. split; reflexivity.
Qed.
Lemma rva_to_file_offset_throws p r :
  spec_layout p -> hdrsize p <= r ->
  (forall i s, nth_error (p_sections p) i = Some s -> ~ occupies (salign p) s r) ->
  rva_to_file_offset p r = Throw no_section_found.
Proof.
  intros Lay Hh H. unfold rva_to_file_offset. destruct (Z.ltb_spec r (hdrsize p)); [lia|].
  rewrite (proj2 (section_from_rva_throws p r Lay) H). reflexivity.
Qed.
Lemma file_offset_to_rva_throws p o :
  Forall wf_section (p_sections p) -> file_layout p -> hdrsize p <= o ->
  (forall i s, nth_error (p_sections p) i = Some s -> ~ in_file s o) ->
  file_offset_to_rva p o = Throw no_section_found.
Proof.
  intros W F Hh H. unfold file_offset_to_rva. destruct (Z.ltb_spec o (hdrsize p)); [lia|].
  rewrite (file_offset_to_section_throws p o W F H). reflexivity.
Qed.

(** ** Raw pointers (C13) *)
Lemma zlen_contents_virt p s : 0 < salign p -> wf_section s -> span (salign p) s <= zlen (contents p s VirtData).
Proof.
  intros P W. cbn [contents]. rewrite zlen_app, zlen_zeros_max. lia.
Qed.
Lemma ptr_rva_virt_inside p rva hdrs buf off :
  spec_layout p -> unmapped p -> is_u32 rva ->
  ptr_rva p rva VirtData hdrs = Ok (buf, off) -> 0 <= off < zlen buf.
Proof.
  intros Lay U Hr E. pose proof Lay as ((P & _ & L) & W & Fs & D). unfold ptr_rva in E.
  destruct (hdrs && (rva <? zlen (p_full p))) eqn:C.
  - inversion E; subst. unfold is_u32 in *. lia.
  - apply bind_ok in E as [i [Ei E]].
    destruct (proj1 (section_from_rva_spec p rva i Lay) Ei) as [s [Hs Ho]].
    rewrite (get_section_ok _ _ _ Hs) in E. cbn [bind] in E. inversion E; subst; clear E.
    change (virt_view (salign p) s) with (view p s VirtData).
    rewrite view_contents; [|assumption|lia|exact (nth_Forall _ _ _ _ W Hs)|exact (nth_Forall _ _ _ _ Fs Hs)|exact (nth_Forall _ _ _ _ U Hs)].
    pose proof (zlen_contents_virt p s (pow2_pos _ P) (nth_Forall _ _ _ _ W Hs)).
    unfold occupies, send in Ho. lia.
Qed.
Lemma ptr_rva_raw_inside p rva hdrs buf off :
  Forall wf_section (p_sections p) -> is_u32 rva ->
  (forall i s, nth_error (p_sections p) i = Some s -> aligned_vsize (salign p) s <= zlen (raw_view s)) ->
  ptr_rva p rva RawData hdrs = Ok (buf, off) \/ ptr_rva_mut p rva hdrs = Ok (buf, off) -> 0 <= off < zlen buf.
Proof.
  intros W Hr H E.
  assert (K : forall i s, nth_error (p_sections p) i = Some s -> in_section (salign p) rva s = true -> 0 <= rva - s_va s < zlen (raw_view s)).
  { intros i s Hs Hin. pose proof (H i s Hs) as H1. destruct (wf_ranges s (nth_Forall _ _ _ _ W Hs)) as (A1 & A2 & A3 & _).
    unfold in_section, is_u32 in *.
    assert (0 <= aligned_vsize (salign p) s).
    { apply aligned_vsize_range; assumption. }
    assert (u32 (s_va s + aligned_vsize (salign p) s) <= s_va s + aligned_vsize (salign p) s).
    { unfold u32. apply Z.mod_le; lia. }
    lia. }
  unfold ptr_rva, ptr_rva_mut in E.
  destruct (hdrs && (rva <? zlen (p_full p))) eqn:C.
  - unfold is_u32 in Hr. destruct E as [E|E]; inversion E; subst; lia.
  - destruct E as [E|E]; apply bind_ok in E as [i [Ei E]];
      destruct (section_from_rva_inv _ _ _ Ei) as [s [Hs Hin]];
      rewrite (get_section_ok _ _ _ Hs) in E; cbn [bind] in E.
    + inversion E; subst. cbn [view]. eapply K; eassumption.
    + apply bind_ok in E as [u [_ E]]. inversion E; subst. eapply K; eassumption.
Qed.
Lemma dirs_ok_nrva p n : dirs_ok p -> dirs_ok (set_number_of_rvas_and_sizes n p).
Proof. intros H; exact H. Qed.
