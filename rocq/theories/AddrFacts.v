(** Proofs about queries by address (C84). *)
From Verif Require Export LoadedRead SpecAddr.

Section Queries.
Context (p : pe) (Lay : spec_layout p) (Un : unmapped p).
Lemma at_facts i s rva : at_section p rva i s -> wf_section s /\ s_old s = None /\ send (salign p) s < 2^32 /\ s_va s <= rva < s_va s + span (salign p) s /\ 0 <= s_va s.
Proof.
  intros [N O]. destruct Lay as (_ & W & F & _). pose proof (nth_Forall _ _ _ _ W N) as Ws. split; [exact Ws|]. split; [exact (nth_Forall _ _ _ _ Un N)|]. split; [exact (nth_Forall _ _ _ _ F N)|]. split; [exact O|].
  destruct (wf_ranges s Ws) as (_ & V & _). apply V.
Qed.
Lemma size_data s ty : wf_section s -> s_old s = None -> send (salign p) s < 2^32 -> 0 <= s_va s -> data_length p s ty = data_size p s ty /\ 0 <= data_size p s ty.
Proof.
  intros W O S V. destruct Lay as ((P & _ & L) & _). destruct (wf_ranges s W) as (R1 & R2 & R3 & _). pose proof (pow2_pos _ P) as P0. pose proof (span_nonneg (salign p) s P0 R1 R3) as N. unfold send in S. destruct ty; cbn [data_length data_size].
  - rewrite raw_view_unmapped by exact O. split; [reflexivity|]. apply zlen_nonneg.
  - rewrite aligned_vsize_span; try assumption; lia.
Qed.
Lemma size_small s ty i rva : under_4g p -> at_section p rva i s -> data_length p s ty = data_size p s ty /\ 0 <= data_size p s ty < 2^32.
Proof.
  intros [_ F] A. destruct (at_facts i s rva A) as (W & O & S & R & V). destruct (size_data s ty W O S V) as [E N]. split; [exact E|]. split; [exact N|]. destruct ty; cbn [data_size]; [exact (nth_Forall _ _ _ _ F (proj1 A))|unfold send in S; lia].
Qed.
Lemma headers_dec hdrs rva : hdrs && (rva <? zlen (p_full p)) = true /\ in_headers p hdrs rva \/ hdrs && (rva <? zlen (p_full p)) = false /\ ~ in_headers p hdrs rva.
Proof.
  unfold in_headers. destruct hdrs; cbn [andb]; [|right; split; [reflexivity|intros [H _]; discriminate H]]. destruct (Z.ltb_spec rva (zlen (p_full p))) as [H|H]; [left; split; [reflexivity|split; [reflexivity|exact H]]|right; split; [reflexivity|intros [_ K]; lia]].
Qed.
Lemma found rva i : section_from_rva p rva = Ok i -> exists s, get_section p i = Ok s /\ at_section p rva i s.
Proof. intros H. apply section_from_rva_spec in H as (s & N & O); [|exact Lay]. exists s. split; [apply get_section_ok, N|split; assumption]. Qed.
Lemma find rva i s : at_section p rva i s -> section_from_rva p rva = Ok i /\ get_section p i = Ok s.
Proof. intros [N O]. split; [apply section_from_rva_spec; [exact Lay|exists s; split; assumption]|apply get_section_ok, N]. Qed.
Lemma total_exact rva ty hdrs n : under_4g p ->
  (length_rva_total p rva ty hdrs = Ok n <-> in_headers p hdrs rva /\ n = zlen (p_full p) \/ ~ in_headers p hdrs rva /\ exists i s, at_section p rva i s /\ n = data_size p s ty).
Proof.
  intros Sm. unfold length_rva_total. destruct (headers_dec hdrs rva) as [[-> H]|[-> H]].
  - rewrite u32_small by (pose proof (zlen_nonneg (p_full p)); destruct Sm; lia). split; [intros X; injection X as <-; left; split; [exact H|reflexivity]|]. intros [[_ ->]|[K _]]; [reflexivity|contradiction].
  - split.
    + intros X. bnd X i Ei. destruct (found _ _ Ei) as (s & G & A). rewrite G in X. cbn [bind] in X. injection X as <-. destruct (size_small s ty i rva Sm A) as [E B]. right. split; [exact H|]. exists i, s. split; [exact A|]. rewrite E. apply u32_small. lia.
    + intros [[K _]|[_ (i & s & A & ->)]]; [contradiction|]. destruct (find _ _ _ A) as [-> G]. cbn [bind]. rewrite G. cbn [bind]. destruct (size_small s ty i rva Sm A) as [-> B]. rewrite u32_small by lia. reflexivity.
Qed.
Lemma remaining_exact rva inside ty hdrs n : under_4g p -> 0 <= inside ->
  (length_rva p rva inside ty hdrs = Ok n <-> in_headers p hdrs rva /\ in_headers p hdrs inside /\ n = zlen (p_full p) - inside \/
     ~ (in_headers p hdrs rva /\ in_headers p hdrs inside) /\ exists i s, at_section p rva i s /\ s_va s <= inside /\ n = Z.max 0 (s_va s + data_size p s ty - inside)).
Proof.
  intros Sm Hi. unfold length_rva. destruct (headers_dec hdrs rva) as [[C1 H1]|[C1 H1]].
  1: rewrite C1; destruct (headers_dec hdrs inside) as [[C2 H2]|[C2 H2]].
  - assert (C3 : inside <? zlen (p_full p) = true) by (destruct H2; lia). rewrite C3. cbn [andb]. rewrite u32_small by (destruct Sm, H2; lia). split; [intros X; injection X as <-; left; split; [exact H1|split; [exact H2|reflexivity]]|]. intros [(_ & _ & ->)|[K _]]; [reflexivity|exfalso; apply K; split; assumption].
  - assert (C3 : inside <? zlen (p_full p) = false) by (destruct H1 as [-> _]; exact C2). rewrite C3. cbn [andb]. assert (H3 : ~ (in_headers p hdrs rva /\ in_headers p hdrs inside)) by tauto. clear C1 C2 C3. split.
    + intros X. bnd X i Ei. destruct (found _ _ Ei) as (s & G & A). rewrite G in X. cbn [bind] in X. thr X T. injection X as <-. right. split; [exact H3|]. exists i, s. split; [exact A|]. split; [lia|].
      destruct (size_small s ty i rva Sm A) as [-> B]. destruct (Z.ltb_spec (data_size p s ty + s_va s - inside) 0); [lia|]. rewrite u32_small by lia. lia.
    + intros [(_ & K & _)|[_ (i & s & A & L & ->)]]; [contradiction|]. destruct (find _ _ _ A) as [-> G]. cbn [bind]. rewrite G. cbn [bind]. replace (inside <? s_va s) with false by lia. cbn [throw_if bind].
      destruct (size_small s ty i rva Sm A) as [-> B]. f_equal. destruct (Z.ltb_spec (data_size p s ty + s_va s - inside) 0); [lia|]. rewrite u32_small by lia. lia.
  - rewrite C1. cbn [andb]. assert (H3 : ~ (in_headers p hdrs rva /\ in_headers p hdrs inside)) by tauto. clear C1. split.
    + intros X. bnd X i Ei. destruct (found _ _ Ei) as (s & G & A). rewrite G in X. cbn [bind] in X. thr X T. injection X as <-. right. split; [exact H3|]. exists i, s. split; [exact A|]. split; [lia|].
      destruct (size_small s ty i rva Sm A) as [-> B]. destruct (Z.ltb_spec (data_size p s ty + s_va s - inside) 0); [lia|]. rewrite u32_small by lia. lia.
    + intros [(K & _ & _)|[_ (i & s & A & L & ->)]]; [contradiction|]. destruct (find _ _ _ A) as [-> G]. cbn [bind]. rewrite G. cbn [bind]. replace (inside <? s_va s) with false by lia. cbn [throw_if bind].
      destruct (size_small s ty i rva Sm A) as [-> B]. f_equal. destruct (Z.ltb_spec (data_size p s ty + s_va s - inside) 0); [lia|]. rewrite u32_small by lia. lia.
Qed.
Lemma in_section_at i s rva : nth_error (p_sections p) i = Some s -> (in_section (salign p) rva s = true <-> at_section p rva i s).
Proof.
  intros N. destruct Lay as ((P & _ & L) & W & F & _). unfold at_section. rewrite (in_section_occupies (salign p) s rva P ltac:(lia) (nth_Forall _ _ _ _ W N) (nth_Forall _ _ _ _ F N)). tauto.
Qed.
Lemma in_section_exact i s inside ty n : nth_error (p_sections p) i = Some s -> data_size p s ty < 2^31 -> span (salign p) s <= 2^31 ->
  (length_in_section p s inside ty = Ok n <-> at_section p inside i s /\ n = Z.max 0 (s_va s + data_size p s ty - inside)).
Proof.
  intros N B B2. unfold length_in_section. pose proof (in_section_at i s inside N) as I. destruct (in_section (salign p) inside s).
  - destruct (at_facts i s inside (proj1 I eq_refl)) as (W & O & S & R & V). destruct (size_data s ty W O S V) as [-> Z]. unfold send in S.
    assert (E : s32 (data_size p s ty + s_va s - inside) = data_size p s ty + s_va s - inside).
    { unfold s32. unfold u32. destruct (Z.ltb_spec ((data_size p s ty + s_va s - inside) mod 2^32) (2^31)); lia. }
    rewrite E. split; [intros X; injection X as <-; split; [apply I; reflexivity|]|intros [_ ->]; f_equal]; destruct (Z.ltb_spec (data_size p s ty + s_va s - inside) 0); lia.
  - split; [discriminate|]. intros [A _]. apply I in A. discriminate A.
Qed.
(** Reading and the length agree. *)
Lemma enough rva n ty : under_4g p -> is_u32 rva -> 0 < n -> (ty = VirtData -> Forall (fun s => zlen (s_data s) <= span (salign p) s) (p_sections p)) ->
  ((exists bs, read_rva p rva n ty false = Ok bs) <-> exists len, length_rva p rva rva ty false = Ok len /\ n <= len).
Proof.
  intros Sm Hr Hn Hv. assert (C : forall i s, at_section p rva i s -> zlen (contents p s ty) = data_size p s ty).
  { intros i s A. destruct (at_facts i s rva A) as (W & O & S & R & V). destruct ty; cbn [contents data_size]; [reflexivity|]. pose proof (nth_Forall _ _ _ _ (Hv eq_refl) (proj1 A)) as B. cbv beta in B. rewrite zlen_app, zlen_zeros by lia. lia. }
  split.
  - intros [bs E]. destruct (read_rva_exact p rva n ty false bs Lay Un Hr ltac:(lia) E) as [L [(F & _)|(i & s & N & O & B & _)]]; [discriminate F|]. assert (A : at_section p rva i s) by (split; assumption).
    exists (Z.max 0 (s_va s + data_size p s ty - rva)). rewrite (C i s A) in B. split; [|lia]. apply remaining_exact; [exact Sm|apply Hr|]. right. split; [intros [[F _] _]; discriminate F|]. exists i, s. split; [exact A|]. split; [apply O|reflexivity].
  - intros (len & E & L). apply remaining_exact in E as [(F & _)|(_ & i & s & A & V & ->)]; [destruct F as [F _]; discriminate F| |exact Sm|apply Hr]. eexists. eapply (read_rva_total p rva n ty i s Lay Un Hr ltac:(lia) (proj1 A) (proj2 A)). rewrite (C i s A). lia.
Qed.
Lemma offset_exact rva off i : section_and_offset p rva = Ok (off, i) <-> exists s, at_section p rva i s /\ off = rva - s_va s.
Proof.
  unfold section_and_offset. split.
  - intros X. bnd X j Ej. destruct (found _ _ Ej) as (s & G & A). rewrite G in X. cbn [bind] in X. injection X as <- <-. exists s. split; [exact A|]. destruct (at_facts j s rva A) as (_ & _ & S & R & V). unfold send in S. apply u32_small. lia.
  - intros (s & A & ->). destruct (find _ _ _ A) as [-> G]. cbn [bind]. rewrite G. cbn [bind]. destruct (at_facts i s rva A) as (_ & _ & S & R & V). unfold send in S. rewrite u32_small by lia. reflexivity.
Qed.
Lemma view_at i s rva ty : at_section p rva i s -> view p s ty = contents p s ty.
Proof. intros A. destruct (at_facts i s rva A) as (W & O & S & R & V). destruct Lay as ((P & _ & L) & _). apply view_contents; try assumption. lia. Qed.
Lemma pointer_exact rva ty hdrs buf off :
  ptr_rva p rva ty hdrs = Ok (buf, off) <-> in_headers p hdrs rva /\ buf = p_full p /\ off = rva \/ ~ in_headers p hdrs rva /\ exists i s, at_section p rva i s /\ buf = contents p s ty /\ off = rva - s_va s.
Proof.
  unfold ptr_rva. destruct (headers_dec hdrs rva) as [[-> H]|[-> H]].
  - split; [intros X; injection X as <- <-; left; split; [exact H|split; reflexivity]|]. intros [(_ & -> & ->)|[K _]]; [reflexivity|contradiction].
  - split.
    + intros X. bnd X i Ei. destruct (found _ _ Ei) as (s & G & A). rewrite G in X. cbn [bind] in X. injection X as <- <-. right. split; [exact H|]. exists i, s. split; [exact A|]. split; [exact (view_at i s rva ty A)|reflexivity].
    + intros [(K & _)|[_ (i & s & A & -> & ->)]]; [contradiction|]. destruct (find _ _ _ A) as [-> G]. cbn [bind]. rewrite G. cbn [bind]. rewrite (view_at i s rva ty A). reflexivity.
Qed.
Lemma writable_exact rva hdrs buf off :
  ptr_rva_mut p rva hdrs = Ok (buf, off) <-> in_headers p hdrs rva /\ buf = p_full p /\ off = rva \/
    ~ in_headers p hdrs rva /\ exists i s, at_section p rva i s /\ buf = s_data s /\ s_data s <> [] /\ off = rva - s_va s.
Proof.
  unfold ptr_rva_mut. destruct (headers_dec hdrs rva) as [[-> H]|[-> H]].
  - split; [intros X; injection X as <- <-; left; split; [exact H|split; reflexivity]|]. intros [(_ & -> & ->)|[K _]]; [reflexivity|contradiction].
  - assert (Z : forall s : section, zlen (s_data s) =? 0 = true <-> s_data s = []) by (intros s; destruct (s_data s); cbn; [split; reflexivity|split; intros X; [rewrite zlen_cons in X; pose proof (zlen_nonneg l); lia|discriminate X]]).
    split.
    + intros X. bnd X i Ei. destruct (found _ _ Ei) as (s & G & A). rewrite G in X. cbn [bind] in X. thr X T. injection X as <- <-. pose proof (view_at i s rva RawData A) as V. cbn [view contents] in V. rewrite V in *. right. split; [exact H|]. exists i, s. split; [exact A|]. split; [reflexivity|]. split; [intros E; apply Z in E; congruence|reflexivity].
    + intros [(K & _)|[_ (i & s & A & -> & N & ->)]]; [contradiction|]. destruct (find _ _ _ A) as [-> G]. cbn [bind]. rewrite G. cbn [bind]. pose proof (view_at i s rva RawData A) as V. cbn [view contents] in V. rewrite V. destruct (zlen (s_data s) =? 0) eqn:E; [apply Z in E; contradiction|]. reflexivity.
Qed.
End Queries.
(** Virtual addresses. *)
Lemma by_va {A} p (f : Z -> res A) : is_u64 (imagebase p) ->
  (forall r, is_u32 r -> (rva <- va_to_rva p (va_of p r) true ;; f rva) = f r) /\
  (forall va, is_u64 va -> (forall r, is_u32 r -> va <> va_of p r) -> (rva <- va_to_rva p va true ;; f rva) = Throw incorrect_address_conversion).
Proof.
  intros B. split.
  - intros r Hr. assert (U : is_u64 (va_of p r)) by (unfold va_of, u64, is_u64; lia). rewrite (proj2 (va_to_rva_spec p (va_of p r) r U B) (conj Hr eq_refl)). reflexivity.
  - intros va Hv N. rewrite (va_to_rva_throws p va Hv B N). reflexivity.
Qed.
Lemma all_by_va p : is_u64 (imagebase p) ->
  (forall r, is_u32 r -> section_from_va p (va_of p r) = section_from_rva p r /\
     (forall ty hdrs, length_va_total p (va_of p r) ty hdrs = length_rva_total p r ty hdrs /\ ptr_va p (va_of p r) ty hdrs = ptr_rva p r ty hdrs) /\
     (forall s ty, length_va_in_section p s (va_of p r) ty = length_in_section p s r ty /\ ptr_va_in_section p s (va_of p r) ty = ptr_in_section p s r ty) /\
     (forall hdrs, ptr_va_mut p (va_of p r) hdrs = ptr_rva_mut p r hdrs) /\ (forall s, ptr_va_in_section_mut p s (va_of p r) = ptr_in_section_mut p s r) /\
     (forall n ty hdrs, read_va p (va_of p r) n ty hdrs = read_rva p r n ty hdrs) /\ (forall s n ty, read_va_in_section p s (va_of p r) n ty = read_in_section p s r n ty) /\
     (forall r2 ty hdrs, is_u32 r2 -> length_va p (va_of p r) (va_of p r2) ty hdrs = length_rva p r r2 ty hdrs)) /\
  (forall va, is_u64 va -> (forall r, is_u32 r -> va <> va_of p r) -> section_from_va p va = Throw incorrect_address_conversion /\
     (forall ty hdrs, length_va_total p va ty hdrs = Throw incorrect_address_conversion /\ ptr_va p va ty hdrs = Throw incorrect_address_conversion) /\
     (forall s ty, length_va_in_section p s va ty = Throw incorrect_address_conversion /\ ptr_va_in_section p s va ty = Throw incorrect_address_conversion) /\
     (forall hdrs, ptr_va_mut p va hdrs = Throw incorrect_address_conversion) /\ (forall s, ptr_va_in_section_mut p s va = Throw incorrect_address_conversion) /\
     (forall n ty hdrs, read_va p va n ty hdrs = Throw incorrect_address_conversion) /\ (forall s n ty, read_va_in_section p s va n ty = Throw incorrect_address_conversion) /\
     (forall va2 ty hdrs, length_va p va va2 ty hdrs = Throw incorrect_address_conversion) /\
     (forall r ty hdrs, is_u32 r -> length_va p (va_of p r) va ty hdrs = Throw incorrect_address_conversion)).
Proof.
  intros B. assert (Y : forall A (f : Z -> res A) r, is_u32 r -> (rva <- va_to_rva p (va_of p r) true ;; f rva) = f r) by (intros A f; exact (proj1 (by_va p f B))).
  assert (X : forall A (f : Z -> res A) va, is_u64 va -> (forall r, is_u32 r -> va <> va_of p r) -> (rva <- va_to_rva p va true ;; f rva) = Throw incorrect_address_conversion) by (intros A f; exact (proj2 (by_va p f B))).
  split.
  - intros r Hr. split; [exact (Y _ _ r Hr)|]. split; [intros ty hdrs; split; [exact (Y _ (fun x => length_rva_total p x ty hdrs) r Hr)|exact (Y _ (fun x => ptr_rva p x ty hdrs) r Hr)]|].
    split; [intros s ty; split; [exact (Y _ (fun x => length_in_section p s x ty) r Hr)|exact (Y _ (fun x => ptr_in_section p s x ty) r Hr)]|].
    split; [intros hdrs; exact (Y _ (fun x => ptr_rva_mut p x hdrs) r Hr)|]. split; [intros s; exact (Y _ (fun x => ptr_in_section_mut p s x) r Hr)|].
    split; [intros n ty hdrs; exact (Y _ (fun x => read_rva p x n ty hdrs) r Hr)|]. split; [intros s n ty; exact (Y _ (fun x => read_in_section p s x n ty) r Hr)|].
    intros r2 ty hdrs H2. unfold length_va. rewrite (Y _ (fun a => b <- va_to_rva p (va_of p r2) true ;; length_rva p a b ty hdrs) r Hr). exact (Y _ (fun x => length_rva p r x ty hdrs) r2 H2).
  - intros va Hv N. split; [exact (X _ _ va Hv N)|]. split; [intros ty hdrs; split; [exact (X _ (fun x => length_rva_total p x ty hdrs) va Hv N)|exact (X _ (fun x => ptr_rva p x ty hdrs) va Hv N)]|].
    split; [intros s ty; split; [exact (X _ (fun x => length_in_section p s x ty) va Hv N)|exact (X _ (fun x => ptr_in_section p s x ty) va Hv N)]|].
    split; [intros hdrs; exact (X _ (fun x => ptr_rva_mut p x hdrs) va Hv N)|]. split; [intros s; exact (X _ (fun x => ptr_in_section_mut p s x) va Hv N)|].
    split; [intros n ty hdrs; exact (X _ (fun x => read_rva p x n ty hdrs) va Hv N)|]. split; [intros s n ty; exact (X _ (fun x => read_in_section p s x n ty) va Hv N)|].
    split; [intros va2 ty hdrs; exact (X _ (fun a => b <- va_to_rva p va2 true ;; length_rva p a b ty hdrs) va Hv N)|].
    intros r ty hdrs Hr. unfold length_va. rewrite (Y _ (fun a => b <- va_to_rva p va true ;; length_rva p a b ty hdrs) r Hr). exact (X _ (fun x => length_rva p r x ty hdrs) va Hv N).
Qed.
