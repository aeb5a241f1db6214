(** Lemmas on rebasing. *)
From Verif Require Export RelocFacts.

Definition buf (p : pe) (l : option nat) : list Z :=
  match l with None => p_full p | Some i => match nth_error (p_sections p) i with Some s => raw_view s | None => [] end end.
Definition setbuf (p : pe) (l : option nat) (d : list Z) : pe :=
  match l with
  | None => set_p_full d p
  | Some i => match nth_error (p_sections p) i with Some s => put_section p i (set_s_data d (unmap_virtual s)) | None => p end
  end.
Definition located (p : pe) (r n : Z) (lo : option nat * Z) : Prop :=
  match fst lo with
  | None => snd lo = r /\ 0 <= r /\ r + n < zlen (p_full p)
  | Some i => zlen (p_full p) <= r /\ exists s, nth_error (p_sections p) i = Some s /\ occupies (salign p) s r /\ snd lo = r - s_va s /\ r - s_va s + n <= zlen (raw_view s)
  end.
Lemma stored_located p r bs : stored_at p r bs <-> exists lo, located p r (zlen bs) lo /\ slice (buf p (fst lo)) (snd lo) (zlen bs) = bs.
Proof.
  split.
  - intros [(A & B & C)|(A & i & s & Hs & Oc & L & E)].
    + exists (None, r). unfold located. cbn [fst snd buf]. tauto.
    + exists (Some i, r - s_va s). unfold located. cbn [fst snd buf]. rewrite Hs. split; [|exact E]. split; [exact A|]. exists s. tauto.
  - intros ([[i|] o] & H & E); unfold located in H; cbn [fst snd buf] in *.
    + destruct H as (A & s & Hs & Oc & -> & L). rewrite Hs in E. right. split; [exact A|]. exists i, s. tauto.
    + destruct H as (-> & A & B). left. tauto.
Qed.
Lemma located_unique p r n m lo lo' : spec_layout p -> 0 <= n -> 0 <= m -> located p r n lo -> located p r m lo' -> lo = lo'.
Proof.
  intros (_ & _ & _ & D) Hn Hm. destruct lo as [[i|] o], lo' as [[j|] o']; unfold located; cbn [fst snd]; try lia.
  - intros (A & s & Hs & Oc & -> & L) (A' & s' & Hs' & Oc' & -> & L').
    assert (i = j) by exact (D _ _ _ _ _ Hs Hs' Oc Oc'). subst j. rewrite Hs in Hs'. inversion Hs'; subst. reflexivity.
  - intros (-> & _) (-> & _). reflexivity.
Qed.
Lemma raw_view_opened d s : raw_view (set_s_data d (unmap_virtual s)) = d.
Proof. apply (opened_fields s d). Qed.
Lemma buf_set_same p l d : (l = None \/ exists i s, l = Some i /\ nth_error (p_sections p) i = Some s) -> buf (setbuf p l d) l = d.
Proof.
  intros [->|(i & s & -> & Hs)]; [reflexivity|]. cbn [setbuf buf]. rewrite Hs, put_get by apply (nth_lt _ _ _ Hs). apply raw_view_opened.
Qed.
Lemma buf_set_other p l l' d : l <> l' -> buf (setbuf p l d) l' = buf p l'.
Proof.
  intros N. destruct l as [i|], l' as [j|]; try congruence; cbn [setbuf buf]; try reflexivity.
  - destruct (nth_error (p_sections p) i) as [s|] eqn:E; [|reflexivity]. cbn [put_section set_p_sections p_sections].
    rewrite nth_error_upd_other by congruence. reflexivity.
  - destruct (nth_error (p_sections p) i); reflexivity.
Qed.
(** What [setbuf] keeps. *)
Definition kept (p p' : pe) : Prop :=
  salign p' = salign p /\ falign p' = falign p /\ p_plus p' = p_plus p /\ imagebase p' = imagebase p /\
  zlen (p_full p') = zlen (p_full p) /\ length (p_sections p') = length (p_sections p) /\
  forall i, match nth_error (p_sections p) i, nth_error (p_sections p') i with
            | Some s, Some t => s_va t = s_va s /\ s_vsize t = s_vsize s /\ s_rawsize t = s_rawsize s /\ zlen (raw_view t) = zlen (raw_view s)
            | None, None => True | _, _ => False end.
Definition header_of (s : section) : section := set_s_data [] (set_s_old None s).
Definition kept2 (p p' : pe) : Prop :=
  set_p_full [] (set_p_sections [] p') = set_p_full [] (set_p_sections [] p) /\
  map header_of (p_sections p') = map header_of (p_sections p) /\ (unmapped p -> unmapped p').
Lemma kept2_refl p : kept2 p p.
Proof. repeat split; tauto. Qed.
Lemma kept2_trans p q r : kept2 p q -> kept2 q r -> kept2 p r.
Proof. intros (A & B & C) (A' & B' & C'). split; [congruence|]. split; [congruence|tauto]. Qed.
Lemma map_upd {A B} (f : A -> B) l i x : map f (upd l i x) = upd (map f l) i (f x).
Proof. revert i; induction l as [|h l IH]; intros [|i]; cbn [upd map]; try reflexivity. rewrite IH. reflexivity. Qed.
Lemma kept2_setbuf p l d : kept2 p (setbuf p l d).
Proof.
  destruct l as [i|]; cbn [setbuf]; [|repeat split; tauto]. destruct (nth_error (p_sections p) i) as [s|] eqn:E; [|apply kept2_refl].
  split; [reflexivity|]. split.
  - cbn [put_section set_p_sections p_sections]. rewrite map_upd. apply upd_nth_same. rewrite nth_error_map, E. cbn [option_map]. f_equal.
    unfold header_of, unmap_virtual. destruct (s_old s); reflexivity.
  - unfold unmapped. intros U. cbn [put_section set_p_sections p_sections]. apply Forall_upd; [exact U|]. cbn [set_s_data s_old]. apply unmap_old.
Qed.
Lemma kept_refl p : kept p p.
Proof. repeat (split; [reflexivity|]). intros i. destruct (nth_error _ _); tauto. Qed.
Lemma kept_trans p q r : kept p q -> kept q r -> kept p r.
Proof.
  intros (A1 & A2 & A3 & A4 & A5 & A6 & A7) (B1 & B2 & B3 & B4 & B5 & B6 & B7). unfold kept. repeat (split; [congruence|]).
  intros i. specialize (A7 i). specialize (B7 i). destruct (nth_error (p_sections p) i), (nth_error (p_sections q) i), (nth_error (p_sections r) i); try contradiction; try exact I.
  intuition congruence.
Qed.
Lemma kept_setbuf p l d : zlen d = zlen (buf p l) -> kept p (setbuf p l d).
Proof.
  intros L. destruct l as [i|]; cbn [setbuf buf] in *.
  - destruct (nth_error (p_sections p) i) as [s|] eqn:E; [|apply kept_refl]. repeat (split; [reflexivity|]).
    split; [cbn [put_section set_p_sections p_sections]; apply upd_length|]. intros j. cbn [put_section set_p_sections p_sections].
    destruct (Nat.eq_dec i j) as [<-|Nj].
    + rewrite E, nth_error_upd_same by apply (nth_lt _ _ _ E). rewrite raw_view_opened.
      destruct (unmap_fields s) as (_ & F2 & F3 & F4 & _). cbn [set_s_data s_va s_vsize s_rawsize]. tauto.
    + rewrite nth_error_upd_other by exact Nj. destruct (nth_error (p_sections p) j); tauto.
  - repeat (split; [reflexivity|]). split; [exact L|]. split; [reflexivity|]. intros j. change (p_sections (set_p_full d p)) with (p_sections p). destruct (nth_error (p_sections p) j); tauto.
Qed.
Lemma kept_span p p' i s t : kept p p' -> nth_error (p_sections p) i = Some s -> nth_error (p_sections p') i = Some t -> span (salign p') t = span (salign p) s /\ s_va t = s_va s /\ zlen (raw_view t) = zlen (raw_view s).
Proof.
  intros (A1 & _ & _ & _ & _ & _ & A7) Hs Ht. specialize (A7 i). rewrite Hs, Ht in A7. destruct A7 as (E1 & E2 & E3 & E4).
  unfold span. rewrite A1, E2, E3. tauto.
Qed.
Lemma kept_located p p' r n lo : kept p p' -> located p r n lo -> located p' r n lo.
Proof.
  intros K H. destruct lo as [[i|] o]; unfold located in *; cbn [fst snd] in *.
  - destruct H as (A & s & Hs & Oc & E & L). pose proof K as (K1 & _ & _ & _ & K5 & _ & K7). specialize (K7 i). rewrite Hs in K7.
    destruct (nth_error (p_sections p') i) as [t|] eqn:Ht; [|contradiction]. destruct (kept_span p p' i s t K Hs Ht) as (F1 & F2 & F3).
    split; [lia|]. exists t. split; [reflexivity|]. unfold occupies, send in *. rewrite F1, F2, F3. tauto.
  - pose proof K as (_ & _ & _ & _ & K5 & _). rewrite K5. exact H.
Qed.
Lemma kept_sym p p' : kept p p' -> kept p' p.
Proof.
  intros (A1 & A2 & A3 & A4 & A5 & A6 & A7). unfold kept. repeat (split; [congruence|]). intros i. specialize (A7 i).
  destruct (nth_error (p_sections p) i), (nth_error (p_sections p') i); try contradiction; try exact I. intuition congruence.
Qed.
Lemma layout_setbuf p l d : spec_layout p -> zlen d = zlen (buf p l) -> bytes d -> spec_layout (setbuf p l d).
Proof.
  intros Lay L B. pose proof (kept_setbuf p l d L) as K. pose proof Lay as (G & W & F & D).
  assert (W' : Forall wf_section (p_sections (setbuf p l d))).
  { destruct l as [i|]; cbn [setbuf buf] in *; [|exact W]. destruct (nth_error (p_sections p) i) as [s|] eqn:E; [|exact W].
    cbn [put_section set_p_sections p_sections]. apply Forall_upd; [exact W|]. pose proof (nth_Forall _ _ _ _ W E) as Ws.
    apply (opened_wf s d Ws B). rewrite L. pose proof Ws as Ws2. apply wf_unmap in Ws2. unfold raw_view. unfold wf_section in Ws2. tauto. }
  split; [destruct l as [i|]; cbn [setbuf]; [destruct (nth_error (p_sections p) i); exact G|exact G]|]. split; [exact W'|].
  assert (Key : forall i t, nth_error (p_sections (setbuf p l d)) i = Some t -> exists s, nth_error (p_sections p) i = Some s /\ span (salign (setbuf p l d)) t = span (salign p) s /\ s_va t = s_va s).
  { intros i t Ht. pose proof (kept_sym _ _ K) as (_ & _ & _ & _ & _ & _ & K7). specialize (K7 i). rewrite Ht in K7. destruct (nth_error (p_sections p) i) as [s|] eqn:Hs; [|contradiction].
    exists s. split; [reflexivity|]. destruct (kept_span p _ i s t K Hs Ht) as (F1 & F2 & _). tauto. }
  split.
  - apply Forall_forall. intros t Ht. apply In_nth_error in Ht as [i Ht]. destruct (Key i t Ht) as (s & Hs & E1 & E2). unfold send. rewrite E1, E2. exact (nth_Forall _ _ _ _ F Hs).
  - intros i j s t r Hs Ht Os Ot. destruct (Key i s Hs) as (s' & Hs' & E1 & E2). destruct (Key j t Ht) as (t' & Ht' & E3 & E4).
    unfold occupies, send in *. rewrite E1, E2 in Os. rewrite E3, E4 in Ot. exact (D i j s' t' r Hs' Ht' Os Ot).
Qed.
Definition upd_word (delta : Z) (p : pe) (lo : option nat * Z) : pe :=
  let b := buf p (fst lo) in
  let w := Z.of_nat (base_size p) in
  setbuf p (fst lo) (splice b (snd lo) (le (base_size p) ((unle (slice b (snd lo) w) + delta) mod base_mod p))).
Lemma located_bounds p r n lo : 0 <= n -> located p r n lo -> 0 <= snd lo /\ snd lo + n <= zlen (buf p (fst lo)) /\
  (fst lo = None \/ exists i s, fst lo = Some i /\ nth_error (p_sections p) i = Some s).
Proof.
  intros Hn H. destruct lo as [[i|] o]; unfold located in H; cbn [fst snd buf] in *.
  - destruct H as (A & s & Hs & Oc & -> & L). rewrite Hs. unfold occupies in Oc. split; [lia|]. split; [lia|]. right. eauto.
  - destruct H as (-> & A & B). split; [lia|]. split; [lia|]. tauto.
Qed.
Lemma base_size_pos p : 0 < Z.of_nat (base_size p) <= 8.
Proof. unfold base_size. destruct (p_plus p); lia. Qed.
Lemma rebase_word_ok delta p r lo : spec_layout p -> zlen (p_full p) < 2^32 -> 0 <= r < 2^32 -> located p r (Z.of_nat (base_size p)) lo ->
  rebase_word delta p r = Ok (upd_word delta p lo).
Proof.
  intros Lay Fl U H. pose proof (base_size_pos p) as Bp. set (w := Z.of_nat (base_size p)) in *. destruct (located_bounds p r w lo ltac:(lia) H) as (B1 & B2 & _).
  unfold rebase_word, upd_word. fold w. destruct lo as [[i|] o]; unfold located in H; cbn [fst snd buf setbuf] in *.
  - destruct H as (A & s & Hs & Oc & -> & L). rewrite Hs in *.
    assert (Sf : section_from_rva p r = Ok i) by (apply section_from_rva_spec; [exact Lay|exists s; tauto]).
    assert (Rd : read_rva p r w RawData true = Ok (slice (raw_view s) (r - s_va s) w)).
    { unfold read_rva. replace (true && is_sum_safe r w && (r + w <? zlen (p_full p))) with false by (destruct (is_sum_safe r w); lia).
      rewrite Sf. cbn [bind]. rewrite (get_section_ok _ _ _ Hs). cbn [bind view]. unfold occupies in Oc.
      destruct Lay as (_ & W & _). destruct (wf_ranges _ (nth_Forall _ _ _ _ W Hs)) as (_ & R2 & _). unfold is_u32 in R2.
      rewrite u32_small by lia. replace (zlen (raw_view s) <? r - s_va s + w) with false by lia. cbn [throw_if bind]. apply rd_ok; lia. }
    rewrite Rd. cbn [bind]. unfold poke. replace (r <? zlen (p_full p)) with false by lia. rewrite Sf. cbn [bind]. rewrite (get_section_ok _ _ _ Hs). cbn [bind].
    fold (raw_view s). replace (zlen (raw_view s) =? 0) with false by lia. cbn [throw_if bind]. rewrite wr_ok by (rewrite ?zlen_le; lia). reflexivity.
  - destruct H as (-> & A & B).
    assert (Rd : read_rva p r w RawData true = Ok (slice (p_full p) r w)).
    { unfold read_rva. replace (true && is_sum_safe r w && (r + w <? zlen (p_full p))) with (is_sum_safe r w) by (destruct (is_sum_safe r w); lia).
      rewrite (proj2 (is_sum_safe_spec r w ltac:(lia))) by lia. apply rd_ok; lia. }
    rewrite Rd. cbn [bind]. unfold poke. replace (r <? zlen (p_full p)) with true by lia. rewrite wr_ok by (rewrite ?zlen_le; lia). reflexivity.
Qed.

Lemma nth_error_ext_map {A} (l m : list A) : (forall i, nth_error l i = nth_error m i) -> l = m.
Proof.
  revert m; induction l as [|a l IH]; intros [|b m] H; try reflexivity; try (specialize (H 0%nat); discriminate).
  pose proof (H 0%nat) as H0. cbn in H0. inversion H0; subst. f_equal. apply IH. intros i. apply (H (S i)).
Qed.
(** ** Many words *)
Lemma upd_word_props delta p r lo : located p r (Z.of_nat (base_size p)) lo -> spec_layout p -> bytes (p_full p) ->
  let q := upd_word delta p lo in kept p q /\ spec_layout q /\ bytes (p_full q) /\ kept2 p q.
Proof.
  intros H Lay Bf. pose proof (base_size_pos p) as Bp. destruct (located_bounds p r (Z.of_nat (base_size p)) lo ltac:(lia) H) as (B1 & B2 & B3).
  set (nw := le (base_size p) ((unle (slice (buf p (fst lo)) (snd lo) (Z.of_nat (base_size p))) + delta) mod base_mod p)).
  assert (L : zlen (splice (buf p (fst lo)) (snd lo) nw) = zlen (buf p (fst lo))) by (apply zlen_splice; unfold nw; rewrite ?zlen_le; lia).
  assert (Bb : bytes (buf p (fst lo))).
  { destruct B3 as [->|(i & s & -> & Hs)]; [exact Bf|]. cbn [buf]. rewrite Hs. destruct Lay as (_ & W & _). apply bytes_raw_view, (nth_Forall _ _ _ _ W Hs). }
  assert (Bs : bytes (splice (buf p (fst lo)) (snd lo) nw)) by (apply bytes_splice; [exact Bb|apply bytes_le]).
  cbv zeta. unfold upd_word. fold nw. split; [apply kept_setbuf; exact L|]. split; [apply layout_setbuf; assumption|].
  split; [|apply kept2_setbuf].
  destruct lo as [[i|] o]; cbn [fst snd setbuf buf] in *; [destruct (nth_error (p_sections p) i); exact Bf|exact Bs].
Qed.
(** Position [lo] shows word [v]. *)
Lemma upd_word_at delta p r lo v : located p r (Z.of_nat (base_size p)) lo -> 
  slice (buf p (fst lo)) (snd lo) (Z.of_nat (base_size p)) = le (base_size p) v -> 0 <= v < base_mod p ->
  slice (buf (upd_word delta p lo) (fst lo)) (snd lo) (Z.of_nat (base_size p)) = le (base_size p) ((v + delta) mod base_mod p).
Proof.
  intros H E V. pose proof (base_size_pos p) as Bp. destruct (located_bounds p r (Z.of_nat (base_size p)) lo ltac:(lia) H) as (B1 & B2 & B3).
  unfold upd_word. rewrite E. rewrite unle_le. replace (v mod 256 ^ Z.of_nat (base_size p)) with v.
  2: { symmetry. apply Z.mod_small. unfold base_mod, base_size in *. destruct (p_plus p); exact V. }
  rewrite buf_set_same by exact B3. set (nw := le (base_size p) ((v + delta) mod base_mod p)).
  assert (Ln : zlen nw = Z.of_nat (base_size p)) by apply zlen_le. rewrite <- Ln. apply slice_splice_same; lia.
Qed.
Definition lo_apart (a : option nat * Z) (n : Z) (b : option nat * Z) (m : Z) : Prop := fst a <> fst b \/ apart (snd a) n (snd b) m.
Lemma upd_word_other delta p r lo lo' n : located p r (Z.of_nat (base_size p)) lo -> 0 <= snd lo' -> 0 <= n -> snd lo' + n <= zlen (buf p (fst lo')) ->
  lo_apart lo' n lo (Z.of_nat (base_size p)) -> slice (buf (upd_word delta p lo) (fst lo')) (snd lo') n = slice (buf p (fst lo')) (snd lo') n.
Proof.
  intros H Hp Hn Hl Ha. pose proof (base_size_pos p) as Bp. destruct (located_bounds p r (Z.of_nat (base_size p)) lo ltac:(lia) H) as (B1 & B2 & B3).
  assert (Dec : fst lo = fst lo' \/ fst lo <> fst lo') by (destruct (fst lo) as [i|], (fst lo') as [j|]; [destruct (Nat.eq_dec i j); [left|right]; congruence|right; discriminate|right; discriminate|left; reflexivity]).
  unfold upd_word. destruct Dec as [Q|Q]; [|rewrite buf_set_other by exact Q; reflexivity].
  rewrite <- Q in *. destruct Ha as [Ha|Ha]; [congruence|]. rewrite buf_set_same by exact B3.
  destruct Ha as [Ha|Ha]; [apply slice_splice_before; rewrite ?zlen_le; lia|apply slice_splice_after; rewrite ?zlen_le; lia].
Qed.
Lemma located_apart p a n b m la lb : spec_layout p -> 0 <= n -> 0 <= m -> located p a n la -> located p b m lb -> apart a n b m -> lo_apart la n lb m.
Proof.
  intros Lay Hn Hm A B H. destruct la as [[i|] oa], lb as [[j|] ob]; unfold located in *; cbn [fst snd] in *; try (left; discriminate).
  - destruct (Nat.eq_dec i j) as [<-|N]; [|left; cbn [fst]; congruence]. right. destruct A as (_ & s & Hs & _ & -> & _), B as (_ & t & Ht & _ & -> & _).
    rewrite Hs in Ht. inversion Ht; subst t. unfold apart in *. cbn [snd]. lia.
  - right. destruct A as (-> & _), B as (-> & _). exact H.
Qed.
Lemma zlen_buf p p' l : kept p p' -> zlen (buf p' l) = zlen (buf p l).
Proof.
  intros (_ & _ & _ & _ & F & _ & K). destruct l as [i|]; cbn [buf]; [|exact F]. specialize (K i).
  destruct (nth_error (p_sections p) i), (nth_error (p_sections p') i); try contradiction; [tauto|reflexivity].
Qed.
Lemma lo_apart_sym a n b m : lo_apart a n b m -> lo_apart b m a n.
Proof. unfold lo_apart, apart. intros [H|H]; [left; congruence|right; tauto]. Qed.
Lemma rebase_words delta : forall l p, spec_layout p -> bytes (p_full p) -> zlen (p_full p) < 2^32 -> Forall (fun r => 0 <= r < 2^32) l ->
  let w := Z.of_nat (base_size p) in
  (forall r, In r l -> exists lo, located p r w lo) -> ForallOrdPairs (fun a b => apart a w b w) l ->
  exists p', mfold (rebase_word delta) l p = Ok p' /\ kept p p' /\ kept2 p p' /\ spec_layout p' /\ bytes (p_full p') /\
    (forall r lo v, In r l -> located p r w lo -> 0 <= v < base_mod p -> slice (buf p (fst lo)) (snd lo) w = le (base_size p) v ->
       slice (buf p' (fst lo)) (snd lo) w = le (base_size p) ((v + delta) mod base_mod p)) /\
    (forall n lo, 0 <= n -> 0 <= snd lo -> snd lo + n <= zlen (buf p (fst lo)) -> (forall r lr, In r l -> located p r w lr -> lo_apart lo n lr w) ->
       slice (buf p' (fst lo)) (snd lo) n = slice (buf p (fst lo)) (snd lo) n).
Proof.
  induction l as [|r l IH]; intros p Lay Bf Fl U w HL HA.
  - exists p. split; [reflexivity|]. split; [apply kept_refl|]. split; [apply kept2_refl|]. split; [exact Lay|]. split; [exact Bf|]. split; [intros r lo v []|reflexivity].
  - pose proof (base_size_pos p) as Bp. fold w in Bp. apply Forall_cons_iff in U as [U1 U2]. inversion HA as [|? ? HA1 HA2]; subst.
    destruct (HL r (or_introl eq_refl)) as [lo Hlo]. destruct (upd_word_props delta p r lo Hlo Lay Bf) as (K & Lay' & Bf' & K2).
    set (q := upd_word delta p lo) in *. assert (Kq : p_plus q = p_plus p /\ zlen (p_full q) = zlen (p_full p)) by (unfold kept in K; tauto). destruct Kq as [Kq1 Kq2].
    assert (Sq : base_size q = base_size p) by (unfold base_size; rewrite Kq1; reflexivity).
    assert (Mq : base_mod q = base_mod p) by (unfold base_mod; rewrite Kq1; reflexivity).
    destruct (IH q Lay' Bf' ltac:(lia) U2) as (p' & E & K' & K2' & Lay2 & Bf2 & F1 & F2).
    { rewrite Sq. fold w. intros r' Hr'. destruct (HL r' (or_intror Hr')) as [lo' Hlo']. exists lo'. apply (kept_located p q); assumption. }
    { rewrite Sq. exact HA2. }
    rewrite Sq, Mq in F1. rewrite Sq in F2. fold w in F1, F2.
    exists p'. cbn [mfold]. rewrite (rebase_word_ok delta p r lo Lay Fl U1 Hlo). cbn [bind]. fold q. split; [exact E|].
    split; [apply (kept_trans _ q); assumption|]. split; [apply (kept2_trans _ q); assumption|]. split; [exact Lay2|]. split; [exact Bf2|].
    assert (Ap : forall r' lr, In r' l -> located p r' w lr -> lo_apart lo w lr w).
    { intros r' lr Hr' Hlr. rewrite Forall_forall in HA1. apply (located_apart p r w r' w); try assumption; try lia. apply HA1. exact Hr'. }
    split.
    + intros r0 lo0 v [<-|Hr] Hl V Ev.
      * assert (lo0 = lo) by (apply (located_unique p r w w); try assumption; lia). subst lo0.
        destruct (located_bounds p r w lo ltac:(lia) Hl) as (B1 & B2 & _).
        rewrite (F2 w lo); [apply (upd_word_at delta p r lo v Hlo Ev V)|lia|lia|rewrite (zlen_buf p q) by exact K; lia|].
        intros r' lr Hr' Hlr. apply (Ap r' lr Hr'). apply (kept_located q p); [apply kept_sym, K|exact Hlr].
      * apply (F1 r0 lo0 v Hr (kept_located _ _ _ _ _ K Hl) V). rewrite <- Ev.
        destruct (located_bounds p r0 w lo0 ltac:(lia) Hl) as (B1 & B2 & _).
        apply (upd_word_other delta p r lo lo0 w Hlo B1 ltac:(lia) B2). apply lo_apart_sym, (Ap r0 lo0 Hr Hl).
    + intros n lo0 Hn H0 H1 Ha. rewrite (F2 n lo0 Hn H0); [|rewrite (zlen_buf p q) by exact K; exact H1|].
      * apply (upd_word_other delta p r lo lo0 n Hlo H0 Hn H1). apply (Ha r lo (or_introl eq_refl) Hlo).
      * intros r' lr Hr' Hlr. apply (Ha r' lr (or_intror Hr')). apply (kept_located q p); [apply kept_sym, K|exact Hlr].
Qed.
(** The nested loops visit the words in the order of [targets]. *)
Lemma rebase_table_words delta (t : reloc_table) : forall es p, (forall e, In e es -> snd e <> 0 -> 0 <= fst t + fst e < 2^32) ->
  mfold (fun p e => if snd e =? image_rel_based_absolute then Ok p else rebase_word delta p (u32 (fst t + fst e))) es p =
  mfold (rebase_word delta) (map (fun e => fst t + fst e) (filter (fun e => negb (snd e =? image_rel_based_absolute)) es)) p.
Proof.
  induction es as [|e es IH]; intros p H; cbn [mfold filter map]; [reflexivity|].
  unfold image_rel_based_absolute in *. destruct (Z.eqb_spec (snd e) 0) as [Q|Q]; cbn [negb bind].
  - apply IH. intros e' He'. apply H. right; exact He'.
  - cbn [map mfold]. rewrite u32_small by (apply H; [left; reflexivity|exact Q]). destruct (rebase_word delta p (fst t + fst e)); cbn [bind]; try reflexivity.
    apply IH. intros e' He'. apply H. right; exact He'.
Qed.
Lemma mfold_app {A B} (f : B -> A -> res B) l1 l2 b : mfold f (l1 ++ l2) b = (b' <- mfold f l1 b ;; mfold f l2 b').
Proof. revert b; induction l1 as [|a l IH]; intros b; cbn [app mfold bind]; [reflexivity|]. destruct (f b a); cbn [bind]; [apply IH|reflexivity|reflexivity|reflexivity]. Qed.
Lemma rebase_tables_words delta : forall tables p, Forall (fun r => 0 <= r < 2^32) (targets tables) ->
  mfold (rebase_table delta) tables p = mfold (rebase_word delta) (targets tables) p.
Proof.
  induction tables as [|t l IH]; intros p H; cbn [mfold targets flat_map]; [reflexivity|]. fold (targets l). rewrite mfold_app.
  cbn [targets flat_map] in H. fold (targets l) in H. apply Forall_app in H as [H1 H2].
  unfold rebase_table at 1. rewrite rebase_table_words.
  - destruct (mfold (rebase_word delta) _ p); cbn [bind]; try reflexivity. apply IH. exact H2.
  - intros e He Hz. rewrite Forall_forall in H1. apply H1. apply in_map_iff. exists e. split; [reflexivity|]. apply filter_In. split; [exact He|].
    unfold image_rel_based_absolute. lia.
Qed.
Lemma word_base p : word p = Z.of_nat (base_size p) /\ Z.to_nat (word p) = base_size p /\ 2 ^ (8 * word p) = base_mod p.
Proof. unfold word, base_size, base_mod. destruct (p_plus p); repeat split. Qed.
Lemma stored_range p r bs : spec_layout p -> zlen (p_full p) < 2^32 -> stored_at p r bs -> 0 <= r < 2^32.
Proof.
  intros (G & W & F & _) Fl [(A & B & _)|(A & i & s & Hs & Oc & _)]; [pose proof (zlen_nonneg bs); lia|].
  pose proof (nth_Forall _ _ _ _ F Hs) as Q. cbn beta in Q. unfold occupies in Oc. pose proof (zlen_nonneg (p_full p)). lia.
Qed.
Lemma rebase_image_ok p tables nb :
  spec_layout p -> bytes (p_full p) -> zlen (p_full p) < 2^32 -> rebasable p (targets tables) ->
  exists p', rebase_image p tables nb = Ok p' /\ imagebase p' = nb mod 2 ^ (8 * word p) /\ same_but_bytes p p' /\
    (forall r v, In r (targets tables) -> 0 <= v < 2 ^ (8 * word p) -> stored_at p r (le (Z.to_nat (word p)) v) ->
       stored_at p' r (le (Z.to_nat (word p)) ((v + (nb - imagebase p)) mod 2 ^ (8 * word p)))) /\
    (forall a bs, (forall r, In r (targets tables) -> apart a (zlen bs) r (word p)) -> stored_at p a bs -> stored_at p' a bs).
Proof.
  intros Lay Bf Fl (H1 & H2). destruct (word_base p) as (E1 & E2 & E3). rewrite E2, E3 in *. rewrite E1 in *.
  assert (U : Forall (fun r => 0 <= r < 2^32) (targets tables)).
  { apply Forall_forall. intros r Hr. destruct (H1 r Hr) as (v & _ & S). apply (stored_range p r _ Lay Fl S). }
  set (w := Z.of_nat (base_size p)) in *. set (delta := (nb - imagebase p) mod base_mod p).
  assert (HL : forall r, In r (targets tables) -> exists lo, located p r w lo).
  { intros r Hr. destruct (H1 r Hr) as (v & _ & S). apply stored_located in S as (lo & S & _). rewrite zlen_le in S. exists lo. exact S. }
  destruct (rebase_words delta (targets tables) p Lay Bf Fl U HL H2) as (q & E & K & K2 & Lay' & Bf' & F1 & F2). fold w in F1, F2.
  exists (with_nt (set_h_imagebase (nb mod base_mod p)) q). unfold rebase_image. fold delta. rewrite rebase_tables_words by exact U. rewrite E. cbn [bind].
  assert (Kp : p_plus q = p_plus p) by (unfold kept in K; tauto).
  split; [reflexivity|]. split; [reflexivity|].
  assert (Mp : 0 < base_mod p) by (unfold base_mod; destruct (p_plus p); lia).
  assert (St : forall r bs, stored_at q r bs -> stored_at (with_nt (set_h_imagebase (nb mod base_mod p)) q) r bs) by (intros r bs H; exact H).
  split.
  { destruct K2 as (A & B & _). destruct K as (_ & _ & _ & _ & Kf & _ & Ks). unfold same_but_bytes. cbv zeta. split.
    - apply (f_equal (fun q => set_p_full [] (set_p_sections [] (with_nt (set_h_imagebase 0) q)))) in A. exact A.
    - split; [exact B|]. split; [|exact Kf]. change (p_sections (with_nt (set_h_imagebase (nb mod base_mod p)) q)) with (p_sections q).
      apply nth_error_ext_map. intros i. specialize (Ks i). rewrite !nth_error_map. destruct (nth_error (p_sections p) i), (nth_error (p_sections q) i); try contradiction; cbn [option_map]; [f_equal; tauto|reflexivity]. }
  split.
  - intros r v Hr V S. apply St. apply stored_located. apply stored_located in S as (lo & Hlo & Ev). rewrite zlen_le in Hlo, Ev. fold w in Hlo, Ev.
    exists lo. rewrite zlen_le. fold w. split; [apply (kept_located p q); assumption|]. rewrite (F1 r lo v Hr Hlo V Ev). f_equal. unfold delta.
    rewrite Zplus_mod_idemp_r. reflexivity.
  - intros a bs Ha S. apply St. apply stored_located. apply stored_located in S as (lo & Hlo & Ev). exists lo. split; [apply (kept_located p q); assumption|].
    transitivity (slice (buf p (fst lo)) (snd lo) (zlen bs)); [|exact Ev]. pose proof (zlen_nonneg bs) as Zb. destruct (located_bounds p a (zlen bs) lo Zb Hlo) as (B1 & B2 & _).
    apply F2; [exact Zb|exact B1|exact B2|]. intros r lr Hr Hlr. apply (located_apart p a (zlen bs) r w); try assumption; [|apply Ha; exact Hr]. pose proof (base_size_pos p). lia.
Qed.

(** ** Reversibility *)
Lemma bytes_ext (a b : list Z) : zlen a = zlen b -> (forall k, 0 <= k < zlen a -> slice a k 1 = slice b k 1) -> a = b.
Proof.
  revert b; induction a as [|x a IH]; intros [|y b] L H; try reflexivity; try (unfold zlen in L; cbn in L; lia).
  pose proof (zlen_nonneg a) as Za. rewrite !zlen_cons in L. rewrite zlen_cons in H.
  assert (Z1 : [x] = [y]). { specialize (H 0 ltac:(lia)). exact H. }
  injection Z1 as ->. f_equal. apply IH; [lia|]. intros k Hk. specialize (H (k + 1) ltac:(lia)).
  change (y :: a) with ([y] ++ a) in H. change (y :: b) with ([y] ++ b) in H.
  rewrite !slice_app_r in H by (change (zlen [y]) with 1; lia). change (zlen [y]) with 1 in H.
  replace (k + 1 - 1) with k in H by lia. exact H.
Qed.
Lemma loc_eq_dec (a b : option nat) : {a = b} + {a <> b}.
Proof. decide equality. apply Nat.eq_dec. Qed.
Lemma in_word_dec p w l lo : spec_layout p -> 0 < w -> (forall r, In r l -> exists lr, located p r w lr) ->
  (exists r lr, In r l /\ located p r w lr /\ fst lr = fst lo /\ snd lr <= snd lo < snd lr + w) \/
  (forall r lr, In r l -> located p r w lr -> lo_apart lo 1 lr w).
Proof.
  intros Lay Hw. induction l as [|r l IH]; intros HL.
  - right. intros r lr [].
  - destruct IH as [IH|IH]; [intros r' Hr'; apply HL; right; exact Hr'| |].
    + left. destruct IH as (r' & lr & A & B). exists r', lr. split; [right; exact A|exact B].
    + destruct (HL r (or_introl eq_refl)) as [lr0 L0].
      assert (D : (fst lr0 = fst lo /\ snd lr0 <= snd lo < snd lr0 + w) \/ lo_apart lo 1 lr0 w).
      { unfold lo_apart, apart. destruct (loc_eq_dec (fst lr0) (fst lo)) as [Q|Q]; [|right; left; congruence].
        destruct (Z_lt_dec (snd lo) (snd lr0)); [right; right; left; lia|]. destruct (Z_lt_dec (snd lo) (snd lr0 + w)); [left; split; [exact Q|lia]|right; right; right; lia]. }
      destruct D as [D|D]; [left; exists r, lr0; split; [left; reflexivity|]; split; [exact L0|exact D]|].
      right. intros r' lr [<-|H] L; [|apply (IH r' lr H L)]. rewrite (located_unique p r w w lr lr0) by (assumption || lia). exact D.
Qed.
Lemma section_ext s t : header_of t = header_of s -> s_data t = s_data s -> s_old t = s_old s -> t = s.
Proof. destruct s, t. unfold header_of. cbn. intros A B C. subst. injection A; intros; subst. reflexivity. Qed.
Lemma pe_ext p q : set_p_full [] (set_p_sections [] q) = set_p_full [] (set_p_sections [] p) -> p_sections q = p_sections p -> p_full q = p_full p -> q = p.
Proof. destruct p, q. cbn. intros A B C. subst. injection A; intros; subst. reflexivity. Qed.
Lemma kept2_eq p q : unmapped p -> kept2 p q -> (forall l, buf q l = buf p l) -> q = p.
Proof.
  intros U (A & B & C) H. pose proof (C U) as U'.
  assert (S : p_sections q = p_sections p).
  { apply nth_error_ext_map. intros i. pose proof (f_equal (fun l => nth_error l i) B) as Bi. cbn beta in Bi. rewrite !nth_error_map in Bi.
    pose proof (H (Some i)) as Hi. cbn [buf] in Hi.
    destruct (nth_error (p_sections q) i) as [t|] eqn:Et, (nth_error (p_sections p) i) as [s|] eqn:Es; cbn [option_map] in Bi; try discriminate; [|reflexivity].
    pose proof (nth_Forall _ _ _ _ U Es) as Us. pose proof (nth_Forall _ _ _ _ U' Et) as Ut. cbn beta in Us, Ut.
    rewrite !raw_view_unmapped in Hi by assumption. assert (Bi' : header_of t = header_of s) by congruence. f_equal.
    apply section_ext; [exact Bi'|exact Hi|congruence]. }
  pose proof (H None) as F. cbn [buf] in F. apply pe_ext; assumption.
Qed.
Lemma targets_within p tables : spec_layout p -> zlen (p_full p) < 2^32 -> rebasable p (targets tables) -> Forall (fun r => 0 <= r < 2^32) (targets tables).
Proof. intros Lay Fl (H1 & _). apply Forall_forall. intros r Hr. destruct (H1 r Hr) as (v & _ & S). apply (stored_range p r _ Lay Fl S). Qed.
Lemma mod_back v nb b M : 0 < M -> 0 <= v < M -> ((v + (nb - b) mod M) mod M + (b - nb mod M) mod M) mod M = v.
Proof.
  intros HM V. rewrite (Z.mod_eq (nb - b)), (Z.mod_eq nb M) by lia.
  rewrite Zplus_mod_idemp_l, Zplus_mod_idemp_r.
  set (x := (nb - b) / M). set (y := nb / M). replace (v + (nb - b - M * x) + (b - (nb - M * y))) with (v + (y - x) * M) by lia.
  rewrite Z_mod_plus_full. apply Z.mod_small, V.
Qed.
Lemma rebase_back p tables nb p' :
  spec_layout p -> bytes (p_full p) -> zlen (p_full p) < 2^32 -> rebasable p (targets tables) -> unmapped p -> 0 <= imagebase p < 2 ^ (8 * word p) ->
  rebase_image p tables nb = Ok p' -> rebase_image p' tables (imagebase p) = Ok p.
Proof.
  intros Lay Bf Fl R U Ib. pose proof (targets_within p tables Lay Fl R) as Ut. destruct R as (H1 & H2).
  destruct (word_base p) as (E1 & E2 & E3). rewrite E2, E3 in *. rewrite E1 in *.
  assert (Mp : 0 < base_mod p) by (unfold base_mod; destruct (p_plus p); lia).
  set (w := Z.of_nat (base_size p)) in *. set (delta := (nb - imagebase p) mod base_mod p).
  assert (HL : forall r, In r (targets tables) -> exists lo, located p r w lo).
  { intros r Hr. destruct (H1 r Hr) as (v & _ & S). apply stored_located in S as (lo & S & _). rewrite zlen_le in S. exists lo. exact S. }
  destruct (rebase_words delta (targets tables) p Lay Bf Fl Ut HL H2) as (q & E & K & K2 & Lay' & Bf' & F1 & F2). fold w in F1, F2.
  unfold rebase_image. fold delta. rewrite rebase_tables_words by exact Ut. rewrite E. cbn [bind]. intros Q; injection Q as <-.
  set (q1 := with_nt (set_h_imagebase (nb mod base_mod p)) q).
  assert (Kp : p_plus q = p_plus p /\ zlen (p_full q) = zlen (p_full p)) by (unfold kept in K; tauto). destruct Kp as [Kp Kf].
  assert (S1 : base_size q1 = base_size p) by (unfold base_size; change (p_plus q1) with (p_plus q); rewrite Kp; reflexivity).
  assert (M1 : base_mod q1 = base_mod p) by (unfold base_mod; change (p_plus q1) with (p_plus q); rewrite Kp; reflexivity).
  assert (Lq : forall r n lo, located q1 r n lo <-> located p r n lo).
  { intros r n lo. split; intros H; [apply (kept_located q p); [apply kept_sym, K|exact H]|apply (kept_located p q _ _ _ K H)]. }
  rewrite M1. change (imagebase q1) with (nb mod base_mod p). set (delta' := (imagebase p - nb mod base_mod p) mod base_mod p).
  rewrite rebase_tables_words by exact Ut.
  destruct (rebase_words delta' (targets tables) q1 Lay' Bf' ltac:(change (p_full q1) with (p_full q); lia) Ut) as (q2 & E' & K' & K2' & Lay2 & Bf2 & F1' & F2').
  { rewrite S1. intros r Hr. destruct (HL r Hr) as [lo L]. exists lo. apply Lq. exact L. }
  { rewrite S1. exact H2. }
  rewrite S1, M1 in F1'. rewrite S1 in F2'. fold w in F1', F2'. rewrite E'. cbn [bind]. f_equal.
  rewrite Z.mod_small by lia.
  assert (Bl : forall l, zlen (buf q2 l) = zlen (buf p l)).
  { intros l. rewrite (zlen_buf q1 q2 l K'). apply (zlen_buf p q l K). }
  assert (Bq : forall l, buf q1 l = buf q l) by (intros l; reflexivity).
  set (q3 := with_nt (set_h_imagebase (imagebase p)) q2).
  apply kept2_eq; [exact U| |].
  - destruct K2 as (A & B & C), K2' as (A' & B' & C'). split; [|split; [exact (eq_trans B' B)|intros _; apply C', C, U]].
    apply (f_equal (with_nt (set_h_imagebase (imagebase p)))) in A, A'. transitivity (with_nt (set_h_imagebase (imagebase p)) (set_p_full [] (set_p_sections [] p))).
    + transitivity (with_nt (set_h_imagebase (imagebase p)) (set_p_full [] (set_p_sections [] q))); [exact A'|exact A].
    + clear. destruct p as [a1 a2 a3 a4 a5 n a7 a8 a9 b0]. destruct n. reflexivity.
  - intros l. change (buf q3 l) with (buf q2 l). apply bytes_ext; [apply Bl|]. intros k Hk. rewrite Bl in Hk.
    pose proof (base_size_pos p) as Bp. fold w in Bp.
    destruct (in_word_dec p w (targets tables) (l, k) Lay (proj1 Bp) HL) as [(r & lr & Hr & L & Q1 & Q2)|N].
    + cbn [fst snd] in Q1, Q2. subst l. destruct (H1 r Hr) as (v & V & S). apply stored_located in S as (lo & Lo & Ev). rewrite zlen_le in Lo, Ev. fold w in Lo, Ev.
      assert (lo = lr) by (apply (located_unique p r w w); assumption || lia). subst lo.
      pose proof (F1 r lr v Hr L V Ev) as G1.
      pose proof (F1' r lr _ Hr (proj2 (Lq _ _ _) L) (Z.mod_pos_bound (v + delta) (base_mod p) Mp) G1) as G2.
      replace (((v + delta) mod base_mod p + delta') mod base_mod p) with v in G2.
      * rewrite <- Ev in G2. destruct (located_bounds p r w lr ltac:(lia) L) as (B1 & B2 & _).
        replace k with (snd lr + (k - snd lr)) by lia. rewrite <- !(slice_slice _ (snd lr) w (k - snd lr) 1) by lia. rewrite G2. reflexivity.
      * symmetry. apply mod_back; [exact Mp|exact V].
    + cbn [fst snd] in *. transitivity (slice (buf q1 l) k 1).
      * apply (F2' 1 (l, k)); cbn [fst snd]; [lia|lia|rewrite Bq, (zlen_buf p q l K); lia|]. intros r lr Hr L. apply (N r lr Hr). apply Lq. exact L.
      * rewrite Bq. apply (F2 1 (l, k)); cbn [fst snd]; [lia|lia|lia|]. intros r lr Hr L. apply (N r lr Hr L).
Qed.
