(** Proofs about TLS. *)
From Verif Require Export SpecTls ConfigFacts.

Lemma tls_size_eq p : tls_size p = if p_plus p then 40 else 24.
Proof. unfold tls_size, tls_widths, base_size. destruct (p_plus p); reflexivity. Qed.
Lemma dec_tls_eq p e : exists a b c d x y, dec_fields (tls_widths p) e = [a; b; c; d; x; y].
Proof. unfold tls_widths. cbn [dec_fields]. repeat eexists. Qed.
Lemma length_va_safe p a b ty h : Forall wf_section (p_sections p) -> safe (length_va p a b ty h).
Proof. intros W. unfold length_va. apply safe_bind; [apply va_to_rva_safe|]. intros x _. apply safe_bind; [apply va_to_rva_safe|]. intros y _. apply length_rva_safe, W. Qed.
Lemma field_rva_safe p a : safe (field_rva p a).
Proof. unfold field_rva. destruct (a =? 0); [exact I|apply va_to_rva_safe]. Qed.
Lemma tls_safe p : readable p -> base_ok p -> addressable p -> viewable p -> safe (get_tls p).
Proof.
  intros R B A V. unfold get_tls. pose proof R as (_ & _ & W & _). destruct (dir_get p dir_tls R ltac:(unfold dir_tls; lia)) as (rva & size & Ur & _ & _ & Er & _ & Ex).
  destruct (directory_exists_safe p dir_tls R ltac:(unfold dir_tls; lia)) as [ex ->]. cbn [bind]. case_throw Hex; [exact I|]. rewrite Er. destruct (nrva p <=? dir_tls); [exact I|]. cbn [bind].
  assert (Sz : 0 <= tls_size p) by (rewrite tls_size_eq; destruct (p_plus p); lia).
  apply safe_bind; [apply read_rva_safe; assumption|]. intros e He. pose proof (read_rva_bytes _ _ _ _ _ _ R He) as Be.
  destruct (dec_tls_eq p e) as (start0 & end0 & index & cbs & zero & chars & Ed). pose proof (dec_fields_fits (tls_widths p) e Be) as Ft. rewrite Ed in *.
  assert (Fc : 0 <= cbs < base_mod p) by (rewrite base_mod_pow; unfold tls_widths in Ft; cbn [fits] in Ft; tauto).
  assert (Bm : 2^32 <= base_mod p <= 2^64) by (destruct (base_mod_cases p) as [(-> & _)|(-> & _)]; lia).
  apply safe_bind. { unfold fix_addresses. destruct (end0 =? start0); [|exact I]. pose proof (va_to_rva_safe p end0 true) as S. destruct (va_to_rva p end0 true); try exact I; exact S. }
  intros [start end_] Hf. assert (Rg : 0 <= start < base_mod p /\ 0 <= end_ < base_mod p).
  { rewrite base_mod_pow. unfold tls_widths in Ft. cbn [fits] in Ft. unfold fix_addresses in Hf. destruct (end0 =? start0); [destruct (va_to_rva p end0 true); try discriminate Hf|]; injection Hf as <- <-; rewrite <- base_mod_pow in *; lia. }
  cbv zeta. set (n := (end_ - start) mod base_mod p). pose proof (Z.mod_pos_bound (end_ - start) (base_mod p) ltac:(lia)) as Hn. fold n in Hn.
  apply safe_bind. { destruct (start =? 0); [exact I|]. apply safe_bind; [apply length_va_safe, W|]. intros; apply safe_throw_if. }
  intros u Hu. repeat (apply safe_bind; [apply field_rva_safe|intros ? _]).
  apply safe_bind.
  { destruct (start =? 0) eqn:E0; [exact I|]. cbn [orb]. destruct (Z.eqb_spec start end_) as [|Ne]; [exact I|].
    assert (Np : n <> 0) by (unfold n; destruct (Z.ltb_spec start end_); [rewrite Z.mod_small by lia; lia|]; rewrite <- (Z.mod_unique_pos (end_ - start) (base_mod p) (-1) (end_ - start + base_mod p)) by lia; lia).
    bnd Hu len E1. unfold throw_if in Hu. destruct (len <? n) eqn:E2; [discriminate Hu|]. unfold length_va in E1. bnd E1 r1 E3. bnd E1 r2 E4. rewrite E3 in E4. injection E4 as <-.
    rewrite E3. cbn [bind]. assert (U : is_u32 r1) by (apply (va_to_rva_range _ _ _ _ E3)).
    destruct (ptr_room p r1 VirtData len R (or_intror V) U E1) as (buf & off & -> & P1 & P2 & P3). cbn [bind fst snd].
    rewrite u32_small by lia. rewrite rd_ok by lia. exact I. }
  intros data _. apply safe_bind; [|intros; exact I]. match goal with |- safe (if ?c then _ else _) => destruct c end; [exact I|].
  assert (Hsz : Z.of_nat (base_size p) = 4 \/ Z.of_nat (base_size p) = 8) by (destruct (base_mod_cases p) as [(_ & -> & _)|(_ & -> & _)]; lia).
  apply va_list_safe; try assumption.
  - intros r bs U E. apply (read_rva_end p r _ true bs); try assumption; lia.
  - intros k Hk Hl. apply u32_small. lia.
  - intros x. apply va_to_rva_safe.
Qed.

(** ** Memory safety of the rebuilder *)
(** What stays during the rebuilding, up to the last step. *)
Definition grown (p q : pe) : Prop :=
  length (p_sections q) = length (p_sections p) /\ (salign q = salign p /\ falign q = falign p) /\ zlen (p_full q) = zlen (p_full p) /\ p_plus q = p_plus p /\ imagebase q = imagebase p /\
  h_dirs (p_nt q) = h_dirs (p_nt p) /\ nrva q = nrva p /\ Forall wf_section (p_sections q) /\
  forall j s t, nth_error (p_sections p) j = Some s -> nth_error (p_sections q) j = Some t -> s_va t = s_va s /\
    (S j <> length (p_sections p) -> s_vsize t = s_vsize s /\ s_rawsize t = s_rawsize s /\ zlen (raw_view s) <= zlen (raw_view t)).
Lemma grown_refl p : Forall wf_section (p_sections p) -> grown p p.
Proof. intros W. split; [reflexivity|]. split; [split; reflexivity|]. repeat (split; [reflexivity || exact W|]). intros j s t A B. rewrite A in B. injection B as <-. split; [reflexivity|]. intros _. repeat split; lia. Qed.
Lemma grown_trans p q r : grown p q -> grown q r -> grown p r.
Proof.
  intros (A1 & A2 & A3 & A4 & A5 & A6 & A7 & A8 & A9) (B1 & B2 & B3 & B4 & B5 & B6 & B7 & B8 & B9).
  split; [congruence|]. split; [destruct A2, B2; split; congruence|]. do 5 (split; [congruence|]). split; [exact B8|]. intros j s u Hs Hu. destruct (nth_error (p_sections q) j) as [t|] eqn:Ht; [|apply nth_error_None in Ht; pose proof (nth_lt _ _ _ Hs); lia].
  destruct (A9 j s t Hs Ht) as [C1 C2]. destruct (B9 j t u Ht Hu) as [D1 D2]. split; [congruence|]. intros Hj. specialize (C2 Hj). specialize (D2 ltac:(congruence)).
  repeat split; try (etransitivity; [apply D2|apply C2]). destruct C2 as (_ & _ & C2). destruct D2 as (_ & _ & D2). lia.
Qed.
Lemma grown_put p i s t : Forall wf_section (p_sections p) -> nth_error (p_sections p) i = Some s -> wf_section t -> s_va t = s_va s ->
  (S i <> length (p_sections p) -> s_vsize t = s_vsize s /\ s_rawsize t = s_rawsize s /\ zlen (raw_view s) <= zlen (raw_view t)) -> grown p (put_section p i t).
Proof.
  intros W Hs Wt Va H. unfold put_section. cbn [set_p_sections p_sections]. split; [apply upd_length|]. split; [split; reflexivity|]. do 5 (split; [reflexivity|]). split; [apply Forall_upd; assumption|].
  intros j x y Hx Hy. destruct (Nat.eq_dec i j) as [<-|Nj].
  - rewrite Hs in Hx. injection Hx as <-. cbn [set_p_sections p_sections] in Hy. rewrite nth_error_upd_same in Hy by apply (nth_lt _ _ _ Hs). injection Hy as <-. split; [exact Va|exact H].
  - cbn [set_p_sections p_sections] in Hy. rewrite nth_error_upd_other in Hy by congruence. rewrite Hx in Hy. injection Hy as <-. split; [reflexivity|]. intros _. repeat split; lia.
Qed.
Lemma grown_nth p q j t : grown p q -> nth_error (p_sections q) j = Some t -> exists s, nth_error (p_sections p) j = Some s.
Proof. intros G H. destruct (nth_error (p_sections p) j) as [s|] eqn:E; [exists s; reflexivity|]. apply nth_error_None in E. pose proof (nth_lt _ _ _ H). destruct G as (L & _). lia. Qed.
Lemma grown_image_size p q n : grown p q -> grown p (set_size_of_image n q).
Proof. intros G. exact G. Qed.
Lemma grown_update p q : grown p q -> grown p (update_image_size q).
Proof. intros G. unfold update_image_size. destruct (rev (p_sections q)); apply grown_image_size, G. Qed.
Lemma prepare_wf fa sa s s' : wf_section s -> prepare_section fa sa s = Ok s' -> wf_section s' /\ s_va s' = s_va s /\ raw_view s' = raw_view s.
Proof.
  intros W E. unfold prepare_section in E. thr E C. injection E as <-. pose proof (wf_unmap _ W) as W1.
  set (r := u32 (align_up64 (zlen (s_data (unmap_virtual s))) fa)) in *. assert (Ur : is_u32 r) by (unfold r, is_u32; apply u32_range).
  assert (W2 : wf_section (set_s_rawsize r (unmap_virtual s))) by (apply wf_set_rawsize; assumption). destruct (wf_ranges _ W2) as (V1 & _).
  assert (A : forall x a, is_u32 x -> is_u32 (align_up x a)) by (intros; apply align_up_range; assumption).
  clearbody r. cbn [set_s_rawsize s_rawsize s_vsize] in *. destruct (s_vsize (unmap_virtual s) =? 0); (split; [|split]).
  - apply wf_set_vsize; assumption.
  - cbn [set_s_vsize set_s_rawsize s_va]; apply (unmap_fields s).
  - unfold raw_view at 1; unfold unmap_virtual at 1; cbn [set_s_vsize set_s_rawsize s_old]; rewrite unmap_old; reflexivity.
  - apply wf_set_vsize; try assumption. pose proof (A _ fa Ur) as A1. pose proof (A _ sa V1) as A2. cbn [set_s_rawsize s_rawsize s_vsize] in *. unfold is_u32 in *. lia.
  - cbn [set_s_vsize set_s_rawsize s_va]; apply (unmap_fields s).
  - unfold raw_view at 1; unfold unmap_virtual at 1; cbn [set_s_vsize set_s_rawsize s_old]; rewrite unmap_old; reflexivity.
Qed.
Lemma raw_view_vsize v s : raw_view (set_s_vsize v s) = raw_view s.
Proof. unfold raw_view, unmap_virtual. cbn [set_s_vsize s_old]. destruct (s_old s); reflexivity. Qed.
Lemma raw_len_wf s : wf_section s -> zlen (raw_view s) < 2^63.
Proof. intros W. apply wf_unmap in W. unfold wf_section in W. unfold raw_view. tauto. Qed.
Lemma recalc_safe p i strip s : nth_error (p_sections p) i = Some s -> safe (recalculate_section_sizes p i strip).
Proof.
  intros Hs. unfold recalculate_section_sizes. rewrite (get_section_ok _ _ _ Hs). cbn [bind]. unfold prepare_section. case_throw C; [exact I|]. cbn [bind].
  match goal with |- safe (if _ then set_section_virtual_size (put_section p i ?t) _ _ else _) => generalize t end. intros t. case_if D; [|exact I].
  unfold set_section_virtual_size. case_throw E; [exact I|]. rewrite (get_section_ok _ _ t) by (apply put_get, (nth_lt _ _ _ Hs)). cbn [bind]. case_if F; [|exact I]. case_throw G; [exact I|]. exact I.
Qed.
Lemma recalc_last p i s q : nth_error (p_sections p) i = Some s -> S i = length (p_sections p) -> Forall wf_section (p_sections p) -> recalculate_section_sizes p i false = Ok q ->
  grown p q /\ exists t, nth_error (p_sections q) i = Some t /\ raw_view t = raw_view s /\ s_va t = s_va s.
Proof.
  intros Hs HL W E. unfold recalculate_section_sizes in E. rewrite (get_section_ok _ _ _ Hs) in E. cbn [bind] in E. bnd E t0 E1. cbn [andb] in E.
  destruct (prepare_wf _ _ _ _ (nth_Forall _ _ _ _ W Hs) E1) as (W0 & V0 & R0). pose proof (nth_lt _ _ _ Hs) as Li.
  assert (Gp : forall t, wf_section t -> s_va t = s_va s -> grown p (put_section p i t)) by (intros t Wt Vt; apply (grown_put p i s); try assumption; congruence).
  destruct (_ <? _).
  - unfold set_section_virtual_size in E. thr E C. rewrite (get_section_ok _ _ t0) in E by (apply put_get, Li). cbn [bind] in E.
    assert (K : forall v, is_u32 v -> grown p (update_image_size (put_section (put_section p i t0) i (set_s_vsize v t0))) /\
      exists t, nth_error (p_sections (update_image_size (put_section (put_section p i t0) i (set_s_vsize v t0)))) i = Some t /\ raw_view t = raw_view s /\ s_va t = s_va s).
    { intros v Uv. rewrite put_put. split; [apply grown_update, Gp; [apply wf_set_vsize; assumption|exact V0]|]. exists (set_s_vsize v t0). split; [|split; [rewrite raw_view_vsize; exact R0|exact V0]].
      unfold update_image_size. destruct (rev _); apply put_get, Li. }
    destruct (wf_ranges _ W0) as (U1 & U2 & U3 & _).
    destruct (align_up (s_rawsize t0) (salign p) =? 0); [thr E D|]; injection E as <-; apply K; [exact U3|]. apply align_up_range. exact U3.
  - injection E as <-. split; [apply Gp; assumption|]. exists t0. split; [apply put_get, Li|]. split; assumption.
Qed.
Lemma length_in_section_safe p s rva ty : safe (length_in_section p s rva ty).
Proof. unfold length_in_section. destruct (in_section _ _ _); exact I. Qed.
Lemma expand_safe p i rva n k s : nth_error (p_sections p) i = Some s -> safe (expand_section p i rva n k).
Proof.
  intros Hs. unfold expand_section. case_throw C; [exact I|]. rewrite (get_section_ok _ _ _ Hs). cbn [bind].
  destruct k; (apply safe_bind; [apply length_in_section_safe|]); intros len _; case_if D; try exact I; (apply safe_bind; [|intros; exact I]).
  - eapply recalc_safe. apply put_get, (nth_lt _ _ _ Hs).
  - unfold set_section_virtual_size. case_throw E; [exact I|]. rewrite (get_section_ok _ _ _ Hs). cbn [bind]. case_if F; [|exact I]. case_throw G; exact I.
Qed.
Lemma try_expand_safe p rva n k : safe (try_expand p rva n k).
Proof.
  unfold try_expand. destruct (section_from_rva p rva) as [i| | |] eqn:E; cbn [bind]; try exact I.
  - apply section_from_rva_inv in E as (s & Hs & _). pose proof (expand_safe p i rva n k s Hs) as S. destruct (expand_section p i rva n k) as [[q b]| | |]; try exact I; exact S.
  - pose proof (section_from_rva_safe p rva) as S. rewrite E in S. exact S.
  - pose proof (section_from_rva_safe p rva) as S. rewrite E in S. exact S.
Qed.
(** What an expansion gives: for raw data, enough of it. *)
Lemma expand_grown p i rva n k q b : Forall wf_section (p_sections p) -> 0 <= n -> expand_section p i rva n k = Ok (q, b) ->
  grown p q /\ exists s t, nth_error (p_sections p) i = Some s /\ nth_error (p_sections q) i = Some t /\ S i = length (p_sections p) /\ s_va t = s_va s /\
    (k = ExpandRaw -> 0 < n -> 0 <= rva - s_va s -> rva - s_va s + n <= 2^31 -> rva - s_va s + n <= zlen (raw_view t)).
Proof.
  intros W Hn E. unfold expand_section in E. thr E C. bnd E s E0. apply get_section_inv in E0. pose proof (proj1 (not_last_false p i s E0) C) as HL. pose proof (nth_lt _ _ _ E0) as Li.
  pose proof (nth_Forall _ _ _ _ W E0) as Ws. destruct (wf_ranges _ Ws) as (U1 & U2 & U3 & _).
  destruct k; bnd E len E1.
  - destruct (Z.ltb_spec len n) as [L|L].
    + bnd E p1 E2. injection E as <- <-. set (m := u32 (rva - s_va s + n)) in *. set (s1 := with_raw (fun d => resize d m) s) in *.
      assert (Hm : 0 <= m < 2^32) by apply u32_range.
      assert (RV : raw_view s1 = resize (raw_view s) m) by (apply (raw_view_with_raw (fun d => resize d m))).
      assert (W1 : wf_section s1).
      { apply (wf_with_raw (fun d => resize d m)); [assumption|apply bytes_resize, bytes_raw_view; assumption|]. cbv beta. rewrite zlen_resize by lia. lia. }
      destruct (with_raw_fields (fun d => resize d m) s) as (_ & _ & F3 & _). fold s1 in F3.
      assert (G1 : grown p (put_section p i s1)) by (apply (grown_put p i s); try assumption; congruence).
      destruct (recalc_last (put_section p i s1) i s1 p1) as (G2 & t & Ht & Rt & Vt); [apply put_get, Li|unfold put_section; cbn [set_p_sections p_sections]; rewrite upd_length; exact HL|apply Forall_upd; assumption|exact E2|].
      split; [eapply grown_trans; eassumption|]. exists s, t. repeat (split; [assumption|]). split; [congruence|]. intros _ Np H0 Hr. rewrite Rt, RV, zlen_resize by lia. unfold m. rewrite u32_small by lia. lia.
    + injection E as <- <-. split; [apply grown_refl, W|]. exists s, s. repeat (split; [assumption|]). split; [reflexivity|]. intros _ Np H0 Hr. unfold length_in_section in E1. destruct (in_section (salign p) rva s); [|discriminate E1]. injection E1 as E1.
      cbn [data_length] in E1. pose proof (zlen_nonneg (raw_view s)) as Zr. set (x := zlen (raw_view s) + s_va s - rva) in *.
      destruct (Z.ltb_spec (s32 x) 0) as [S0|S0]; [lia|]. assert (s32 x <= x); [|unfold x in *; lia].
      assert (Hx : -(2^31) <= x) by (unfold x; lia). clearbody x. unfold s32, u32 in *. repeat match goal with |- context [if ?b then _ else _] => destruct b eqn:? end; lia.
  - destruct (Z.ltb_spec len n) as [L|L].
    + bnd E p1 E2. injection E as <- <-. unfold set_section_virtual_size in E2. thr E2 D. rewrite (get_section_ok _ _ _ E0) in E2. cbn [bind] in E2.
      assert (K : forall v, is_u32 v -> grown p (update_image_size (put_section p i (set_s_vsize v s))) /\
        exists t, nth_error (p_sections (update_image_size (put_section p i (set_s_vsize v s)))) i = Some t /\ s_va t = s_va s).
      { intros v Uv. split; [apply grown_update, (grown_put p i s); try assumption; [apply wf_set_vsize; assumption|reflexivity|congruence]|]. exists (set_s_vsize v s). split; [|reflexivity].
        unfold update_image_size. destruct (rev _); apply put_get, Li. }
      assert (K2 : exists v, is_u32 v /\ p1 = update_image_size (put_section p i (set_s_vsize v s))).
      { destruct (_ =? 0); [thr E2 F|]; injection E2 as <-; eexists; (split; [|reflexivity]); [exact U3|unfold is_u32; apply u32_range]. }
      destruct K2 as (v & Uv & ->). destruct (K v Uv) as (G & t & Ht & Vt). split; [exact G|]. exists s, t. repeat (split; [assumption|]). discriminate.
    + injection E as <- <-. split; [apply grown_refl, W|]. exists s, s. repeat (split; [assumption|]). split; [reflexivity|discriminate].
Qed.
Lemma try_expand_grown p rva n k q : Forall wf_section (p_sections p) -> 0 <= n -> try_expand p rva n k = Ok q -> grown p q.
Proof.
  intros W Hn E. unfold try_expand in E. destruct (section_from_rva p rva) as [i| | |]; cbn [bind] in E; try discriminate E; [|injection E as <-; apply grown_refl, W].
  destruct (expand_section p i rva n k) as [[q' b]| | |] eqn:E1; try discriminate E; injection E as <-; [|apply grown_refl, W]. apply (expand_grown _ _ _ _ _ _ _ W Hn E1).
Qed.
Lemma write_rva_grown p rva bs q : Forall wf_section (p_sections p) -> bytes bs -> write_rva p rva bs = Ok q -> grown p q.
Proof.
  intros W B E. unfold write_rva in E. destruct (rva <? zlen (p_full p)).
  - bnd E d E1. injection E as <-. apply wr_inv in E1 as (A1 & A2 & ->). pose proof (grown_refl p W) as (G1 & G2 & G3 & G4 & G5 & G6 & G7 & G8 & G9). repeat (split; [assumption|]). split; [cbn [set_p_full p_full]; apply zlen_splice; lia|]. repeat (split; [assumption|]). exact G9.
  - bnd E i E1. bnd E s E2. thr E E3. bnd E d E4. injection E as <-. apply get_section_inv in E2. apply wr_inv in E4 as (A1 & A2 & ->). pose proof (nth_Forall _ _ _ _ W E2) as Ws.
    assert (Ls : zlen (splice (raw_view s) (rva - s_va s) bs) = zlen (raw_view s)) by (apply zlen_splice; lia).
    destruct (with_raw_fields (fun _ => splice (raw_view s) (rva - s_va s) bs) s) as (_ & F2 & F3 & F4 & _). apply (grown_put p i s); try assumption.
    + apply wf_with_raw; [exact Ws|apply bytes_splice; [apply bytes_raw_view, Ws|exact B]|]. rewrite Ls. apply raw_len_wf, Ws.
    + intros _. rewrite raw_view_with_raw, Ls. repeat split; try assumption; lia.
Qed.
Lemma in_section_low sa r s : in_section sa r s = true -> s_va s <= r.
Proof. unfold in_section. lia. Qed.
Lemma write_rva_safe p rva bs : 0 <= rva -> (rva < zlen (p_full p) -> rva + zlen bs <= zlen (p_full p)) ->
  (zlen (p_full p) <= rva -> forall i s, section_from_rva p rva = Ok i -> nth_error (p_sections p) i = Some s -> rva - s_va s + zlen bs <= zlen (raw_view s)) -> safe (write_rva p rva bs).
Proof.
  intros Hr H1 H2. unfold write_rva. destruct (Z.ltb_spec rva (zlen (p_full p))) as [C|C]; [rewrite wr_ok by (try apply H1; lia); exact I|].
  destruct (section_from_rva p rva) as [i| | |] eqn:E; cbn [bind]; try exact I; try (pose proof (section_from_rva_safe p rva) as S; rewrite E in S; exact S).
  pose proof E as E0. apply section_from_rva_inv in E0 as (s & Hs & Hi). rewrite (get_section_ok _ _ _ Hs). cbn [bind]. case_throw D; [exact I|]. cbn [bind].
  apply in_section_low in Hi. rewrite wr_ok by (try (apply (H2 C i s eq_refl Hs)); lia). exact I.
Qed.
(** The bytes that the length of the raw data admits can be written. *)
Lemma length_room p rva len bs : Forall wf_section (p_sections p) -> 0 <= rva -> length_rva p rva rva RawData true = Ok len -> 0 < zlen bs <= len -> safe (write_rva p rva bs).
Proof.
  intros W Hr E Hl. assert (U : forall x, 0 <= x -> u32 x <= x) by (intros x Hx; unfold u32; pose proof (Z.mod_le x (2^32) Hx ltac:(lia)); lia).
  unfold length_rva in E. cbn [andb] in E. apply write_rva_safe; [exact Hr| |].
  - intros C. replace (rva <? zlen (p_full p)) with true in E by lia. cbn [andb] in E. injection E as <-. pose proof (U (zlen (p_full p) - rva) ltac:(lia)). lia.
  - intros C i s E1 Hs. replace (rva <? zlen (p_full p)) with false in E by lia. cbn [andb] in E. rewrite E1 in E. cbn [bind] in E. rewrite (get_section_ok _ _ _ Hs) in E. cbn [bind] in E. thr E T. injection E as <-.
    cbn [data_length] in Hl. destruct (Z.ltb_spec (zlen (raw_view s) + s_va s - rva) 0) as [N|N]; [lia|]. pose proof (U _ N). lia.
Qed.
Lemma write_data_safe p t k : Forall wf_section (p_sections p) -> is_u32 (t_start t) -> is_u32 (t_end t) -> t_start t <= t_end t -> t_end t - t_start t <= zlen (t_data t) ->
  safe (write_tls_data p t k).
Proof.
  intros W Us Ue Hs Hd. unfold is_u32 in *. unfold write_tls_data. rewrite u32_small by lia. set (n := t_end t - t_start t) in *. assert (Hn : 0 <= n) by (unfold n; lia).
  apply safe_bind; [apply try_expand_safe|]. intros p1 E1. pose proof (try_expand_grown _ _ _ _ _ W Hn E1) as (_ & _ & _ & _ & _ & _ & _ & W1 & _).
  apply safe_bind; [apply length_rva_safe, W1|]. intros raw E2.
  apply safe_bind. { case_if C; [|exact I]. apply safe_bind; [apply length_rva_safe, W1|]. intros v _. case_throw D; exact I. }
  intros m Em. assert (Hm : m <= n /\ m <= raw).
  { destruct (Z.ltb_spec raw n) as [C|C]; [bnd Em v Ev; thr Em D|]; injection Em as <-; lia. }
  assert (Hr : 0 <= raw).
  { unfold length_rva in E2. destruct (_ && _) in E2; [injection E2 as <-; pose proof (u32_range (zlen (p_full p1) - t_start t)); lia|]. bnd E2 i Ei. bnd E2 s Es. thr E2 D. injection E2 as <-. match goal with |- 0 <= (if ?c then _ else _) => destruct c end; [lia|]. match goal with |- 0 <= u32 ?x => pose proof (u32_range x); lia end. }
  assert (Hm0 : 0 <= m) by (destruct (Z.ltb_spec raw n) as [C|C]; [bnd Em v Ev; thr Em D|]; injection Em as <-; lia).
  case_if M; [exact I|]. rewrite rd_ok by lia. cbn [bind]. apply (length_room p1 (t_start t) raw); try assumption; [lia|]. rewrite zlen_slice by lia. lia.
Qed.
Lemma rva_to_va_safe p r : safe (rva_to_va p r).
Proof. unfold rva_to_va, rva_to_va_32, rva_to_va_64. destruct (p_plus p); [exact I|]. case_throw C; exact I. Qed.
Lemma mmap_vas_safe p l : safe (mmap (rva_to_va p) l).
Proof. induction l as [|x l IH]; cbn [mmap]; [exact I|]. apply safe_bind; [apply rva_to_va_safe|]. intros y _. apply safe_bind; [exact IH|]. intros; exact I. Qed.
Lemma mmap_vas_length p l vas : mmap (rva_to_va p) l = Ok vas -> length vas = length l.
Proof. revert vas; induction l as [|x l IH]; intros vas H; cbn [mmap] in H; [injection H as <-; reflexivity|]. bnd H y E1. bnd H ys E2. injection H as <-. cbn [length]. rewrite (IH _ E2). reflexivity. Qed.
Lemma find_index_least {A} (f : A -> bool) l i : find_index f l = Some i -> forall j x, (j < i)%nat -> nth_error l j = Some x -> f x = false.
Proof.
  revert i; induction l as [|h l IH]; intros i H j x Hj Hx; [discriminate H|]. cbn [find_index] in H. destruct (f h) eqn:Fh; [injection H as <-; lia|].
  destruct (find_index f l) as [k|]; [|discriminate H]. injection H as <-. destruct j as [|j]; cbn [nth_error] in Hx; [congruence|]. apply (IH k eq_refl j x); [lia|exact Hx].
Qed.
Lemma find_index_first {A} (f : A -> bool) l i x : nth_error l i = Some x -> f x = true -> (forall j y, (j < i)%nat -> nth_error l j = Some y -> f y = false) -> find_index f l = Some i.
Proof.
  revert i; induction l as [|h l IH]; intros [|i] Hx Fx H; cbn [nth_error] in Hx; try discriminate; cbn [find_index].
  - injection Hx as ->. rewrite Fx. reflexivity.
  - rewrite (H 0%nat h) by (try lia; reflexivity). rewrite (IH i Hx Fx); [reflexivity|]. intros j y Hj Hy. apply (H (S j) y); [lia|exact Hy].
Qed.
(** A section other than the last one that has an address now had it before. *)
Lemma grown_in p q j s t r : grown p q -> nth_error (p_sections p) j = Some s -> nth_error (p_sections q) j = Some t -> S j <> length (p_sections p) -> in_section (salign q) r t = in_section (salign p) r s.
Proof. intros (_ & (Sa & _) & _ & _ & _ & _ & _ & _ & H) Hs Ht Hj. destruct (H j s t Hs Ht) as [A B]. destruct (B Hj) as (B1 & B2 & _). unfold in_section, aligned_vsize. rewrite Sa, A, B1, B2. reflexivity. Qed.
Lemma expand_total p i s rva n : nth_error (p_sections p) i = Some s -> S i = length (p_sections p) -> in_section (salign p) rva s = true -> power_of_two (falign p) -> falign p < 2^32 ->
  0 < n -> rva - s_va s + n <= 2^31 -> exists q b, expand_section p i rva n ExpandRaw = Ok (q, b).
Proof.
  intros Hs HL In P L Np Hm. pose proof (nth_lt _ _ _ Hs) as Li. unfold expand_section. rewrite (proj2 (not_last_false p i s Hs) HL). cbn [throw_if bind]. rewrite (get_section_ok _ _ _ Hs). cbn [bind]. unfold length_in_section. rewrite In. cbn [bind].
  case_if C; [|do 2 eexists; reflexivity]. pose proof (in_section_low _ _ _ In) as Lo. rewrite u32_small by lia. set (m := rva - s_va s + n) in *. assert (Mp : 0 < m) by lia. clearbody m.
  set (s1 := with_raw (fun d => resize d m) s) in *. assert (RV : raw_view s1 = resize (raw_view s) m) by (apply (raw_view_with_raw (fun d => resize d m))).
  assert (Ne : raw_view s1 <> []) by (intros Ze; apply (f_equal zlen) in Ze; rewrite RV, zlen_resize in Ze by lia; change (@zlen Z []) with 0 in Ze; lia).
  unfold recalculate_section_sizes. rewrite (get_section_ok _ _ s1) by (apply put_get, Li). cbn [bind]. assert (L31 : falign p <= 2^31) by (apply pow2_le31; assumption).
  destruct (prepare_section_total (falign p) (salign p) s1 P L ltac:(rewrite RV, zlen_resize by lia; lia) L31 (or_introl Ne)) as (s2 & E2). change (falign (put_section p i s1)) with (falign p). change (salign (put_section p i s1)) with (salign p). rewrite E2. cbn [bind andb].
  case_if D; [|cbn [bind]; do 2 eexists; reflexivity]. unfold set_section_virtual_size.
  assert (L2 : length (p_sections (put_section (put_section p i s1) i s2)) = length (p_sections p)) by (unfold put_section; cbn [set_p_sections p_sections]; rewrite !upd_length; reflexivity).
  assert (N2 : nth_error (p_sections (put_section (put_section p i s1) i s2)) i = Some s2) by (rewrite put_put; apply put_get, Li).
  rewrite (proj2 (not_last_false _ i s2 N2)) by lia. cbn [throw_if bind]. rewrite (get_section_ok _ _ _ N2). cbn [bind].
  case_if F; [|cbn [bind]; do 2 eexists; reflexivity]. case_throw Ze; [|cbn [bind]; do 2 eexists; reflexivity]. exfalso.
  assert (S2 : s_old s2 = None /\ s_data s2 = raw_view s1).
  { unfold prepare_section in E2. thr E2 G. injection E2 as <-. match goal with |- context [if ?c then set_s_vsize _ _ else _] => destruct c end; cbn [set_s_vsize set_s_rawsize s_old s_data]; rewrite unmap_old; split; reflexivity. }
  destruct S2 as [O D2]. unfold sec_empty in Ze. rewrite O, D2 in Ze. apply Ne. destruct (raw_view s1) as [|x l]; [reflexivity|]. rewrite zlen_cons in Ze. pose proof (zlen_nonneg l). lia.
Qed.
Lemma write_callbacks_safe p q t : spec_layout p -> grown p q -> 0 <= t_callbacks t -> callbacks_fit p t -> zlen (callback_table p t) < 2^32 -> safe (write_tls_callbacks q t).
Proof.
  intros Lay G Hc Fit Hl. unfold write_tls_callbacks.
  assert (Es : base_size q = base_size p) by (unfold base_size; destruct G as (_ & _ & _ & -> & _); reflexivity). rewrite Es. set (sz := Z.of_nat (base_size p)).
  assert (Hsz : sz = 4 \/ sz = 8) by (unfold sz; destruct (base_mod_cases p) as [(_ & -> & _)|(_ & -> & _)]; lia). pose proof (zlen_nonneg (t_list t)) as Zt.
  assert (En : zlen (callback_table p t) = (zlen (t_list t) + 1) * sz).
  { unfold callback_table. change (word_size p) with (base_size p). change (concat (map (le (base_size p)) ?l)) with (wordn (base_size p) l). rewrite wordn_len, zlen_app, zlen_map. fold sz. change (zlen [0]) with 1. lia. }
  rewrite <- En. set (n := zlen (callback_table p t)) in *. rewrite u32_small by lia. assert (Np : 0 < n) by lia. assert (Nn : 0 <= n) by lia.
  pose proof G as (_ & _ & _ & _ & _ & _ & _ & Wq & _).
  apply safe_bind; [apply try_expand_safe|]. intros p1 E1. pose proof (try_expand_grown _ _ _ _ _ Wq Nn E1) as G1. pose proof (grown_trans _ _ _ G G1) as Gp. pose proof G1 as (_ & _ & _ & _ & _ & _ & _ & W1 & _).
  apply safe_bind; [apply length_rva_safe, W1|]. intros raw E2. case_throw T1; [exact I|]. cbn [bind]. apply safe_bind; [apply length_rva_safe, W1|]. intros virt E3. case_throw T2; [exact I|]. cbn [bind].
  apply safe_bind; [apply mmap_vas_safe|]. intros vas Ev. apply mmap_vas_length in Ev.
  change (concat (map (le (base_size p)) (vas ++ [0]))) with (wordn (base_size p) (vas ++ [0])).
  assert (Lw : zlen (wordn (base_size p) (vas ++ [0])) = n).
  { rewrite wordn_len, zlen_app. fold sz. change (zlen [0]) with 1. replace (zlen vas) with (zlen (t_list t)) by (unfold zlen; rewrite Ev; reflexivity). lia. }
  rewrite rd_ok by lia. cbn [bind]. assert (Lb : zlen (slice (wordn (base_size p) (vas ++ [0])) 0 n) = n) by (apply zlen_slice; lia). set (bs := slice _ 0 n) in *. clearbody bs.
  apply write_rva_safe; [exact Hc| |].
  - intros C. unfold length_rva in E3. replace (t_callbacks t <? zlen (p_full p1)) with true in E3 by lia. cbn [andb] in E3. injection E3 as <-.
    assert (u32 (zlen (p_full p1) - t_callbacks t) <= zlen (p_full p1) - t_callbacks t) by (unfold u32; apply Z.mod_le; lia). lia.
  - intros C i u Ei Hu. rewrite Lb. destruct (grown_nth _ _ _ _ Gp Hu) as [s Hs]. pose proof Gp as (Ln & _ & _ & _ & _ & _ & _ & _ & Gs). destruct (Gs i s u Hs Hu) as [Va Sz].
    pose proof Ei as Ei'. apply section_from_rva_inv in Ei' as (u' & Hu' & In). rewrite Hu in Hu'. injection Hu' as <-. pose proof (in_section_low _ _ _ In) as Lo. rewrite Va in *.
    pose proof (Fit i s Hs Lo) as Ft. destruct (Nat.eqb_spec (S i) (length (p_sections p))) as [HL|HL].
    + (* the last section was expanded *)
      unfold try_expand in E1. unfold section_from_rva in Ei. destruct (find_index (in_section (salign p1) (t_callbacks t)) (p_sections p1)) as [i'|] eqn:Fi; [|discriminate Ei]. injection Ei as ->.
      assert (Hq : exists v, nth_error (p_sections q) i = Some v).
      { destruct (nth_error (p_sections q) i) as [v|] eqn:Ev2; [exists v; reflexivity|]. apply nth_error_None in Ev2. destruct G as (L0 & _). lia. }
      destruct Hq as [v Hv]. assert (Before : forall j y, (j < i)%nat -> nth_error (p_sections q) j = Some y -> in_section (salign q) (t_callbacks t) y = false).
      { intros j y Hj Hy. destruct (nth_error (p_sections p1) j) as [y1|] eqn:Hy1; [|apply nth_error_None in Hy1; pose proof (nth_lt _ _ _ Hu); lia].
        rewrite <- (grown_in q p1 j y y1 _ G1 Hy Hy1); [apply (find_index_least _ _ _ Fi j y1 Hj Hy1)|]. destruct G as (L0 & _). lia. }
      destruct (in_section (salign q) (t_callbacks t) v) eqn:Iv.
      * unfold section_from_rva in E1. rewrite (find_index_first _ _ _ _ Hv Iv Before) in E1. cbn [bind] in E1.
        assert (Lq : S i = length (p_sections q)) by (destruct G as (L0 & _); lia).
        destruct (expand_section q i (t_callbacks t) n ExpandRaw) as [[q' b]|e| |] eqn:Ex; try discriminate E1.
        -- injection E1 as <-. destruct (expand_grown _ _ _ _ _ _ _ Wq Nn Ex) as (_ & v' & u' & Hv' & Hu' & _ & Vu & K). rewrite Hv in Hv'. injection Hv' as <-. rewrite Hu in Hu'. injection Hu' as <-.
           assert (s_va v = s_va s) by congruence. pose proof (K eq_refl Np ltac:(lia) ltac:(lia)). lia.
        -- exfalso. destruct (expand_total q i v (t_callbacks t) n Hv Lq Iv) as (q' & b & Ok'); try assumption; [destruct G as (_ & (_ & ->) & _); apply Lay|destruct G as (_ & (_ & ->) & _); destruct Lay as ((_ & _ & Al) & _); lia| |congruence].
           destruct G as (_ & _ & _ & _ & _ & _ & _ & _ & G9). destruct (G9 i s v Hs Hv) as [-> _]. lia.
      * (* not in the section before: nothing was expanded *)
        exfalso. unfold section_from_rva in E1. destruct (find_index (in_section (salign q) (t_callbacks t)) (p_sections q)) as [i'|] eqn:Fq; cbn [bind] in E1.
        -- destruct (find_index_some _ _ _ Fq) as (y & Hy & Iy). destruct (Nat.lt_total i' i) as [L|[->|L]]; [rewrite (Before i' y L Hy) in Iy; discriminate Iy|congruence|].
           pose proof (nth_lt _ _ _ Hy). destruct G as (L0 & _). lia.
        -- injection E1 as <-. congruence.
    + assert (In' : in_section (salign p) (t_callbacks t) s = true) by (rewrite <- (grown_in _ _ _ _ _ (t_callbacks t) Gp Hs Hu HL); exact In).
      destruct Lay as ((P & _ & La) & Wp & Se & _). apply in_section_occupies in In'; [|exact P|lia|exact (nth_Forall _ _ _ _ Wp Hs)|exact (nth_Forall _ _ _ _ Se Hs)].
      specialize (Ft In'). destruct (Sz HL) as (_ & _ & Sz3). lia.
Qed.
Lemma set_directory_safe p id rva size : dirs_ok p -> 0 <= id -> nrva p <= 16 -> safe (set_directory p id rva size).
Proof.
  intros D H N. destruct (Z.lt_ge_cases id (nrva p)) as [L|L]; [rewrite set_directory_ok by (try assumption; lia); exact I|].
  unfold set_directory, set_directory_rva. replace (nrva p <=? id) with true by lia. exact I.
Qed.
Lemma open_room_inv p i total len s1 : Forall wf_section (p_sections p) -> total <= len -> 0 <= len < 2^63 -> open_room p i total len = Ok s1 ->
  exists s, nth_error (p_sections p) i = Some s /\ s1 = opened s (s_data s1) /\ total <= zlen (s_data s1) /\ zlen (raw_view s) <= zlen (s_data s1) /\ bytes (s_data s1) /\ zlen (s_data s1) < 2^63.
Proof.
  intros W Hl Hb E. unfold open_room in E. thr E A. bnd E s Es. thr E B. injection E as <-. apply get_section_inv in Es. exists s. split; [exact Es|]. pose proof (nth_Forall _ _ _ _ W Es) as Ws.
  pose proof (raw_len_wf _ Ws) as L. pose proof (bytes_raw_view _ Ws) as Br. unfold opened. fold (raw_view s). destruct (Z.ltb_spec (zlen (raw_view s)) total) as [C|C].
  - cbn [set_s_data s_data]. rewrite zlen_resize by lia. split; [reflexivity|]. repeat split; try lia. apply bytes_resize, Br.
  - fold (raw_view s). split; [unfold raw_view; destruct (unmap_virtual s); reflexivity|]. repeat split; try assumption; try lia.
Qed.
Lemma recalc_dirs p i strip q : recalculate_section_sizes p i strip = Ok q -> h_dirs (p_nt q) = h_dirs (p_nt p) /\ nrva q = nrva p.
Proof.
  intros E. unfold recalculate_section_sizes in E. bnd E s Es. bnd E s1 E1. destruct (_ <? _) in E; [|injection E as <-; split; reflexivity].
  unfold set_section_virtual_size in E. thr E A. bnd E s2 E2. match type of E with (if ?c then _ else _) = _ => destruct c end; [thr E B|]; injection E as <-; unfold update_image_size; destruct (rev _); split; reflexivity.
Qed.
Lemma write_data_grown p t k q : Forall wf_section (p_sections p) -> bytes (t_data t) -> write_tls_data p t k = Ok q -> grown p q.
Proof.
  intros W B E. unfold write_tls_data in E. pose proof (u32_range (t_end t - t_start t)) as Ur. bnd E p1 E1. pose proof (try_expand_grown _ _ _ _ _ W (proj1 Ur) E1) as G1. bnd E raw E2. bnd E m E3.
  destruct (m =? 0); [injection E as <-; exact G1|]. bnd E bs E4. apply rd_inv in E4 as (_ & _ & _ & Eb). subst bs. eapply grown_trans; [exact G1|]. apply (write_rva_grown p1 (t_start t) (slice (t_data t) 0 m)); [apply G1|apply bytes_slice, B|exact E].
Qed.
Lemma write_callbacks_grown p t q : Forall wf_section (p_sections p) -> write_tls_callbacks p t = Ok q -> grown p q.
Proof.
  intros W E. unfold write_tls_callbacks in E. bnd E p1 E1. match type of E1 with try_expand _ _ (u32 ?x) _ = _ => pose proof (u32_range x) as Ur end. pose proof (try_expand_grown _ _ _ _ _ W (proj1 Ur) E1) as G1. bnd E raw E2. thr E T1. bnd E virt E3. thr E T2. bnd E vas E4. bnd E bs E5.
  apply rd_inv in E5 as (_ & _ & _ & Eb). subst bs. eapply grown_trans; [exact G1|]. eapply write_rva_grown; [apply G1| |exact E]. apply bytes_slice. change (bytes (wordn (base_size p) (vas ++ [0]))). apply wordn_bytes.
Qed.
Lemma rebuild_tls_safe p t i off callbacks data k save strip : spec_layout p -> dirs_ok p -> nrva p <= 16 -> is_u32 off -> align_up off (Z.of_nat (base_size p)) + tls_size p < 2^32 ->
  is_u32 (t_start t) -> is_u32 (t_end t) -> is_u32 (t_callbacks t) -> bytes (t_data t) -> (data = true -> t_start t <> 0 -> t_end t - t_start t <= zlen (t_data t)) -> 
  (callbacks = true -> t_callbacks t <> 0 -> callbacks_fit p t /\ zlen (callback_table p t) < 2^32) -> safe (rebuild_tls p t i off callbacks data k save strip).
Proof.
  intros Lay D N Uo Ht Us Ue Uc Bd Hd Hc. pose proof Lay as (_ & W & _). unfold rebuild_tls. pose proof (align_up_range off (Z.of_nat (base_size p)) Uo) as Ap. set (pos := align_up off (Z.of_nat (base_size p))) in *. clearbody pos.
  assert (Ts : 0 < tls_size p) by (rewrite tls_size_eq; destruct (p_plus p); lia). rewrite u32_small by lia.
  destruct (open_room p i (tls_size p + pos) (tls_size p + pos)) as [s1|e|u|] eqn:Eo; cbn [bind]; try exact I.
  2, 3: exfalso; unfold open_room in Eo; destruct (section_attached p i) eqn:At; cbn [negb throw_if bind] in Eo; [|discriminate Eo]; unfold section_attached in At;
    (destruct (nth_error (p_sections p) i) as [s|] eqn:Es; [rewrite (get_section_ok _ _ _ Es) in Eo; cbn [bind] in Eo; destruct (negb _ && _); discriminate Eo|apply nth_error_None in Es; lia]).
  destruct (open_room_inv p i (tls_size p + pos) (tls_size p + pos) s1 W (Z.le_refl _) ltac:(lia) Eo) as (s & Hs & E1 & L1 & L2 & B1 & L3).
  case_throw T1; [exact I|]. cbn [bind].
  apply safe_bind; [case_if C; [exact I|apply rva_to_va_safe]|]. intros start _. apply safe_bind; [case_if C; [exact I|apply rva_to_va_safe]|]. intros end_ _. apply safe_bind; [apply rva_to_va_safe|]. intros index _.
  apply safe_bind; [case_if C; [exact I|apply rva_to_va_safe]|]. intros cb _. match goal with |- context [enc_fields ?w ?l] => set (e := enc_fields w l) end.
  assert (Le : zlen e = tls_size p) by (unfold e, tls_size; apply enc_fields_length; reflexivity). assert (Be : bytes e) by apply bytes_enc_fields. clearbody e.
  rewrite wr_ok by lia. cbn [bind]. set (d1 := splice (s_data s1) pos e). assert (Ld : zlen d1 = zlen (s_data s1)) by (apply zlen_splice; lia). assert (Bd1 : bytes d1) by (apply bytes_splice; assumption).
  replace (set_s_data d1 s1) with (opened s d1) by (rewrite E1; reflexivity).
  destruct (opened_fields s d1) as (F1 & F2 & F3 & F4 & F5 & F6 & F7 & F8).
  assert (G : grown p (put_section p i (opened s d1))).
  { apply (grown_put p i s); try assumption; [apply opened_wf; [exact (nth_Forall _ _ _ _ W Hs)|exact Bd1|lia]|]. intros _. rewrite F8, F2. split; [reflexivity|]. split; [|lia]. unfold opened. cbn [set_s_data s_rawsize]. apply (unmap_fields s). }
  apply safe_bind; [|intros p2 E2].
  { case_if C; [|exact I]. apply write_data_safe; try assumption; [apply G|lia|]. apply Hd; [destruct data; [reflexivity|discriminate C]|lia]. }
  assert (G2 : grown p p2).
  { destruct (data && _ && _) eqn:C; [|injection E2 as <-; exact G]. eapply grown_trans; [exact G|]. apply (write_data_grown _ t k); try assumption; apply G. }
  apply safe_bind; [|intros p3 E3].
  { case_if C; [|exact I]. destruct callbacks; [|discriminate C]. destruct (Hc eq_refl ltac:(lia)). apply (write_callbacks_safe p); try assumption. apply Uc. }
  assert (G3 : grown p p3).
  { destruct (callbacks && _) eqn:C; [|injection E3 as <-; exact G2]. destruct callbacks; [|discriminate C]. eapply grown_trans; [exact G2|]. apply (write_callbacks_grown _ t); try assumption; apply G2. }
  destruct (nth_error (p_sections p3) i) as [s3|] eqn:Hs3; [|apply nth_error_None in Hs3; destruct G3 as (L0 & _); pose proof (nth_lt _ _ _ Hs); lia].
  apply safe_bind; [apply (recalc_safe _ _ _ _ Hs3)|]. intros p4 E4. apply safe_bind; [|intros; exact I]. destruct save; [|exact I].
  assert (Hd4 : h_dirs (p_nt p4) = h_dirs (p_nt p) /\ nrva p4 = nrva p).
  { destruct G3 as (_ & _ & _ & _ & _ & <- & <- & _). apply (recalc_dirs _ _ _ _ E4). }
  destruct Hd4 as [H4 N4]. apply set_directory_safe; [unfold dirs_ok in *; rewrite H4; exact D|unfold dir_tls; lia|lia].
Qed.
