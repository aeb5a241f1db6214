(** The round trip of TLS. *)
From Verif Require Export TlsFacts.

Lemma opened_self s : s_old s = None -> opened s (raw_view s) = s.
Proof. intros O. unfold opened, raw_view. unfold unmap_virtual. rewrite O. destruct s; reflexivity. Qed.
Lemma opened_opened s d d' : opened (opened s d) d' = opened s d'.
Proof. unfold opened. assert (O : s_old (set_s_data d (unmap_virtual s)) = None) by (cbn [set_s_data s_old]; apply unmap_old). unfold unmap_virtual at 1. rewrite O. destruct (unmap_virtual s); reflexivity. Qed.
Lemma opened_rawsize s d : s_rawsize (opened s d) = s_rawsize s.
Proof. unfold opened. cbn [set_s_data s_rawsize]. apply (unmap_fields s). Qed.
Lemma opened_span sa s d : span sa (opened s d) = span sa s.
Proof. unfold span. destruct (opened_fields s d) as (_ & -> & _). rewrite opened_rawsize. reflexivity. Qed.
Lemma opened_in sa r s d : in_section sa r (opened s d) = in_section sa r s.
Proof. unfold in_section, aligned_vsize. destruct (opened_fields s d) as (_ & -> & -> & _). rewrite opened_rawsize. reflexivity. Qed.

Lemma find_index_same {A} (R : A -> A -> Prop) f g l m : (forall x y, R x y -> g y = f x) -> Forall2 R l m -> find_index g m = find_index f l.
Proof. intros H F. induction F as [|x y l m Hxy F IH]; cbn [find_index]; [reflexivity|]. rewrite (H _ _ Hxy), IH. reflexivity. Qed.
Lemma Forall2_of_nth {A B} (R : A -> B -> Prop) l m : length m = length l -> (forall j s, nth_error l j = Some s -> exists t, nth_error m j = Some t /\ R s t) -> Forall2 R l m.
Proof.
  revert m; induction l as [|s l IH]; intros [|t m] L F; try discriminate L; constructor.
  - destruct (F 0%nat s eq_refl) as (t' & E & H). injection E as ->. exact H.
  - apply IH; [injection L as L; exact L|]. intros j x Hx. apply (F (S j) x Hx).
Qed.
(** [q] is [p] with other bytes in its sections, as many as before except in section [i], where there are [n]. *)
Definition mid (p : pe) (i : nat) (n : Z) (q : pe) : Prop := exists l, q = set_p_sections l p /\ length l = length (p_sections p) /\
  forall j s, nth_error (p_sections p) j = Some s -> exists d, nth_error l j = Some (opened s d) /\ bytes d /\ zlen d = (if Nat.eqb j i then n else zlen (raw_view s)).
(** [q] has the bytes [bs] at address [a]. *)
Definition has (p : pe) (i : nat) (q : pe) (a : Z) (bs : list Z) : Prop := exists j s d, nth_error (p_sections p) j = Some s /\ nth_error (p_sections q) j = Some (opened s d) /\
  (j = i \/ zlen (raw_view s) <= span (salign p) s) /\ zlen (p_full p) <= s_va s /\ holds d (a - s_va s) bs /\ (0 < zlen bs \/ a - s_va s < span (salign p) s).
Lemma holds_splice_apart d off bs o cs : holds d o cs -> 0 <= off -> off + zlen bs <= zlen d -> off + zlen bs <= o \/ o + zlen cs <= off -> holds (splice d off bs) o cs.
Proof.
  intros (H1 & H2 & H3) Ho Hl A. pose proof (zlen_nonneg cs). pose proof (zlen_nonneg bs). split; [exact H1|]. rewrite zlen_splice by lia. split; [exact H2|]. rewrite <- H3 at 2. destruct A; [apply slice_splice_after|apply slice_splice_before]; lia.
Qed.
Section Mid.
Variables (p : pe) (start : Z) (i : nat) (n : Z) (q : pe).
Hypothesis IO : image_ok p start.
Hypothesis M : mid p i n q.
Hypothesis Hn : 0 <= n < 2^31.
Hypothesis Hi : forall s, nth_error (p_sections p) i = Some s -> zlen (raw_view s) <= n.
Lemma mid_nth j s : nth_error (p_sections p) j = Some s -> exists d, nth_error (p_sections q) j = Some (opened s d) /\ bytes d /\ zlen d = (if Nat.eqb j i then n else zlen (raw_view s)).
Proof. clear -M. destruct M as (l & -> & L & F). exact (F j s). Qed.
Lemma mid_put j s d : nth_error (p_sections p) j = Some s -> bytes d -> zlen d = (if Nat.eqb j i then n else zlen (raw_view s)) -> mid p i n (put_section q j (opened s d)).
Proof.
  clear -M. intros Hs Bd Ld. destruct M as (l & -> & L & F). exists (upd l j (opened s d)). split; [reflexivity|]. split; [rewrite upd_length; exact L|]. intros k s' Hk. destruct (Nat.eq_dec j k) as [<-|Nk].
  - rewrite Hs in Hk. injection Hk as <-. exists d. split; [apply nth_error_upd_same; rewrite L; apply (nth_lt _ _ _ Hs)|]. split; assumption.
  - rewrite nth_error_upd_other by congruence. apply F, Hk.
Qed.
Lemma mid_forall : Forall2 (fun s t => exists d, t = opened s d) (p_sections p) (p_sections q).
Proof. clear -M. destruct M as (l & -> & L & F). apply Forall2_of_nth; [exact L|]. intros j s Hs. destruct (F j s Hs) as (d & E & _). exists (opened s d). split; [exact E|]. exists d. reflexivity. Qed.
Lemma mid_rva r : section_from_rva q r = section_from_rva p r.
Proof.
  clear -M. pose proof mid_forall as F. destruct M as (l & -> & L & _). unfold section_from_rva. change (salign (set_p_sections l p)) with (salign p).
  rewrite (find_index_same (fun s t => exists d, t = opened s d) (in_section (salign p) r) (in_section (salign p) r) (p_sections p) (p_sections (set_p_sections l p))); [reflexivity| |exact F].
  intros x y [d ->]. apply opened_in.
Qed.
Lemma mid_wf : Forall wf_section (p_sections q).
Proof.
  clear -M IO Hn. pose proof IO as (_ & W & _). destruct M as (l & -> & L & F). cbn [set_p_sections p_sections]. apply Forall_forall. intros t Ht. apply In_nth_error in Ht as [j Hj].
  destruct (nth_error (p_sections p) j) as [s|] eqn:Hs; [|apply nth_error_None in Hs; pose proof (nth_lt _ _ _ Hj); lia]. destruct (F j s Hs) as (d & Hd & Bd & Ld). rewrite Hj in Hd. injection Hd as ->.
  pose proof (nth_Forall _ _ _ _ W Hs) as Ws. apply opened_wf; try assumption. pose proof (raw_len_wf _ Ws). destruct (Nat.eqb j i); lia.
Qed.
Lemma mid_ok : image_ok q start.
Proof.
  pose proof mid_wf as Wq. clear -M IO Wq. pose proof mid_forall as F. destruct IO as (G & W & D & St & Ch & Ce). assert (Sa : salign q = salign p /\ falign q = falign p) by (destruct M as (l & -> & _); split; reflexivity).
  destruct Sa as [Sa Fa]. unfold image_ok, good_align. rewrite Sa, Fa. repeat (split; [assumption|]).
  destruct (chain_ext_span (salign p) start (p_sections p) (p_sections q)) as [C1 C2]; [|exact Ch|split; [exact C1|rewrite C2; exact Ce]].
  clear -F. induction F as [|s t l m [d ->] F IH]; constructor; [|exact IH]. rewrite opened_span. destruct (opened_fields s d) as (_ & _ & -> & _). split; reflexivity.
Qed.
Lemma mid_length : length (p_sections q) = length (p_sections p).
Proof. clear -M. destruct M as (l & -> & L & _). exact L. Qed.
Lemma mid_fields : salign q = salign p /\ falign q = falign p /\ p_full q = p_full p /\ p_nt q = p_nt p /\ p_plus q = p_plus p.
Proof. clear -M. destruct M as (l & -> & _). repeat split. Qed.
(** A place of [p] is one of [q]. *)
Lemma mid_place a bs w : place p a bs w -> exists j s d, nth_error (p_sections p) j = Some s /\ nth_error (p_sections q) j = Some (opened s d) /\ section_from_rva q a = Ok j /\
  in_section (salign p) a s = true /\ occupies (salign p) s a /\ zlen (p_full p) <= s_va s <= a /\ a + zlen bs <= s_va s + zlen (raw_view s) /\ zlen (raw_view s) <= zlen d < 2^31 /\ bytes d /\
  zlen d = (if Nat.eqb j i then n else zlen (raw_view s)) /\ zlen (raw_view s) <= span (salign p) s < 2^31 /\ aligned_vsize (salign p) s = span (salign p) s /\ (w = false -> slice (raw_view s) (a - s_va s) (zlen bs) = bs).
Proof.
  intros (j & s & Hs & Oc & Hf & Hr & Sp & Kp). destruct (mid_nth j s Hs) as (d & Hd & Bd & Ld). exists j, s, d. pose proof IO as (G & W & D & St & Ch & Ce). pose proof (chain_layout _ _ G W Ch Ce) as Lay.
  pose proof Lay as ((P & _ & L) & _ & Se & _). pose proof (nth_Forall _ _ _ _ W Hs) as Ws. pose proof (nth_Forall _ _ _ _ Se Hs) as Ss. cbn beta in Ss.
  split; [exact Hs|]. split; [exact Hd|]. split; [rewrite mid_rva; apply (section_from_rva_spec _ _ _ Lay); exists s; split; assumption|].
  split; [apply in_section_occupies; try assumption; lia|]. split; [exact Oc|]. unfold occupies in Oc. split; [lia|]. split; [exact Hr|].
  split; [destruct (Nat.eqb_spec j i) as [->|Nj]; [specialize (Hi _ Hs)|]; lia|]. repeat (split; [assumption|]). split; [|exact Kp].
  destruct (wf_ranges _ Ws) as (R1 & R2 & R3 & _). apply aligned_vsize_span; try assumption; lia.
Qed.
Lemma mid_expand a bs w k : place p a bs w -> try_expand q a (zlen bs) k = Ok q.
Proof.
  intros Pl. destruct (mid_place _ _ _ Pl) as (j & s & d & Hs & Hd & Ej & In & Oc & Va & Hr & Ld & Bd & _ & Sp & Av & _). unfold try_expand. rewrite Ej. cbn [bind]. pose proof mid_length as Ml. destruct mid_fields as (Sa & _).
  unfold expand_section. destruct (not_last q j) eqn:Nl; cbn [throw_if bind]; [reflexivity|]. rewrite (get_section_ok _ _ _ Hd). cbn [bind]. unfold length_in_section. rewrite Sa, opened_in, In.
  destruct (opened_fields s d) as (_ & F2 & F3 & _ & _ & _ & _ & F8). pose proof (zlen_nonneg bs) as Zb.
  assert (S32 : forall x, 0 <= x < 2^31 -> s32 x = x) by (intros x Hx; unfold s32; rewrite u32_small by lia; replace (x <? 2^31) with true by lia; reflexivity).
  destruct k; cbn [bind data_length]; rewrite F3.
  - rewrite F8. rewrite S32 by lia. replace (zlen d + s_va s - a <? 0) with false by lia. replace (zlen d + s_va s - a <? zlen bs) with false by lia. reflexivity.
  - replace (aligned_vsize (salign q) (opened s d)) with (span (salign p) s) by (rewrite Sa; unfold aligned_vsize; rewrite F2, opened_rawsize; symmetry; exact Av).
    rewrite S32 by (unfold occupies, send in Oc; lia). replace (span (salign p) s + s_va s - a <? 0) with false by (unfold occupies, send in Oc; lia). replace (span (salign p) s + s_va s - a <? zlen bs) with false by lia. reflexivity.
Qed.
Lemma mid_raw a bs w : place p a bs w -> exists x, length_rva q a a RawData true = Ok x /\ zlen bs <= x.
Proof.
  intros Pl. destruct (mid_place _ _ _ Pl) as (j & s & d & Hs & Hd & Ej & In & Oc & Va & Hr & Ld & Bd & _ & Sp & Av & _). destruct mid_fields as (Sa & _ & Fu & _).
  destruct (opened_fields s d) as (_ & F2 & F3 & _ & _ & _ & _ & F8). exists (zlen d + s_va s - a). unfold length_rva. rewrite Fu. replace (a <? zlen (p_full p)) with false by lia. cbn [andb].
  rewrite Ej. cbn [bind]. rewrite (get_section_ok _ _ _ Hd). cbn [bind data_length]. rewrite F3, F8. replace (a <? s_va s) with false by lia. cbn [throw_if bind].
  pose proof (zlen_nonneg bs) as Zb. replace (zlen d + s_va s - a <? 0) with false by lia. rewrite u32_small by lia. split; [reflexivity|lia].
Qed.
Lemma mid_virt a bs w : place p a bs w -> exists x, length_rva q a a VirtData true = Ok x /\ zlen bs <= x.
Proof.
  intros Pl. destruct (mid_place _ _ _ Pl) as (j & s & d & Hs & Hd & Ej & In & Oc & Va & Hr & Ld & Bd & _ & Sp & Av & _). destruct mid_fields as (Sa & _ & Fu & _).
  destruct (opened_fields s d) as (_ & F2 & F3 & _ & _ & _ & _ & F8). exists (span (salign p) s + s_va s - a). unfold length_rva. rewrite Fu. replace (a <? zlen (p_full p)) with false by lia. cbn [andb].
  rewrite Ej. cbn [bind]. rewrite (get_section_ok _ _ _ Hd). cbn [bind data_length]. rewrite F3. replace (a <? s_va s) with false by lia. cbn [throw_if bind].
  replace (aligned_vsize (salign q) (opened s d)) with (span (salign p) s) by (rewrite Sa; unfold aligned_vsize; rewrite F2, opened_rawsize; symmetry; exact Av).
  pose proof (zlen_nonneg bs) as Zb. replace (span (salign p) s + s_va s - a <? 0) with false by lia. rewrite u32_small by lia. split; [reflexivity|lia].
Qed.
Lemma mid_write a bs w : place p a bs w -> 0 < zlen bs -> bytes bs -> exists q', write_rva q a bs = Ok q' /\ mid p i n q' /\ has p i q' a bs /\
  (exists j s, nth_error (p_sections p) j = Some s /\ occupies (salign p) s a /\ forall k, k <> j -> nth_error (p_sections q') k = nth_error (p_sections q) k) /\
  forall b cs, has p i q b cs -> apart a (zlen bs) b (zlen cs) -> has p i q' b cs.
Proof.
  intros Pl Zb Bb. destruct (mid_place _ _ _ Pl) as (j & s & d & Hs & Hd & Ej & In & Oc & Va & Hr & Ld & Bd & En & Sp & Av & _). destruct mid_fields as (Sa & _ & Fu & _).
  destruct (opened_fields s d) as (_ & F2 & F3 & _ & _ & _ & _ & F8). set (d' := splice d (a - s_va s) bs). exists (put_section q j (opened s d')). assert (Ld' : zlen d' = zlen d) by (apply zlen_splice; lia).
  assert (Nj : nth_error (p_sections (put_section q j (opened s d'))) j = Some (opened s d')) by (apply put_get, (nth_lt _ _ _ Hd)).
  split; [|split; [|split; [|split]]].
  - unfold write_rva. rewrite Fu. replace (a <? zlen (p_full p)) with false by lia. rewrite Ej. cbn [bind]. rewrite (get_section_ok _ _ _ Hd). cbn [bind]. rewrite F8, F3. replace (zlen d =? 0) with false by lia. cbn [throw_if bind].
    rewrite wr_ok by lia. cbn [bind]. do 2 f_equal. exact (opened_opened s d d').
  - apply mid_put; [exact Hs|apply bytes_splice; assumption|congruence].
  - exists j, s, d'. split; [exact Hs|]. split; [exact Nj|]. split; [right; lia|]. split; [lia|]. split; [apply holds_splice; lia|left; exact Zb].
  - exists j, s. split; [exact Hs|]. split; [exact Oc|]. intros k Hk. unfold put_section. cbn [set_p_sections p_sections]. apply nth_error_upd_other. congruence.
  - intros b cs (k & s2 & d2 & Hk & Hk2 & C1 & C2 & C3 & C4) Ap. destruct (Nat.eq_dec j k) as [<-|Nk].
    + rewrite Hs in Hk. injection Hk as <-. rewrite Hd in Hk2. apply (f_equal (fun o => match o with Some x => s_data x | None => [] end)) in Hk2. cbn [opened set_s_data s_data] in Hk2. subst d2.
      exists j, s, d'. repeat (split; [assumption|]). split; [|exact C4]. apply holds_splice_apart; [exact C3|lia|lia|]. unfold apart in Ap. lia.
    + exists k, s2, d2. split; [exact Hk|]. split; [unfold put_section; cbn [set_p_sections p_sections]; rewrite nth_error_upd_other by congruence; exact Hk2|]. repeat (split; [assumption|]). exact C4.
Qed.
Lemma mid_data t k : place p (t_start t) (t_data t) true -> is_u32 (t_start t) -> is_u32 (t_end t) -> zlen (t_data t) = t_end t - t_start t -> t_start t <> t_end t -> write_tls_data q t k = write_rva q (t_start t) (t_data t).
Proof.
  intros Pl U1 U2 Ld Ne. pose proof (zlen_nonneg (t_data t)) as Zt. unfold is_u32 in *. unfold write_tls_data. rewrite <- Ld. rewrite u32_small by lia. rewrite (mid_expand _ _ _ k Pl). cbn [bind].
  destruct (mid_raw _ _ _ Pl) as (x & -> & Hx). cbn [bind]. replace (x <? zlen (t_data t)) with false by lia. cbn [bind]. replace (zlen (t_data t) =? 0) with false by lia.
  rewrite rd_ok by lia. cbn [bind]. f_equal. apply slice_all; lia.
Qed.
Lemma mid_callbacks t : base_ok p -> Forall (has_va p) (t_list t) -> zlen (callback_table p t) < 2^32 -> place p (t_callbacks t) (callback_table p t) true ->
  write_tls_callbacks q t = write_rva q (t_callbacks t) (callback_table p t).
Proof.
  intros B V Lt Pl. unfold write_tls_callbacks. destruct mid_fields as (_ & _ & _ & Nt & Pp). assert (Bs : base_size q = base_size p) by (unfold base_size; rewrite Pp; reflexivity).
  assert (En : (zlen (t_list t) + 1) * Z.of_nat (base_size p) = zlen (callback_table p t)).
  { unfold callback_table. change (concat (map (le (word_size p)) ?l)) with (wordn (base_size p) l). rewrite wordn_len, zlen_app, zlen_map. change (zlen [0]) with 1. lia. }
  assert (Hsz : 0 < Z.of_nat (base_size p)) by (destruct (base_mod_cases p) as [(_ & -> & _)|(_ & -> & _)]; lia). pose proof (zlen_nonneg (t_list t)) as Zt.
  rewrite Bs, En. rewrite (u32_small (zlen (callback_table p t))) by (split; [apply zlen_nonneg|exact Lt]).
  rewrite (mid_expand _ _ _ ExpandRaw Pl). cbn [bind]. destruct (mid_raw _ _ _ Pl) as (x & -> & Hx). destruct (mid_virt _ _ _ Pl) as (y & -> & Hy). cbn [bind].
  rewrite u64_small by lia. replace (x <? zlen (callback_table p t) - Z.of_nat (base_size p)) with false by lia. cbn [throw_if bind]. replace (y <? zlen (callback_table p t)) with false by lia. cbn [throw_if bind].
  replace (mmap (rva_to_va q) (t_list t)) with (mmap (rva_to_va p) (t_list t)).
  2: { clear -Nt Pp. induction (t_list t) as [|r l IH]; [reflexivity|]. cbn [mmap]. rewrite IH. unfold rva_to_va, rva_to_va_32, rva_to_va_64, imagebase. rewrite Nt, Pp. reflexivity. }
  rewrite lock_vas by assumption. cbn [bind]. change (concat (map (le (base_size p)) (map (Z.add (imagebase p)) (t_list t) ++ [0]))) with (callback_table p t). rewrite rd_ok by (pose proof (zlen_nonneg (callback_table p t)); lia). cbn [bind]. f_equal. apply slice_all; lia.
Qed.
End Mid.

(** ** The end of the rebuilder *)
Lemma put_self q i s : nth_error (p_sections q) i = Some s -> put_section q i s = q.
Proof.
  intros H. unfold put_section. replace (upd (p_sections q) i s) with (p_sections q); [destruct q; reflexivity|].
  revert i H. induction (p_sections q) as [|x l IH]; intros [|i] H; cbn [nth_error upd] in *; try discriminate H; [congruence|]. rewrite <- IH by exact H. reflexivity.
Qed.
Lemma mid_reput p i n q s d : mid p i n q -> nth_error (p_sections p) i = Some s -> bytes d -> mid p i (zlen d) (put_section q i (opened s d)).
Proof.
  intros (l & -> & L & F) Hs Bd. exists (upd l i (opened s d)). split; [reflexivity|]. split; [rewrite upd_length; exact L|]. intros k s' Hk. destruct (Nat.eqb_spec k i) as [->|Nk].
  - rewrite Hs in Hk. injection Hk as <-. exists d. split; [apply nth_error_upd_same; rewrite L; apply (nth_lt _ _ _ Hs)|]. split; [exact Bd|reflexivity].
  - rewrite nth_error_upd_other by congruence. destruct (F k s' Hk) as (d' & A & B & C). exists d'. apply Nat.eqb_neq in Nk. rewrite Nk in C. repeat split; assumption.
Qed.
Lemma mid_self p i s d : unmapped p -> Forall wf_section (p_sections p) -> nth_error (p_sections p) i = Some s -> bytes d -> mid p i (zlen d) (put_section p i (opened s d)).
Proof.
  intros U W Hs Bd. apply (mid_reput p i (zlen (raw_view s))); try assumption. exists (p_sections p). split; [destruct p; reflexivity|]. split; [reflexivity|]. intros j t Ht. exists (raw_view t).
  rewrite opened_self by exact (nth_Forall _ _ _ _ U Ht). split; [exact Ht|]. split; [apply bytes_raw_view, (nth_Forall _ _ _ _ W Ht)|]. destruct (Nat.eqb_spec j i) as [->|_]; [congruence|reflexivity].
Qed.
Definition shows (q : pe) (a : Z) (bs : list Z) : Prop := exists base v, block q base v /\ base <= a < base + zlen v /\ holds v (a - base) bs.
Lemma mid_finish p start i total s d0 q strip : room p start i total -> 0 < total < 2^31 -> unmapped p -> nth_error (p_sections p) i = Some s -> open_room p i total total = Ok (opened s d0) -> mid p i (zlen d0) q -> zlen d0 < 2^31 ->
  exists q', recalculate_section_sizes q i strip = Ok q' /\ image_ok q' start /\ same_headers p q' /\ p_nt q' = p_nt p /\ (forall j, j <> i -> nth_error (p_sections q') j = nth_error (p_sections q) j) /\
    length (p_sections q') = length (p_sections p) /\ (forall a bs, has p i q a bs -> shows q' a bs) /\ exists t, nth_error (p_sections q') i = Some t /\ well_sized p t.
Proof.
  intros R Ht U Hs Eo M Ld. pose proof R as (IO & _ & s' & Hs' & Hz & Hf & Hv & Hr & Rr). rewrite Hs in Hs'. injection Hs' as <-. pose proof IO as ((Ps & Pf & Al) & W & _). pose proof (nth_Forall _ _ _ _ W Hs) as Ws.
  destruct (open_room_ok p start i total total R ltac:(pose proof (ceil_mult_least total (falign p) (pow2_pos _ Pf)); lia)) as (s' & d' & Hs' & Eo' & Pd & L1 & L2 & L3). rewrite Hs in Hs'. injection Hs' as <-.
  assert (d' = d0) by (rewrite Eo in Eo'; unfold opened in Eo'; injection Eo' as Ed; symmetry; exact Ed). subst d'. clear Eo'.
  destruct (mid_nth p i (zlen d0) q M i s Hs) as (d & Hd & Bd & Zd). rewrite Nat.eqb_refl in Zd.
  set (x := put_section q i s). pose proof (nth_Forall _ _ _ _ U Hs) as Us. cbn beta in Us.
  assert (Mx : mid p i (zlen (raw_view s)) x).
  { unfold x. rewrite <- (opened_self s Us) at 2. apply (mid_reput p i (zlen d0)); try assumption. apply bytes_raw_view, Ws. }
  assert (Ix : image_ok x start) by (apply (mid_ok p start i (zlen (raw_view s))); try assumption; pose proof (zlen_nonneg (raw_view s)); lia).
  pose proof (mid_length _ _ _ _ Mx) as Lx. destruct (mid_fields _ _ _ _ Mx) as (X1 & X2 & X3 & X4 & X5).
  assert (Nx : nth_error (p_sections x) i = Some s) by (apply put_get, (nth_lt _ _ _ Hd)).
  assert (Rx : room x start i total).
  { split; [exact Ix|]. split; [lia|]. exists s. rewrite X1, X2, X3, Lx. repeat (split; [assumption|]). exact Rr. }
  assert (Ox : open_room x i total total = Ok (opened s d0)).
  { rewrite <- Eo. unfold open_room, section_attached. rewrite Lx, (get_section_ok _ _ _ Nx), (get_section_ok _ _ _ Hs), X2. reflexivity. }
  destruct (store_le x start i total total s d0 d strip Rx ltac:(rewrite X2; pose proof (ceil_mult_least total (falign p) (pow2_pos _ Pf)); lia) Nx Ox ltac:(lia) ltac:(lia) Bd) as (t & Er & St & Wt & IO' & Lt & Vt & Sp & _ & _ & Wz).
  assert (Eq : forall u, put_section x i u = put_section q i u) by (intros u; unfold x; apply put_put). rewrite Eq in Er. rewrite (put_self _ _ _ Hd) in Er. rewrite Eq in Er, IO'.
  exists (put_section q i t). split; [exact Er|]. split; [exact IO'|]. destruct (mid_fields _ _ _ _ M) as (Q1 & Q2 & Q3 & Q4 & Q5). pose proof (mid_length _ _ _ _ M) as Lq.
  split; [destruct M as (l & -> & _); reflexivity|]. split; [exact Q4|]. split; [intros j Hj; unfold put_section; cbn [set_p_sections p_sections]; apply nth_error_upd_other; congruence|]. split; [unfold put_section; cbn [set_p_sections p_sections]; rewrite upd_length; exact Lq|].
  split; [|exists t; split; [apply put_get, (nth_lt _ _ _ Hd)|unfold well_sized in *; rewrite X1, X2 in Wz; exact Wz]].
  intros a bs (j & sj & dj & Hj & Hqj & C1 & C2 & C3 & C4). pose proof (holds_range _ _ _ C3) as Rg. pose proof (zlen_nonneg bs) as Zb. destruct (Nat.eq_dec j i) as [->|Nj].
  - rewrite Hs in Hj. injection Hj as <-. rewrite Hd in Hqj. apply (f_equal (fun o => match o with Some y => s_data y | None => [] end)) in Hqj. cbn [opened set_s_data s_data] in Hqj. subst dj.
    rewrite X1 in Lt, Sp. set (v := d ++ zeros (span (salign p) t - zlen d)). assert (Lv : zlen v = span (salign p) t) by (unfold v; rewrite zlen_app, zlen_zeros by lia; lia).
    exists (s_va s), v. split; [|split; [lia|apply holds_ext, C3]].
    assert (Bk : block (put_section x i t) (s_va s) (d ++ zeros (span (salign x) t - zlen d))) by (apply (store_block x start); try assumption; [rewrite Eq; exact IO'|rewrite X1; exact Lt|rewrite X3; exact Hf]).
    rewrite Eq, X1 in Bk. exact Bk.
  - destruct C1 as [C1|C1]; [contradiction|]. destruct (opened_fields sj dj) as (_ & _ & F3 & _ & _ & F6 & F7 & F8).
    assert (Hqj' : nth_error (p_sections (put_section q i t)) j = Some (opened sj dj)) by (unfold put_section; cbn [set_p_sections p_sections]; rewrite nth_error_upd_other by congruence; exact Hqj).
    destruct (mid_nth _ _ _ _ M j sj Hj) as (dj' & Hdj' & Bj & Zj). rewrite Hqj in Hdj'. apply (f_equal (fun o => match o with Some y => s_data y | None => [] end)) in Hdj'. cbn [opened set_s_data s_data] in Hdj'. subst dj'. apply Nat.eqb_neq in Nj. rewrite Nj in Zj.
    pose proof (store_block (put_section q i t) start j (opened sj dj) (opened sj dj) dj) as Bk. rewrite (put_self _ _ _ Hqj') in Bk. change (salign (put_section q i t)) with (salign q) in Bk. rewrite Q1, opened_span, F3 in Bk.
    exists (s_va sj), (dj ++ zeros (span (salign p) sj - zlen dj)). assert (Lv : zlen (dj ++ zeros (span (salign p) sj - zlen dj)) = span (salign p) sj) by (rewrite zlen_app, zlen_zeros by lia; lia).
    split; [|split; [lia|apply holds_ext, C3]]. apply Bk; try assumption; try lia; [apply opened_wf; [exact (nth_Forall _ _ _ _ W Hj)|exact Bj|pose proof (raw_len_wf _ (nth_Forall _ _ _ _ W Hj)); lia]| |change (p_full (put_section q i t)) with (p_full q); rewrite Q3; exact C2].
    unfold stored. rewrite F7, F8. do 5 (split; [reflexivity|]). apply padded_refl.
Qed.
Lemma shows_ext p q a bs : p_sections q = p_sections p -> p_full q = p_full p -> salign q = salign p -> falign q = falign p -> shows p a bs -> shows q a bs.
Proof. intros E1 E2 E3 E4 (b & v & B & H). exists b, v. split; [exact (block_ext _ _ _ _ E1 E2 E3 E4 B)|exact H]. Qed.
Lemma shows_read q a bs n : shows q a bs -> n = zlen bs -> 0 < n -> read_rva q a n VirtData true = Ok bs.
Proof. intros (b & v & B & Ha & H) En Hn. replace a with (b + (a - b)) by lia. exact (block_holds q b v (a - b) bs n B H En Hn). Qed.
Lemma shows_length q a bs : shows q a bs -> exists x, length_rva q a a VirtData true = Ok x /\ zlen bs <= x.
Proof. intros (b & v & B & Ha & H). pose proof (block_length q b v (a - b) (a - b) B ltac:(lia) ltac:(lia)) as L. replace (b + (a - b)) with a in L by lia. exists (zlen v - (a - b)). split; [exact L|]. pose proof (holds_range _ _ _ H). lia. Qed.
Lemma shows_ptr q a bs n : shows q a bs -> n = zlen bs -> (r <- ptr_rva q a VirtData true ;; rd (fst r) (snd r) n) = Ok bs.
Proof.
  intros (b & v & B & Ha & H) En. pose proof (block_ptr q b v (a - b) B ltac:(lia)) as P. replace (b + (a - b)) with a in P by lia. rewrite P. cbn [bind fst snd]. pose proof (holds_range _ _ _ H). pose proof (zlen_nonneg bs).
  rewrite rd_ok by lia. rewrite (holds_slice _ _ _ _ H En). reflexivity.
Qed.
Lemma shows_words q n l : (0 < n)%nat -> forall a, shows q a (wordn n l) -> Forall (fun w => 0 <= w < 256 ^ Z.of_nat n) l -> words_read q VirtData true n a l.
Proof.
  intros Hn. induction l as [|w l IH]; intros a S F; [exact I|]. inversion F as [|? ? F1 F2]; subst. destruct S as (b & v & B & Ha & H). rewrite wordn_cons in H. apply holds_app in H as [H1 H2]. rewrite zlen_le in H2.
  cbn [words_read]. split; [exact F1|]. pose proof (holds_range _ _ _ H1) as Rg. rewrite zlen_le in Rg. split; [apply (shows_read q a (le n w)); [exists b, v; split; [exact B|split; [exact Ha|exact H1]]|rewrite zlen_le; reflexivity|lia]|].
  destruct l as [|w2 l]; [exact I|]. apply IH; [|exact F2]. exists b, v. pose proof (holds_range _ _ _ H2) as Rg2. rewrite wordn_cons, zlen_app, zlen_le in Rg2. pose proof (zlen_nonneg (wordn n l)). split; [exact B|]. split; [lia|]. replace (a + Z.of_nat n - b) with (a - b + Z.of_nat n) by lia. exact H2.
Qed.
Lemma place_has p i s d0 pos e a bs w : unmapped p -> Forall wf_section (p_sections p) -> nth_error (p_sections p) i = Some s -> padded (raw_view s) d0 -> 0 <= pos -> pos + zlen e <= zlen d0 ->
  place p a bs w -> w = false \/ bs = [] -> apart (s_va s + pos) (zlen e) a (zlen bs) -> has p i (put_section p i (opened s (splice d0 pos e))) a bs.
Proof.
  intros U W Hs [m Pd] Hp He (j & sj & Hj & Oc & Hf & Hr & Sp & Kp) Hw Ap. unfold occupies, send in Oc.
  assert (Ho : holds (raw_view sj) (a - s_va sj) bs).
  { pose proof (zlen_nonneg bs). split; [lia|]. split; [lia|]. destruct Hw as [->|Hw]; [apply Kp; reflexivity|]. subst bs. reflexivity. }
  destruct (Nat.eq_dec i j) as [<-|Nj].
  - rewrite Hs in Hj. injection Hj as <-. exists i, s, (splice d0 pos e). split; [exact Hs|]. split; [apply put_get, (nth_lt _ _ _ Hs)|]. split; [left; reflexivity|]. split; [exact Hf|]. split; [|right; lia].
    apply holds_splice_apart; try assumption; [rewrite Pd; apply holds_ext, Ho|]. unfold apart in Ap. lia.
  - exists j, sj, (raw_view sj). split; [exact Hj|]. split; [unfold put_section; cbn [set_p_sections p_sections]; rewrite nth_error_upd_other by congruence; rewrite opened_self by exact (nth_Forall _ _ _ _ U Hj); exact Hj|].
    split; [right; lia|]. split; [exact Hf|]. split; [exact Ho|right; lia].
Qed.
(** ** The whole rebuilder *)
Lemma base_va p r : base_ok p -> has_va p r -> va_to_rva p (imagebase p + r) true = Ok r.
Proof.
  intros [B1 B2] [U V]. assert (base_mod p <= 2^64) by (destruct (base_mod_cases p) as [(-> & _)|(-> & _)]; lia). unfold is_u32 in U. apply va_to_rva_spec; [unfold is_u64; lia..|]. split; [exact U|]. symmetry. apply Z.mod_small. lia.
Qed.
Lemma lock_conv_free p l : base_ok p -> Forall (has_va p) l -> Forall2 (fun w v => va_to_rva p w false = Ok v) (map (Z.add (imagebase p)) l) l.
Proof.
  intros B F. induction F as [|r l Hr F IH]; constructor; [|exact IH]. unfold va_to_rva. cbn [andb throw_if bind]. f_equal. replace (imagebase p + r - imagebase p) with r by lia. destruct Hr as [U _]. apply u32_small. exact U.
Qed.
Lemma rebuild_tls_full p start i t off callbacks data k save strip s : let pos := ceil_mult off (Z.of_nat (word_size p)) in
  0 <= off -> valid_tls p t -> (t_start t = 0 -> t_zero t = 0) -> room p start i (pos + tls_bytes p) -> pos + tls_bytes p < 2^31 -> unmapped p -> dirs_ok p -> dir_tls < nrva p <= 16 -> base_ok p ->
  nth_error (p_sections p) i = Some s -> zlen (raw_view s) < 2^31 -> tls_places p t (s_va s + pos) callbacks data -> imagebase p + t_callbacks t + zlen (callback_table p t) <= base_mod p ->
  exists p', rebuild_tls p t i off callbacks data k save strip = Ok (p', (s_va s + pos, tls_bytes p)) /\ same_headers p p' /\ image_ok p' start /\
    (if save then only_directory p p' dir_tls (s_va s + pos, tls_bytes p) else h_dirs (p_nt p') = h_dirs (p_nt p)) /\
    (forall j sj, nth_error (p_sections p) j = Some sj -> j <> i -> (data = true -> t_start t <> 0 -> ~ occupies (salign p) sj (t_start t)) ->
       (callbacks = true -> t_callbacks t <> 0 -> ~ occupies (salign p) sj (t_callbacks t)) -> nth_error (p_sections p') j = Some sj) /\
    (save = true -> get_tls p' = Ok t) /\ length (p_sections p') = length (p_sections p) /\ (exists x, nth_error (p_sections p') i = Some x /\ well_sized p x) /\
    forall j sj, nth_error (p_sections p) j = Some sj -> j <> i -> exists d, nth_error (p_sections p') j = Some (opened sj d) /\ bytes d /\ zlen d = zlen (raw_view sj).
Proof.
  intros pos Ho V Z0 R Hp U D N B Hs Lr (Pl1 & Pl2 & Ap3) Hcb. assert (Etb : tls_bytes p = tls_size p) by (symmetry; apply tls_size_eq). rewrite Etb in *. change (word_size p) with (base_size p) in *. pose proof V as (Vl & Vd & Vz & Vc & Vse & Ve & Vi0 & Vi & Vc0 & Vcb & Vs0 & Vs1 & Vcl).
  set (sz := Z.of_nat (base_size p)) in *. assert (Hsz : sz = 4 \/ sz = 8) by (unfold sz; destruct (base_mod_cases p) as [(_ & -> & _)|(_ & -> & _)]; lia).
  assert (Ts : 24 <= tls_size p <= 40) by (rewrite tls_size_eq; destruct (p_plus p); lia).
  assert (P4 : power_of_two sz) by (destruct Hsz as [-> | ->]; [exists 2|exists 3]; split; [lia|reflexivity|lia|reflexivity]).
  pose proof (ceil_mult_least off sz ltac:(lia)) as (_ & Q2 & Q3 & _). fold pos in Q2, Q3. pose proof R as (IO & Tt & s' & Hs' & Hz0 & Hf & _). rewrite Hs in Hs'. injection Hs' as <-.
  pose proof IO as ((Ps & Pf & L) & W & _). pose proof (nth_Forall _ _ _ _ W Hs) as Ws. pose proof B as [B1 B2].
  assert (Al : align_up off sz = pos) by (apply align_up_small; [exact P4|lia|lia|fold pos; lia]).
  set (total := pos + tls_size p) in *. destruct (open_room_ok p start i total total R ltac:(pose proof (ceil_mult_least total (falign p) (pow2_pos _ Pf)); lia)) as (s' & d0 & Hs' & Eo & Pd & L1 & L2 & L3). rewrite Hs in Hs'. injection Hs' as <-.
  unfold rebuild_tls. fold sz. rewrite Al. rewrite (u32_small (tls_size p + pos)) by lia. replace (tls_size p + pos) with total by (unfold total; lia). rewrite Eo. cbn [bind].
  replace (t_end t <? t_start t) with false by lia. replace (t_index t =? 0) with false by lia. cbn [orb throw_if bind].
  assert (Hst : t_start t <> 0 -> has_va p (t_start t)) by (intros Hne; destruct Ve as [Ve1 Ve2]; unfold has_va, is_u32 in *; lia).
  set (start' := if t_start t =? 0 then 0 else imagebase p + t_start t). set (end' := if t_end t =? 0 then 0 else imagebase p + t_end t). set (cb' := if t_callbacks t =? 0 then 0 else imagebase p + t_callbacks t).
  replace (if t_start t =? 0 then Ok 0 else rva_to_va p (t_start t)) with (Ok start') by (unfold start'; destruct (Z.eqb_spec (t_start t) 0) as [E0|E0]; [reflexivity|]; destruct (Hst E0); rewrite rva_to_va_ok by (assumption || lia); reflexivity). cbn [bind].
  replace (if t_end t =? 0 then Ok 0 else rva_to_va p (t_end t)) with (Ok end') by (unfold end'; destruct (Z.eqb_spec (t_end t) 0) as [E0|E0]; [reflexivity|]; destruct Ve; rewrite rva_to_va_ok by (assumption || lia); reflexivity). cbn [bind].
  rewrite (rva_to_va_ok p (t_index t)) by (try apply Vi; assumption). cbn [bind].
  replace (if t_callbacks t =? 0 then Ok 0 else rva_to_va p (t_callbacks t)) with (Ok cb') by (unfold cb'; destruct (Z.eqb_spec (t_callbacks t) 0) as [E0|E0]; [reflexivity|]; destruct Vcb; rewrite rva_to_va_ok by (assumption || lia); reflexivity). cbn [bind].
  replace (if t_start t =? 0 then 0 else t_zero t) with (t_zero t) by (destruct (Z.eqb_spec (t_start t) 0) as [E0|E0]; [apply Z0, E0|reflexivity]).
  set (e := enc_fields (tls_widths p) _). assert (Le : zlen e = tls_size p) by (unfold e, tls_size; apply enc_fields_length; reflexivity).
  destruct (opened_fields s d0) as (_ & _ & O3 & _ & _ & O6 & _). rewrite O6. assert (Bd0 : bytes d0) by (apply (padded_bytes _ _ Pd), bytes_raw_view, Ws).
  rewrite wr_ok by (unfold total in *; lia). cbn [bind]. set (d1 := splice d0 pos e). replace (set_s_data d1 (opened s d0)) with (opened s d1) by (unfold opened; destruct (unmap_virtual s); reflexivity).
  assert (Ld1 : zlen d1 = zlen d0) by (apply zlen_splice; unfold total in *; lia). assert (Bd1 : bytes d1) by (apply bytes_splice; [exact Bd0|apply bytes_enc_fields]).
  set (p1 := put_section p i (opened s d1)). assert (M1 : mid p i (zlen d0) p1) by (unfold p1; rewrite <- Ld1; apply mid_self; assumption).
  assert (Hn : 0 <= zlen d0 < 2^31) by (pose proof (zlen_nonneg d0); lia).
  assert (Hi : forall x, nth_error (p_sections p) i = Some x -> zlen (raw_view x) <= zlen d0) by (intros x Hx; rewrite Hs in Hx; injection Hx as <-; lia).
  assert (H1s : has p i p1 (s_va s + pos) e).
  { exists i, s, d1. split; [exact Hs|]. split; [apply put_get, (nth_lt _ _ _ Hs)|]. split; [left; reflexivity|]. split; [exact Hf|]. replace (s_va s + pos - s_va s) with pos by lia. split; [apply holds_splice; unfold total in *; lia|left; lia]. }
  assert (PH : forall a bs w, place p a bs w -> w = false \/ bs = [] -> apart (s_va s + pos) (tls_size p) a (zlen bs) -> has p i p1 a bs).
  { intros a bs w Pl Hw Ap. rewrite <- Le in Ap. apply (place_has p i s d0 pos e a bs w); try assumption; try lia. }
  assert (Step2 : exists p2, (if data && negb (t_start t =? 0) && negb (t_start t =? t_end t) then write_tls_data p1 t k else Ok p1) = Ok p2 /\ mid p i (zlen d0) p2 /\ has p i p2 (s_va s + pos) e /\
    (t_start t <> 0 -> has p i p2 (t_start t) (t_data t)) /\ (t_callbacks t <> 0 -> callbacks = false -> has p i p2 (t_callbacks t) (callback_table p t)) /\
    forall j sj, nth_error (p_sections p) j = Some sj -> (data = true -> t_start t <> 0 -> ~ occupies (salign p) sj (t_start t)) -> nth_error (p_sections p2) j = nth_error (p_sections p1) j).
  { destruct (data && negb (t_start t =? 0) && negb (t_start t =? t_end t)) eqn:C.
    - destruct data; [|discriminate C]. destruct (Z.eqb_spec (t_start t) 0) as [E0|E0]; [discriminate C|]. destruct (Z.eqb_spec (t_start t) (t_end t)) as [E1|E1]; [discriminate C|]. destruct (Pl1 E0) as [Pl Ap]. specialize (Vs1 E0).
      rewrite (mid_data p start i (zlen d0) p1 IO M1 Hn Hi t k Pl) by (try assumption; try apply Hst; try apply Ve; assumption). pose proof (zlen_nonneg (t_data t)) as Zd.
      destruct (mid_write p start i (zlen d0) p1 IO M1 Hn Hi (t_start t) (t_data t) true Pl ltac:(lia) Vd) as (p2 & E & M2 & H2 & (j0 & s0 & Hj0 & Oc0 & K0) & Pr). exists p2. split; [exact E|]. split; [exact M2|].
      split; [apply Pr; [exact H1s|]; rewrite Le; unfold apart in *; lia|]. split; [intros _; exact H2|]. split.
      + intros E2 ->. destruct (Pl2 E2) as [Plc Apc]. apply Pr; [apply (PH _ _ _ Plc); [left; reflexivity|exact Apc]|exact (Ap3 E0 E2)].
      + intros j sj Hj Nj. apply K0. intros ->. rewrite Hj0 in Hj. injection Hj as <-. exact (Nj eq_refl E0 Oc0).
    - exists p1. split; [reflexivity|]. split; [exact M1|]. split; [exact H1s|]. split; [|split; [|reflexivity]].
      + intros E0. destruct (Pl1 E0) as [Pl Ap]. apply (PH _ _ _ Pl); [|exact Ap]. destruct data; [right|left; reflexivity]. specialize (Vs1 E0). destruct (t_data t) as [|x l]; [reflexivity|]. rewrite zlen_cons in Vs1. pose proof (zlen_nonneg l). lia.
      + intros E2 ->. destruct (Pl2 E2) as [Plc Apc]. apply (PH _ _ _ Plc); [left; reflexivity|exact Apc]. }
  destruct Step2 as (p2 & -> & M2 & H2s & H2d & H2c & K2). cbn [bind].
  assert (Lt : 0 < zlen (callback_table p t)).
  { unfold callback_table. change (concat (map (le (word_size p)) ?l)) with (wordn (base_size p) l). rewrite wordn_len, zlen_app, zlen_map. change (zlen [0]) with 1. fold sz. pose proof (zlen_nonneg (t_list t)). lia. }
  assert (Step3 : exists p3, (if callbacks && negb (t_callbacks t =? 0) then write_tls_callbacks p2 t else Ok p2) = Ok p3 /\ mid p i (zlen d0) p3 /\ has p i p3 (s_va s + pos) e /\
    (t_start t <> 0 -> has p i p3 (t_start t) (t_data t)) /\ (t_callbacks t <> 0 -> has p i p3 (t_callbacks t) (callback_table p t)) /\
    forall j sj, nth_error (p_sections p) j = Some sj -> (callbacks = true -> t_callbacks t <> 0 -> ~ occupies (salign p) sj (t_callbacks t)) -> nth_error (p_sections p3) j = nth_error (p_sections p2) j).
  { destruct (callbacks && negb (t_callbacks t =? 0)) eqn:C.
    - destruct callbacks; [|discriminate C]. destruct (Z.eqb_spec (t_callbacks t) 0) as [E0|E0]; [discriminate C|]. destruct (Pl2 E0) as [Pl Ap].
      assert (Lt2 : zlen (callback_table p t) < 2^32) by (destruct Pl as (j & sj & _ & Oc & _ & Hr & Sp & _); unfold occupies in Oc; lia).
      rewrite (mid_callbacks p start i (zlen d0) p2 IO M2 Hn Hi t B Vl Lt2 Pl).
      destruct (mid_write p start i (zlen d0) p2 IO M2 Hn Hi (t_callbacks t) (callback_table p t) true Pl Lt) as (p3 & E & M3 & H3 & (j0 & s0 & Hj0 & Oc0 & K0) & Pr); [apply (wordn_bytes (base_size p))|]. exists p3. split; [exact E|]. split; [exact M3|].
      split; [apply Pr; [exact H2s|]; rewrite Le; unfold apart in *; lia|]. split; [intros Es; apply Pr; [exact (H2d Es)|]; pose proof (Ap3 Es E0); unfold apart in *; lia|]. split; [intros _; exact H3|].
      intros j sj Hj Nj. apply K0. intros ->. rewrite Hj0 in Hj. injection Hj as <-. exact (Nj eq_refl E0 Oc0).
    - exists p2. split; [reflexivity|]. split; [exact M2|]. split; [exact H2s|]. split; [exact H2d|]. split; [|reflexivity]. intros E0. apply H2c; [exact E0|]. destruct callbacks; [|reflexivity]. lia. }
  destruct Step3 as (p3 & -> & M3 & H3s & H3d & H3c & K3). cbn [bind].
  destruct (mid_finish p start i total s d0 p3 strip R ltac:(unfold total; lia) U Hs Eo M3 ltac:(lia)) as (p4 & -> & IO4 & Sh4 & Nt4 & K4 & Len4 & Sw & Wz4). cbn [bind].
  assert (K5 : forall j sj, nth_error (p_sections p) j = Some sj -> j <> i -> exists d, nth_error (p_sections p4) j = Some (opened sj d) /\ bytes d /\ zlen d = zlen (raw_view sj)).
  { intros j sj Hj Nj. destruct (mid_nth _ _ _ _ M3 j sj Hj) as (d & X1 & X2 & X3). exists d. rewrite (K4 j Nj). apply Nat.eqb_neq in Nj. rewrite Nj in X3. auto. }
  assert (Rv : rva_from_section_offset (opened s d0) pos = s_va s + pos).
  { unfold rva_from_section_offset. rewrite O3. apply u32_small. destruct (Sw _ _ H3s) as (b & v & (_ & _ & Hb & _) & Ha & _). pose proof (zlen_nonneg (p_full p)). lia. }
  rewrite Rv. assert (Dn : nrva p4 = nrva p) by (unfold nrva; rewrite Nt4; reflexivity). assert (D4 : dirs_ok p4) by (unfold dirs_ok in *; rewrite Nt4; exact D).
  assert (Ks : forall j sj, nth_error (p_sections p) j = Some sj -> j <> i -> (data = true -> t_start t <> 0 -> ~ occupies (salign p) sj (t_start t)) ->
       (callbacks = true -> t_callbacks t <> 0 -> ~ occupies (salign p) sj (t_callbacks t)) -> nth_error (p_sections p4) j = Some sj).
  { intros j sj Hj Nj A1 A2. rewrite (K4 j Nj), (K3 j sj Hj A2), (K2 j sj Hj A1). unfold p1, put_section. cbn [set_p_sections p_sections]. rewrite nth_error_upd_other by congruence. exact Hj. }
  destruct save; cbn [bind].
  2: { exists p4. split; [reflexivity|]. split; [exact Sh4|]. split; [exact IO4|]. split; [rewrite Nt4; reflexivity|]. split; [exact Ks|]. split; [discriminate|]. split; [exact Len4|]. split; [exact Wz4|exact K5]. }
  rewrite set_directory_ok by (try assumption; unfold dir_tls in *; lia). cbn [bind].
  set (p5 := store_dir p4 dir_tls (s_va s + pos, tls_size p)). exists p5. split; [reflexivity|]. split; [exact Sh4|]. split; [exact IO4|].
  assert (Od : only_directory p p5 dir_tls (s_va s + pos, tls_size p)) by (apply store_dir_only; [exact D|unfold dir_tls; lia|rewrite Nt4; reflexivity]).
  split; [exact Od|]. split; [exact Ks|]. split; [|split; [exact Len4|split; [exact Wz4|exact K5]]]. intros _.
  assert (Dn5 : nrva p5 = nrva p) by exact Dn. pose proof (dir_is_at p5 dir_tls _ _ (proj1 Od) ltac:(unfold dir_tls in *; lia) ltac:(lia) ltac:(lia)) as (Dx & Dr & _).
  assert (Sw5 : forall a bs, has p i p3 a bs -> shows p5 a bs) by (intros a bs Ha; apply (shows_ext p4); try reflexivity; exact (Sw _ _ Ha)).
  assert (Ep : p_plus p5 = p_plus p) by exact (f_equal p_plus Sh4). assert (Eb : imagebase p5 = imagebase p) by exact (f_equal imagebase Sh4).
  assert (Ew : tls_widths p5 = tls_widths p) by (unfold tls_widths, base_size; rewrite Ep; reflexivity). assert (Esz : base_size p5 = base_size p) by (unfold base_size; rewrite Ep; reflexivity). assert (Em : base_mod p5 = base_mod p) by (unfold base_mod; rewrite Ep; reflexivity).
  assert (Bp : base_ok p5) by (unfold base_ok; rewrite Eb, Em; exact B). assert (Hv : forall r, has_va p r -> va_to_rva p5 (imagebase p + r) true = Ok r) by (intros r Hr; rewrite <- Eb; apply base_va; [exact Bp|unfold has_va; rewrite Eb, Em; exact Hr]).
  unfold get_tls. rewrite Dx. cbn [bind negb throw_if]. rewrite Dr. cbn [bind]. unfold tls_size. rewrite Ew. fold (tls_size p). rewrite (shows_read p5 _ e) by (try apply Sw5, H3s; lia). cbn [bind]. rewrite <- (app_nil_r e). unfold e.
  assert (Bm : base_mod p = 256 ^ sz) by (unfold sz; destruct (base_mod_cases p) as [(-> & -> & _)|(-> & -> & _)]; reflexivity). assert (Bm2 : 2^32 <= base_mod p <= 2^64) by (destruct (base_mod_cases p) as [(-> & _)|(-> & _)]; lia).
  rewrite dec_enc_fields.
  2: { unfold tls_widths. cbn [fits]. fold sz. rewrite <- Bm. change (256 ^ Z.of_nat 4) with (2^32). unfold start', end', cb'. unfold has_va, is_u32 in *. destruct (Z.eqb_spec (t_start t) 0), (Z.eqb_spec (t_end t) 0), (Z.eqb_spec (t_callbacks t) 0); repeat split; try lia; exact I. }
  rewrite Em.
  assert (Fx : fix_addresses p5 start' end' = Ok (start', end')).
  { unfold fix_addresses. destruct (Z.eqb_spec end' start') as [Es|Es]; [|reflexivity]. pose proof (va_to_rva_safe p5 end' true) as Sf. destruct (Z.eqb_spec (t_start t) 0) as [E0|E0].
    - assert (Z1 : start' = 0) by (unfold start'; replace (t_start t =? 0) with true by lia; reflexivity). rewrite Z1 in Es. rewrite Z1, Es in *. destruct (va_to_rva p5 0 true); try reflexivity; destruct Sf.
    - unfold start' in Es. replace (t_start t =? 0) with false in Es by lia. rewrite Es. rewrite (Hv _ (Hst E0)). unfold start'. replace (t_start t =? 0) with false by lia. reflexivity. }
  rewrite Fx. cbn [bind].
  assert (F1 : field_rva p5 start' = Ok (t_start t)).
  { unfold field_rva, start'. destruct (Z.eqb_spec (t_start t) 0) as [E0|E0]; [rewrite E0; reflexivity|]. pose proof (Hst E0) as [_ Hx]. replace (imagebase p + t_start t =? 0) with false by lia. apply Hv, Hst, E0. }
  assert (F2 : field_rva p5 end' = Ok (t_end t)).
  { unfold field_rva, end'. destruct (Z.eqb_spec (t_end t) 0) as [E0|E0]; [rewrite E0; reflexivity|]. pose proof Ve as [_ Hx]. replace (imagebase p + t_end t =? 0) with false by lia. apply Hv, Ve. }
  assert (F3 : field_rva p5 (imagebase p + t_index t) = Ok (t_index t)).
  { unfold field_rva. pose proof Vi as [_ Hx]. replace (imagebase p + t_index t =? 0) with false by lia. apply Hv, Vi. }
  assert (F4 : field_rva p5 cb' = Ok (t_callbacks t)).
  { unfold field_rva, cb'. destruct (Z.eqb_spec (t_callbacks t) 0) as [E0|E0]; [rewrite E0; reflexivity|]. pose proof Vcb as [_ Hx]. replace (imagebase p + t_callbacks t =? 0) with false by lia. apply Hv, Vcb. }
  rewrite F1, F2, F3, F4.
  assert (Ck : (if start' =? 0 then Ok tt else len <- length_va p5 start' start' VirtData true ;; throw_if (len <? (end' - start') mod base_mod p) incorrect_tls_directory) = Ok tt).
  { unfold start', end'. destruct (Z.eqb_spec (t_start t) 0) as [E0|E0]; [reflexivity|]. pose proof (Hst E0) as [_ Hx]. replace (imagebase p + t_start t =? 0) with false by lia. unfold length_va. rewrite (Hv _ (Hst E0)). cbn [bind].
    destruct (shows_length _ _ _ (Sw5 _ _ (H3d E0))) as (x & -> & Lx). cbn [bind]. rewrite (Vs1 E0) in Lx. replace (t_end t =? 0) with false by lia. replace (imagebase p + t_end t - (imagebase p + t_start t)) with (t_end t - t_start t) by lia. 
    unfold has_va, is_u32 in Ve. rewrite Z.mod_small by lia. replace (x <? t_end t - t_start t) with false by lia. reflexivity. }
  rewrite Ck. cbn [bind].
  assert (Dt : (if (start' =? 0) || (start' =? end') then Ok [] else r <- va_to_rva p5 start' true ;; q <- ptr_rva p5 r VirtData true ;; rd (fst q) (snd q) (u32 ((end' - start') mod base_mod p))) = Ok (t_data t)).
  { unfold start', end'. destruct (Z.eqb_spec (t_start t) 0) as [E0|E0]; [rewrite (Vs0 E0); reflexivity|]. pose proof (Hst E0) as [_ Hx]. replace (imagebase p + t_start t =? 0) with false by lia. replace (t_end t =? 0) with false by lia. cbn [orb].
    destruct (Z.eqb_spec (imagebase p + t_start t) (imagebase p + t_end t)) as [E1|E1]; [specialize (Vs1 E0); destruct (t_data t) as [|x l]; [reflexivity|rewrite zlen_cons in Vs1; pose proof (zlen_nonneg l); lia]|].
    rewrite (Hv _ (Hst E0)). cbn [bind]. apply (shows_ptr p5 (t_start t) (t_data t)); [exact (Sw5 _ _ (H3d E0))|]. rewrite (Vs1 E0). replace (imagebase p + t_end t - (imagebase p + t_start t)) with (t_end t - t_start t) by lia. unfold has_va, is_u32 in Ve. rewrite Z.mod_small by lia. apply u32_small. lia. }
  rewrite Dt. cbn [bind].
  assert (Lc : (if t_callbacks t =? 0 then Ok [] else va_list p5 VirtData true (fun k => u32 (k + Z.of_nat (base_size p5))) (fun va => va_to_rva p5 va false) cb') = Ok (t_list t)).
  { unfold cb'. destruct (Z.eqb_spec (t_callbacks t) 0) as [E0|E0]; [rewrite (Vcl E0); reflexivity|]. pose proof (Sw5 _ _ (H3c E0)) as S3. rewrite <- Eb.
    assert (Tl : zlen (callback_table p t) = sz * (zlen (t_list t) + 1)) by (unfold callback_table; change (concat (map (le (word_size p)) ?l)) with (wordn (base_size p) l); rewrite wordn_len, zlen_app, zlen_map; reflexivity).
    apply (va_list_ok p5 VirtData true _ (fun va => va_to_rva p5 va false)) with (ws := map (Z.add (imagebase p5)) (t_list t)); rewrite ?zlen_map, ?Esz, ?Em, ?Eb; fold sz; try assumption; try lia.
    - intros x X1 X2. apply u32_small. lia.
    - apply shows_words; [unfold sz in Hsz; lia|exact S3|]. apply Forall_app. split; [|constructor; [fold sz; rewrite <- Bm; lia|constructor]]. apply Forall_map. fold sz. rewrite <- Bm. apply (Forall_impl _ (fun r (Hr : has_va p r) => conj (Z.lt_le_incl _ _ (proj1 (proj2 Hr))) (proj2 (proj2 Hr))) Vl).
    - apply Forall_map. apply (Forall_impl _ (fun r (Hr : has_va p r) => not_eq_sym (Z.lt_neq _ _ (proj1 (proj2 Hr)))) Vl).
    - rewrite <- Eb. apply lock_conv_free; [exact Bp|]. unfold has_va in *. rewrite Eb, Em. exact Vl.
    - destruct (Pl2 E0) as [(j & sj & Hj & Oc & _ & Hr & Sp & _) _]. rewrite Tl in Hr. destruct IO as (G & W' & _ & _ & Ch & Ce). pose proof (chain_layout _ _ G W' Ch Ce) as (_ & _ & Se & _). pose proof (nth_Forall _ _ _ _ Se Hj) as Ss. cbn beta in Ss. unfold send in Ss. lia. }
  rewrite Lc. cbn [bind]. destruct t; reflexivity.
Qed.

Lemma tls_detached p t i off callbacks data k save strip : nth_error (p_sections p) i = None -> rebuild_tls p t i off callbacks data k save strip = Throw section_is_not_attached.
Proof. intros H. unfold rebuild_tls. rewrite open_room_detached by exact H. reflexivity. Qed.
Lemma tls_full p t i off callbacks data k save strip : let n := ceil_mult off (Z.of_nat (word_size p)) + tls_bytes p in 0 <= off -> n < 2^32 -> no_room p i n ->
  rebuild_tls p t i off callbacks data k save strip = Throw insufficient_space.
Proof.
  intros n Ho Hn H. unfold rebuild_tls. change (word_size p) with (base_size p) in n. set (sz := Z.of_nat (base_size p)) in *. assert (Hsz : sz = 4 \/ sz = 8) by (unfold sz; destruct (base_mod_cases p) as [(_ & -> & _)|(_ & -> & _)]; lia).
  assert (P4 : power_of_two sz) by (destruct Hsz as [-> | ->]; [exists 2|exists 3]; split; [lia|reflexivity|lia|reflexivity]). pose proof (ceil_mult_least off sz ltac:(lia)) as (_ & Q2 & _).
  assert (Tb : tls_size p = tls_bytes p) by apply tls_size_eq. assert (T2 : 24 <= tls_bytes p) by (unfold tls_bytes; destruct (p_plus p); lia).
  rewrite align_up_small by (try exact P4; unfold n in *; lia). rewrite Tb, u32_small by (unfold n in *; lia). rewrite Z.add_comm. fold n. rewrite open_room_full by exact H. reflexivity.
Qed.
Lemma tls_within p t i off callbacks data k save strip : spec_layout p -> dirs_ok p -> nrva p <= 16 -> 0 <= off -> ceil_mult off (Z.of_nat (word_size p)) + tls_bytes p < 2^32 ->
  is_u32 (t_start t) -> is_u32 (t_end t) -> is_u32 (t_callbacks t) -> bytes (t_data t) -> (data = true -> t_start t <> 0 -> t_end t - t_start t <= zlen (t_data t)) ->
  (callbacks = true -> t_callbacks t <> 0 -> callbacks_fit p t /\ zlen (callback_table p t) < 2^32) -> safe (rebuild_tls p t i off callbacks data k save strip).
Proof.
  intros Lay D N Ho Hl. change (word_size p) with (base_size p) in *. set (sz := Z.of_nat (base_size p)) in *. assert (Hsz : sz = 4 \/ sz = 8) by (unfold sz; destruct (base_mod_cases p) as [(_ & -> & _)|(_ & -> & _)]; lia).
  assert (P4 : power_of_two sz) by (destruct Hsz as [-> | ->]; [exists 2|exists 3]; split; [lia|reflexivity|lia|reflexivity]). pose proof (ceil_mult_least off sz ltac:(lia)) as (_ & Q2 & _). assert (T2 : 24 <= tls_bytes p) by (unfold tls_bytes; destruct (p_plus p); lia).
  apply rebuild_tls_safe; try assumption; [unfold is_u32; lia|]. fold sz. rewrite align_up_small by (try exact P4; lia). rewrite tls_size_eq. exact Hl.
Qed.
Lemma rebuild_tls_ok p start i t off callbacks data k save strip s : let pos := ceil_mult off (Z.of_nat (word_size p)) in
  0 <= off -> valid_tls p t -> (t_start t = 0 -> t_zero t = 0) -> room p start i (pos + tls_bytes p) -> pos + tls_bytes p < 2^31 -> unmapped p -> dirs_ok p -> dir_tls < nrva p <= 16 -> base_ok p ->
  nth_error (p_sections p) i = Some s -> zlen (raw_view s) < 2^31 -> tls_places p t (s_va s + pos) callbacks data -> imagebase p + t_callbacks t + zlen (callback_table p t) <= base_mod p ->
  exists p', rebuild_tls p t i off callbacks data k save strip = Ok (p', (s_va s + pos, tls_bytes p)) /\ same_headers p p' /\ image_ok p' start /\
    (if save then only_directory p p' dir_tls (s_va s + pos, tls_bytes p) else h_dirs (p_nt p') = h_dirs (p_nt p)) /\
    (forall j sj, nth_error (p_sections p) j = Some sj -> j <> i -> (data = true -> t_start t <> 0 -> ~ occupies (salign p) sj (t_start t)) ->
       (callbacks = true -> t_callbacks t <> 0 -> ~ occupies (salign p) sj (t_callbacks t)) -> nth_error (p_sections p') j = Some sj) /\
    (save = true -> get_tls p' = Ok t).
Proof.
  intros pos A B C D E F G H I J K L M. destruct (rebuild_tls_full p start i t off callbacks data k save strip s A B C D E F G H I J K L M) as (p' & X1 & X2 & X3 & X4 & X5 & X6 & _). exists p'. auto 8.
Qed.
