(** Proofs that a failed edit leaves the image as it was (C83). *)
From Verif Require Export TlsFacts FailFacts SpecFail.

Lemma raw_put d s : s_old s = None -> raw_view (set_s_data d s) = d.
Proof. intros H. unfold raw_view, unmap_virtual. cbn [set_s_data s_old]. rewrite H. reflexivity. Qed.
Lemma no_old s : s_old s = None -> unmap_virtual s = s.
Proof. intros H. unfold unmap_virtual. rewrite H. reflexivity. Qed.
Lemma strip_shorter d : zlen (strip_keep1 d) <= zlen d.
Proof. destruct (strip_keep1_padded d) as [n E]. rewrite E at 2. rewrite zlen_app. pose proof (zlen_nonneg (zeros n)). unfold zeros in *. lia. Qed.
Lemma recalc_no_throw p i strip s e : good_align p -> nth_error (p_sections p) i = Some s -> s_old s = None -> 0 < s_vsize s <= 2^31 -> zlen (s_data s) <= 2^31 ->
  recalculate_section_sizes p i strip <> Throw e.
Proof.
  intros (Ps & Pf & L) Hs Ho Hv Hd. pose proof (pow2_pos _ Ps) as Ps0. pose proof (pow2_pos _ Pf) as Pf0. pose proof (pow2_le31 _ Ps ltac:(lia)) as H31.
  assert (Ps31 : power_of_two (2^31)) by (exists 31; split; [lia|reflexivity]). pose proof (zlen_nonneg (s_data s)) as Zn.
  unfold recalculate_section_sizes, prepare_section. rewrite (get_section_ok _ _ _ Hs). cbn [bind]. rewrite (no_old s Ho). rewrite (align_up64_small (zlen (s_data s)) (falign p) Pf ltac:(lia) ltac:(lia)).
  assert (C : forall x a, power_of_two a -> a <= 2^31 -> 0 <= x <= 2^31 -> (a | ceil_mult x a) /\ x <= ceil_mult x a <= 2^31).
  { intros x a Pa La Hx. pose proof (ceil_mult_least x a (pow2_pos _ Pa)) as (D1 & D2 & D3 & D4). pose proof (D4 (2^31) (pow2_divide _ _ Pa Ps31 La) ltac:(lia)). split; [exact D1|lia]. }
  destruct (C (zlen (s_data s)) (falign p) Pf ltac:(lia) ltac:(lia)) as [E1 E2]. destruct (C (s_vsize s) (salign p) Ps ltac:(lia) ltac:(lia)) as [E3 E4].
  rewrite u32_small by lia. cbn [set_s_rawsize s_rawsize s_vsize]. set (r := ceil_mult (zlen (s_data s)) (falign p)) in *.
  replace (s_vsize s =? 0) with false by lia. rewrite andb_false_r. cbn [throw_if bind]. set (s1 := set_s_vsize _ _). assert (V1 : s_vsize s1 = Z.max r (ceil_mult (s_vsize s) (salign p))).
  { unfold s1. cbn [set_s_vsize s_vsize]. rewrite (align_up_id (falign p) r Pf ltac:(lia) ltac:(unfold is_u32; lia) E1). rewrite (align_up_small (s_vsize s) (salign p) Ps ltac:(lia) ltac:(lia)) by lia. reflexivity. }
  assert (D1 : s_data s1 = s_data s) by reflexivity. assert (R1 : s_rawsize s1 = r) by reflexivity. clearbody s1.
  set (s2 := if strip && _ then _ else _). assert (V2 : s_vsize s2 = s_vsize s1) by (unfold s2; destruct (strip && _); reflexivity).
  assert (R2 : s_rawsize s2 <= 2^31 /\ 0 <= s_rawsize s2 /\ ceil_mult (s_rawsize s2) (falign p) <= r).
  { unfold s2. destruct (strip && _).
    - cbn [set_s_rawsize s_rawsize]. rewrite D1. pose proof (strip_shorter (s_data s)). pose proof (zlen_nonneg (strip_keep1 (s_data s))). rewrite u32_small by lia. split; [lia|]. split; [lia|]. apply ceil_mult_mono; lia.
    - rewrite R1. split; [lia|]. split; [lia|]. pose proof (ceil_mult_least r (falign p) Pf0) as (_ & _ & _ & D4). apply D4; [exact E1|lia]. }
  destruct (C (s_vsize s2) (salign p) Ps ltac:(lia) ltac:(lia)) as [E5 E6].
  cbv zeta. fold s2. rewrite (align_up_small (s_vsize s2) (salign p) Ps ltac:(lia) ltac:(lia)) by lia. rewrite (align_up_small (s_rawsize s2) (falign p) Pf ltac:(lia) ltac:(lia)) by lia.
  replace (ceil_mult (s_vsize s2) (salign p) <? ceil_mult (s_rawsize s2) (falign p)) with false by lia. discriminate.
Qed.
(** A failed recalculation of the last section keeps its data. *)
Lemma recalc_fail_data p i strip s q e : nth_error (p_sections p) i = Some s -> s_old s = None -> S i = length (p_sections p) -> run_recalculate i strip p = (q, Throw e) ->
  exists t, nth_error (p_sections q) i = Some t /\ raw_view t = s_data s.
Proof.
  intros Hs Ho Hl H. unfold run_recalculate, run_prepare_section, step, look, pass, change in H. rewrite (get_section_ok _ _ _ Hs) in H. rewrite (no_old s Ho) in H. pose proof (nth_lt _ _ _ Hs) as Li.
  cbv zeta in H. set (s2 := set_s_rawsize _ s) in *. assert (X2 : s_old s2 = None /\ s_data s2 = s_data s) by (split; [exact Ho|reflexivity]). clearbody s2.
  assert (G : forall t, get_section (put_section p i t) i = Ok t) by (intros t; apply get_section_ok, put_get, Li).
  destruct ((s_rawsize s2 =? 0) && (s_vsize s2 =? 0)); cbn [throw_if] in H.
  { injection H as <- _. exists s2. split; [apply put_get, Li|]. unfold raw_view. rewrite no_old by apply X2. apply X2. }
  rewrite put_put in H. set (s3 := if s_vsize s2 =? 0 then _ else _) in *. assert (X3 : s_old s3 = None /\ s_data s3 = s_data s) by (unfold s3; destruct (s_vsize s2 =? 0); exact X2). clearbody s3.
  rewrite G, put_len in H. replace (Nat.eqb i (length (p_sections p) - 1)) with true in H by (symmetry; apply Nat.eqb_eq; lia). cbn [negb] in H. rewrite andb_false_r in H. rewrite G in H.
  destruct (_ <? _) in H; [|discriminate H]. rewrite run_vsize in H. destruct (set_section_virtual_size _ i _) in H; try discriminate H. injection H as <- _.
  exists s3. split; [apply put_get, Li|]. unfold raw_view. rewrite no_old by apply X3. apply X3.
Qed.
Lemma nth_ub_no_throw {A} (l : list A) n e : nth_ub l n = Throw e -> False.
Proof. unfold nth_ub. destruct ((0 <=? n) && (n <? zlen l)); [|discriminate]. destruct (nth_error l (Z.to_nat n)); discriminate. Qed.
Lemma set_dir_no_throw p id rva size e : id < nrva p -> set_directory p id rva size <> Throw e.
Proof.
  intros H. unfold set_directory, set_directory_rva. replace (nrva p <=? id) with false by lia. cbn [throw_if bind]. destruct (nth_ub (h_dirs (p_nt p)) id) as [d|x|u|] eqn:E; cbn [bind]; try discriminate.
  - unfold set_directory_size. change (nrva (store_dir p id (rva, snd d))) with (nrva p). replace (nrva p <=? id) with false by lia. cbn [throw_if bind].
    destruct (nth_ub (h_dirs (p_nt (store_dir p id (rva, snd d)))) id) as [d2|x|u|] eqn:E2; cbn [bind]; try discriminate. exact (fun _ => nth_ub_no_throw _ _ _ E2).
  - exact (fun _ => nth_ub_no_throw _ _ _ E).
Qed.
(** The end of a rebuilder does not throw. *)
Lemma finish_no_throw p i s0 s1 d pos size id save strip q e : good_align p -> (i < length (p_sections p))%nat -> s_old s1 = None -> 0 < s_vsize s1 <= 2^31 -> entry_for p save id ->
  (S i <> length (p_sections p) -> zlen d <= 2^31) -> at_most_2g q i -> run_finish i s1 d pos size id save strip (put_section p i s0) = (q, Throw e) -> False.
Proof.
  intros Ga Li Ho Hv Hs Hd Hw H. pose proof (run_finish_agrees i s0 s1 d pos size id save strip p) as A. rewrite H in A. unfold agrees in A.
  unfold finish_directory in A. set (p0 := put_section p i (set_s_data d s1)) in *. assert (N0 : nth_error (p_sections p0) i = Some (set_s_data d s1)) by (apply put_get, Li).
  destruct (Z.le_gt_cases (zlen d) (2^31)) as [C|C].
  - destruct (recalculate_section_sizes p0 i strip) as [q1|x|u|] eqn:Er; cbn [bind] in A; try discriminate A.
    + assert (Ns : nrva q1 = nrva p) by (destruct (recalc_dirs _ _ _ _ Er) as [_ N]; exact N). destruct save; [|discriminate A].
      destruct (set_directory q1 id _ size) as [q2|x|u|] eqn:Ed; cbn [bind] in A; try discriminate A. apply (set_dir_no_throw q1 id (rva_from_section_offset s1 pos) size x); [rewrite Ns; apply Hs; reflexivity|exact Ed].
    + exact (recalc_no_throw p0 i strip (set_s_data d s1) x Ga N0 Ho Hv C Er).
  - destruct (Nat.eq_dec (S i) (length (p_sections p))) as [Hl|Hl]; [|specialize (Hd Hl); lia].
    unfold run_finish, step, pass, change in H. rewrite put_put in H. fold p0 in H. pose proof (run_recalc_agrees i strip p0) as R. unfold agrees in R.
    destruct (recalculate_section_sizes p0 i strip) as [q1|x|u|] eqn:Er; cbn [bind] in R.
    + rewrite R in H. assert (Ns : nrva q1 = nrva p) by (destruct (recalc_dirs _ _ _ _ Er) as [_ N]; exact N). destruct save; [|discriminate H]. specialize (Hs eq_refl).
      rewrite run_dir_rva in H. destruct (set_directory_rva q1 id _) as [q2|x|u|] eqn:E2; try discriminate H.
      * rewrite run_dir_size in H. destruct (set_directory_size q2 id size) as [q3|x|u|] eqn:E3; try discriminate H. apply (set_dir_no_throw q1 id (rva_from_section_offset s1 pos) size x ltac:(lia)). unfold set_directory. rewrite E2. cbn [bind]. exact E3.
      * apply (set_dir_no_throw q1 id (rva_from_section_offset s1 pos) size x ltac:(lia)). unfold set_directory. rewrite E2. reflexivity.
    + destruct (run_recalculate i strip p0) as [q' r'] eqn:Err. cbn [snd] in R. subst r'. injection H as <- <-.
      destruct (recalc_fail_data p0 i strip _ q' x N0 Ho ltac:(unfold p0; rewrite put_len; exact Hl) Err) as (t & Nt & Rt). specialize (Hw t Nt). rewrite Rt in Hw. cbn [set_s_data s_data] in Hw. lia.
    + destruct (run_recalculate i strip p0) as [q' r']. cbn [snd] in R. subst r'. discriminate H.
    + destruct (run_recalculate i strip p0) as [q' r']. cbn [snd] in R. subst r'. discriminate H.
Qed.
Lemma open_sized p i total len s1 : good_align p -> sized p i -> 0 <= total -> len = total \/ len = align_up total (falign p) -> total < 2^32 -> open_room p i total len = Ok s1 ->
  (i < length (p_sections p))%nat /\ s_old s1 = None /\ 0 < s_vsize s1 <= 2^31 /\ (S i <> length (p_sections p) -> zlen (s_data s1) <= 2^31).
Proof.
  intros (Ps & Pf & L) Sz Ht Hl Hb E. unfold open_room in E. thr E A. bnd E s Es. thr E B. injection E as <-. apply get_section_inv in Es. destruct (Sz s Es) as (S1 & S2 & S3).
  split; [exact (nth_lt _ _ _ Es)|]. split; [destruct (zlen (s_data (unmap_virtual s)) <? total); [cbn [set_s_data s_old]|]; apply unmap_old|]. split; [destruct (zlen (s_data (unmap_virtual s)) <? total); [cbn [set_s_data s_vsize]|]; destruct (unmap_fields s) as (_ & V & _); rewrite V; exact S1|].
  intros Hn. fold (raw_view s). destruct (Z.ltb_spec (zlen (raw_view s)) total) as [C|C]; [|exact S3]. cbn [set_s_data s_data].
  apply andb_false_iff in B as [B|B]; [apply negb_false_iff, Nat.eqb_eq in B; lia|]. apply orb_false_iff in B as [_ B].
  assert (Ps31 : power_of_two (2^31)) by (exists 31; split; [lia|reflexivity]). pose proof (pow2_le31 _ Pf ltac:(lia)) as F31.
  assert (Q : forall x, 0 <= x <= 2^31 -> align_up x (falign p) <= 2^31 /\ 0 <= align_up x (falign p)).
  { intros x Hx. pose proof (ceil_mult_least x (falign p) (pow2_pos _ Pf)) as (_ & D2 & _ & D4). pose proof (D4 (2^31) (pow2_divide _ _ Pf Ps31 F31) ltac:(lia)). rewrite align_up_small by (try assumption; lia). lia. }
  pose proof (Q (s_rawsize s) S2) as [Q1 _]. assert (T : total <= 2^31) by lia. destruct Hl as [->| ->]; [rewrite zlen_resize by lia; lia|]. destruct (Q total ltac:(lia)). rewrite zlen_resize by lia. lia.
Qed.

(** Writers never throw, and keep the length. *)
Definition quiet {A} (len : A -> Z) (n : Z) (r : res A) : Prop := match r with Ok a => len a = n | Throw _ => False | _ => True end.
Lemma quiet_wr d off bs : quiet zlen (zlen d) (wr d off bs).
Proof. destruct (wr d off bs) as [r|e|u|] eqn:E; cbn; try exact Logic.I; [apply wr_inv in E as (A & B & ->); apply zlen_splice; assumption|]. unfold wr in E. destruct (_ && _) in E; discriminate E. Qed.
Lemma quiet_bind {A B} (la : A -> Z) (lb : B -> Z) n (r : res A) (k : A -> res B) : quiet la n r -> (forall a, la a = n -> quiet lb n (k a)) -> quiet lb n (bind r k).
Proof. unfold quiet at 1. destruct r as [a|e|u|]; cbn [bind]; intros H K; [apply K, H|contradiction|exact Logic.I|exact Logic.I]. Qed.
Lemma quiet_mfold {A B} (len : B -> Z) n (f : B -> A -> res B) l : (forall b a, len b = n -> quiet len n (f b a)) -> forall b, len b = n -> quiet len n (mfold f l b).
Proof. intros F. induction l as [|a l IH]; intros b Hb; cbn [mfold]; [exact Hb|]. apply (quiet_bind len); [apply F, Hb|]. intros b' Hb'. apply IH, Hb'. Qed.
Ltac wrs := repeat first [match goal with |- quiet _ _ (bind (wr ?d _ _) _) => apply (quiet_bind zlen); [match goal with H : zlen d = _ |- _ => rewrite <- H | |- _ => idtac end; apply quiet_wr|]; intros ? ? end].
Lemma quiet_table t d k : quiet (fun st => zlen (fst st)) (zlen d) (write_table (d, k) t).
Proof.
  unfold write_table. destruct t as [va l]. cbn [fst snd]. apply (quiet_bind zlen); [apply quiet_wr|]. intros d1 H1. apply (quiet_bind (fun st => zlen (fst st))).
  - unfold write_items. apply quiet_mfold; [|exact H1]. intros [d2 k2] e H2. cbn [fst snd] in *. apply (quiet_bind zlen); [rewrite <- H2; apply quiet_wr|]. intros d3 H3. exact H3.
  - intros [d2 k2] H2. cbn [fst] in H2. match goal with |- quiet _ _ (if ?c then _ else _) => destruct c end; [exact H2|]. apply (quiet_bind zlen); [rewrite <- H2; apply quiet_wr|]. intros d3 H3. exact H3.
Qed.

Lemma quiet_bound dir d k n m : quiet (fun st => zlen (fst (fst st))) (zlen d) (write_bound_import dir (d, k, n) m).
Proof.
  assert (W : forall d k n name ts third, quiet (fun st => zlen (fst (fst st))) (zlen d) (write_bound dir (d, k, n) name ts third)).
  { intros d0 k0 n0 name ts third. unfold write_bound. apply (quiet_bind zlen); [apply quiet_wr|]. intros d1 H1. apply (quiet_bind zlen); [rewrite <- H1; apply quiet_wr|]. intros d2 H2. exact H2. }
  unfold write_bound_import. destruct m as [[name ts] refs]. apply (quiet_bind (fun st => zlen (fst (fst st)))); [apply W|]. intros st H. apply quiet_mfold; [|exact H].
  intros [[d1 k1] n1] r H1. cbn [fst] in H1. rewrite <- H1. apply W.
Qed.
Lemma quiet_export s1 base st f : quiet (fun st => zlen (fst (fst (fst (fst st))))) (zlen (fst (fst (fst (fst st))))) (write_export s1 base st f).
Proof.
  unfold write_export. destruct st as [[[[d last] apos] fpos] m]. cbn [fst]. apply (quiet_bind (fun st => zlen (fst (fst st)))).
  - destruct (last <? e_ordinal f); [|reflexivity]. destruct (_ =? 0); [reflexivity|]. apply (quiet_bind zlen); [apply quiet_wr|]. intros d1 H1. exact H1.
  - intros [[d1 a1] l1] H1. cbn [fst] in H1. destruct (is_forwarded f).
    + apply (quiet_bind zlen); [rewrite <- H1; apply quiet_wr|]. intros d2 H2. apply (quiet_bind zlen); [rewrite <- H2; apply quiet_wr|]. intros d3 H3. exact H3.
    + apply (quiet_bind zlen); [rewrite <- H1; apply quiet_wr|]. intros d2 H2. exact H2.
Qed.
Lemma quiet_name s1 st x : quiet (fun st => zlen (fst (fst (fst st)))) (zlen (fst (fst (fst st)))) (write_export_name s1 st x).
Proof.
  unfold write_export_name. destruct st as [[[d npos] rpos] opos]. cbn [fst]. apply (quiet_bind zlen); [apply quiet_wr|]. intros d1 H1.
  apply (quiet_bind zlen); [rewrite <- H1; apply quiet_wr|]. intros d2 H2. apply (quiet_bind zlen); [rewrite <- H2; apply quiet_wr|]. intros d3 H3. exact H3.
Qed.
(** Every entry of the tree holds data or a directory. *)
Fixpoint filled (n : rnode) : Prop :=
  match n with
  | RDir _ l => fold_right (fun e P => match snd e with RNone => False | RData _ _ => True | RDir _ _ => filled (snd e) end /\ P) True l
  | _ => False
  end.
Notation held c := (match c with RNone => False | RData _ _ => True | RDir _ _ => filled c end).
Lemma filled_all h l : filled (RDir h l) <-> Forall (fun e => held (snd e)) l.
Proof. cbn [filled]. induction l as [|e l IH]; cbn [fold_right]; [split; [constructor|exact (fun _ => Logic.I)]|]. rewrite IH. symmetry. apply Forall_cons_iff. Qed.
Lemma space_filled n : forall st r, tables_space n st = Ok r -> filled n.
Proof.
  induction n as [|d c|h l IH] using rnode_ind2; intros st r H; try discriminate H. apply filled_all. cbn [tables_space] in H. revert H. generalize (u32 (fst st + 16), snd st). intros st0. revert st0.
  induction l as [|[name c] l IHl]; intros st0 H; [constructor|]. inversion IH as [|? ? I1 I2]; subst. bnd H st2 E2. constructor; [|exact (IHl I2 _ H)].
  cbn [snd] in *. destruct c as [|dd cc|h' l']; [discriminate E2|exact Logic.I|]. exact (I1 _ _ E2).
Qed.
Lemma sort_each (P : rentry -> Prop) l : Forall P l -> Forall P (sort_rentries l).
Proof.
  unfold sort_rentries. induction 1 as [|e l He Hl IH]; cbn [fold_right]; [constructor|]. revert IH. generalize (fold_right insert_rentry [] l). intros m. induction 1 as [|x m Hx Hm IHm]; cbn [insert_rentry]; [constructor; [exact He|constructor]|].
  destruct (rname_lt (fst x) (fst e)); constructor; try assumption. constructor; assumption.
Qed.
Lemma sort_filled n : filled n -> filled (sort_tree n).
Proof.
  induction n as [|d c|h l IH] using rnode_ind2; intros H; try contradiction H. cbn [sort_tree]. apply filled_all, sort_each. apply filled_all in H. apply Forall_map.
  induction l as [|[name c] l IHl]; [constructor|]. inversion IH as [|? ? I1 I2]; subst. inversion H as [|? ? H1 H2]; subst. constructor; [|apply IHl; assumption]. cbn [fst snd] in *. destruct c as [|dd cc|h' l']; [contradiction H1|exact Logic.I|]. exact (I1 H1).
Qed.
Lemma quiet_rname base name w : quiet (fun r => zlen (w_data (snd r))) (zlen (w_data w)) (write_rname base name w).
Proof.
  unfold write_rname. destruct name as [s|id]; [|reflexivity]. apply (quiet_bind zlen); [apply quiet_wr|]. intros d1 H1. apply (quiet_bind zlen); [rewrite <- H1; apply quiet_wr|]. intros d2 H2. exact H2.
Qed.
Lemma quiet_rdata s1 base data cp w : quiet (fun r => zlen (w_data (snd r))) (zlen (w_data w)) (write_rdata s1 base data cp w).
Proof.
  unfold write_rdata. apply (quiet_bind zlen); [apply quiet_wr|]. intros d1 H1. apply (quiet_bind zlen); [rewrite <- H1; apply quiet_wr|]. intros d2 H2. exact H2.
Qed.
Lemma quiet_rdir s1 base n : forall w, filled n -> quiet (fun w => zlen (w_data w)) (zlen (w_data w)) (write_rdir s1 base n w).
Proof.
  induction n as [|d c|h l IH] using rnode_ind2; intros w F; try contradiction F. apply filled_all in F. cbn [write_rdir]. apply (quiet_bind zlen); [apply quiet_wr|]. intros d1 H1.
  set (w0 := mk_rout d1 _ _ _). assert (H0 : zlen (w_data w0) = zlen (w_data w)) by exact H1. clearbody w0. rewrite <- H0. clear H0 H1 d1. revert w0. generalize (u32 (w_struct w + 16)). clear w.
  induction l as [|[name c] l IHl]; intros this w; [reflexivity|]. inversion IH as [|? ? I1 I2]; subst. inversion F as [|? ? F1 F2]; subst. cbn [snd] in *.
  apply (quiet_bind (fun r => zlen (w_data (snd r)))); [apply quiet_rname|]. intros [w1 wa] Ha. cbn [snd] in Ha.
  assert (Tail : forall d k1 k2 k3, zlen d = zlen (w_data wa) -> forall this', quiet (fun w => zlen (w_data w)) (zlen (w_data w))
     ((fix go (l : list rentry) (this : Z) (w : rout) {struct l} : res rout := match l with [] => Ok w | (name, c) :: t => ' (w1, wa) <- write_rname base name w ;;
             match c with
             | RData data codepage => ' (w2, wb) <- write_rdata s1 base data codepage wa ;; d <- wr (w_data wb) this (le 4 w1 ++ le 4 w2) ;; go t (u32 (this + 8)) (mk_rout d (w_struct wb) (w_pos wb) (w_text wb))
             | _ => d <- wr (w_data wa) this (le 4 w1 ++ le 4 (Z.lor (2^31) (u32 (w_struct wa - base)))) ;; wb <- write_rdir s1 base c (mk_rout d (w_struct wa) (w_pos wa) (w_text wa)) ;; go t (u32 (this + 8)) wb
             end end) l this' (mk_rout d k1 k2 k3))).
  { intros d k1 k2 k3 Hd this'. rewrite <- Ha, <- Hd. change (zlen d) with (zlen (w_data (mk_rout d k1 k2 k3))). apply IHl; assumption. }
  destruct c as [|data cp|h' l'].
  - contradiction F1.
  - apply (quiet_bind (fun r => zlen (w_data (snd r)))); [rewrite <- Ha; apply quiet_rdata|]. intros [w2 wb] Hb. cbn [snd] in Hb. apply (quiet_bind zlen); [rewrite <- Hb; apply quiet_wr|]. intros d Hd. apply Tail. lia.
  - apply (quiet_bind zlen); [rewrite <- Ha; apply quiet_wr|]. intros d Hd. apply (quiet_bind (fun w => zlen (w_data w))).
    + rewrite <- Hd. change (zlen d) with (zlen (w_data (mk_rout d (w_struct wa) (w_pos wa) (w_text wa)))). apply I1, F1.
    + intros wb Hb. destruct wb as [db k1 k2 k3]. cbn [w_data] in Hb. apply Tail. lia.
Qed.
