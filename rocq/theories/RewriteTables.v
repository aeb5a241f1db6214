(** Rewriting import tables where they are: one word, one table, all tables; as if the tables had been written before the rebuild. *)
From Verif Require Export RewriteBase.

Section Rw.
Variables (p : pe) (start : Z) (i : nat) (s : section).
Hypothesis IO : image_ok p start.
Hypothesis Hs : nth_error (p_sections p) i = Some s.
Hypothesis Us : s_old s = None.
Local Notation n := (word_size p).
Local Notation sz := (Z.of_nat (word_size p)).
Local Notation Img P d := (put_section P i (opened s d)).
(** Other bytes in the other sections. *)
Definition inv (P : pe) : Prop := mid p i (zlen (raw_view s)) P /\ nth_error (p_sections P) i = Some s.
Definition lies (j : nat) (a m : Z) : Prop := exists sj, j <> i /\ nth_error (p_sections p) j = Some sj /\ s_va sj <= a /\ zlen (p_full p) <= s_va sj /\
  a + m < s_va sj + zlen (raw_view sj) /\ zlen (raw_view sj) <= span (salign p) sj < 2^31.
Definition at_ (P : pe) (j : nat) (a : Z) (bs : list Z) : Prop := exists sj dj, nth_error (p_sections p) j = Some sj /\ nth_error (p_sections P) j = Some (opened sj dj) /\ holds dj (a - s_va sj) bs.
Definition same_out (P P' : pe) (ts : list (Z * Z)) : Prop := forall j sj dj dj', nth_error (p_sections p) j = Some sj -> nth_error (p_sections P) j = Some (opened sj dj) -> nth_error (p_sections P') j = Some (opened sj dj') ->
  zlen dj' = zlen dj /\ forall k, 0 <= k < zlen dj -> (forall t, In t ts -> s_va sj + k < fst t \/ fst t + snd t <= s_va sj + k) -> nth (Z.to_nat k) dj' 0 = nth (Z.to_nat k) dj 0.
Lemma some_opened (x : option section) sj d d' : x = Some (opened sj d) -> x = Some (opened sj d') -> d' = d.
Proof. intros -> H. injection H as H. symmetry. exact H. Qed.
Lemma inv_good P : inv P -> good p i s P.
Proof. intros ((l & -> & _) & H). exists l. split; [reflexivity|exact H]. Qed.
Lemma inv_nth P j sj : inv P -> nth_error (p_sections p) j = Some sj -> exists d, nth_error (p_sections P) j = Some (opened sj d) /\ bytes d /\ zlen d = zlen (raw_view sj).
Proof.
  intros (M & _) Hj. destruct (mid_nth _ _ _ _ M j sj Hj) as (d & H1 & H2 & H3). exists d. split; [exact H1|]. split; [exact H2|]. destruct (Nat.eqb_spec j i) as [->|_]; [|exact H3]. congruence.
Qed.
Lemma inv_self P : P = p -> unmapped p -> Forall wf_section (p_sections p) -> inv P.
Proof.
  intros -> U W. split; [|exact Hs]. pose proof (mid_self p i s (raw_view s) U W Hs (bytes_raw_view _ (nth_Forall _ _ _ _ W Hs))) as M. rewrite opened_self in M by exact Us. rewrite put_self in M by exact Hs. exact M.
Qed.
Lemma out_refl P : same_out P P [].
Proof. intros j sj dj dj' H1 H2 H3. rewrite (some_opened _ _ _ _ H2 H3). split; [reflexivity|]. reflexivity. Qed.
Lemma out_trans P Q R l m : inv Q -> same_out P Q l -> same_out Q R m -> same_out P R (l ++ m).
Proof.
  intros I H1 H2 j sj dj dj' E1 E2 E3. destruct (inv_nth Q j sj I E1) as (e & Ee & _). destruct (H1 j sj dj e E1 E2 Ee) as [L1 N1]. destruct (H2 j sj e dj' E1 Ee E3) as [L2 N2].
  split; [lia|]. intros k Hk Ht. rewrite N2; [apply N1; [exact Hk|]|lia|]; intros t In; apply Ht, in_or_app; tauto.
Qed.
Lemma out_more P Q l m : (forall t, In t l -> In t m) -> same_out P Q l -> same_out P Q m.
Proof. intros Hi H j sj dj dj' E1 E2 E3. destruct (H j sj dj dj' E1 E2 E3) as [L N]. split; [exact L|]. intros k Hk Ht. apply N; [exact Hk|]. intros t In. apply Ht, Hi, In. Qed.
(** Parts of a place. *)
Lemma out_cover P Q l m : (forall x, (forall t, In t m -> x < fst t \/ fst t + snd t <= x) -> forall t, In t l -> x < fst t \/ fst t + snd t <= x) -> same_out P Q l -> same_out P Q m.
Proof. intros Hi H j sj dj dj' E1 E2 E3. destruct (H j sj dj dj' E1 E2 E3) as [L N]. split; [exact L|]. intros k Hk Ht. apply N; [exact Hk|]. apply (Hi (s_va sj + k) Ht). Qed.
Lemma at_out P Q ts j b cs : inv Q -> same_out P Q ts -> at_ P j b cs -> (forall t, In t ts -> b + zlen cs <= fst t \/ fst t + snd t <= b) -> at_ Q j b cs.
Proof.
  intros I H (sj & dj & E1 & E2 & H3) Hap. destruct (inv_nth Q j sj I E1) as (e & Ee & _). destruct (H j sj dj e E1 E2 Ee) as [L N]. exists sj, e. split; [exact E1|]. split; [exact Ee|].
  destruct H3 as (R1 & R2 & R3). pose proof (zlen_nonneg cs) as Z0. apply nth_holds; [lia|lia|]. intros k Hk. rewrite N; [|lia|].
  - rewrite <- R3 at 1. rewrite nth_slice by lia. reflexivity.
  - intros t In. specialize (Hap t In). lia.
Qed.
Lemma at_app P j a bs cs : at_ P j a bs -> at_ P j (a + zlen bs) cs -> at_ P j a (bs ++ cs).
Proof.
  intros (sj & dj & E1 & E2 & H) (sj' & dj' & E1' & E2' & H'). rewrite E1 in E1'. injection E1' as <-. rewrite (some_opened _ _ _ _ E2 E2') in H'. exists sj, dj. split; [exact E1|]. split; [exact E2|].
  apply holds_app. split; [exact H|]. replace (a - s_va sj + zlen bs) with (a + zlen bs - s_va sj) by lia. exact H'.
Qed.
Lemma at_nil P j a m : inv P -> lies j a m -> 0 <= m -> at_ P j a [].
Proof. intros I (sj & Nj & Hj & Va & _ & Hr & _) Hm. destruct (inv_nth P j sj I Hj) as (d & Hd & _ & Ld). exists sj, d. split; [exact Hj|]. split; [exact Hd|]. apply holds_nil; lia. Qed.
Lemma lies_part j a m b k : lies j a m -> a <= b -> b + k <= a + m -> lies j b k.
Proof. intros (sj & H1 & H2 & H3 & H4 & H5 & H6) A B. exists sj. do 5 (split; [first [assumption|lia]|]). exact H6. Qed.
Lemma poke_step P d j a bs : inv P -> lies j a (zlen bs) -> 0 < zlen bs -> bytes bs ->
  exists x P', length_rva (Img P d) a a RawData true = Ok x /\ zlen bs < x /\ poke (Img P d) a bs = Ok (Img P' d) /\ inv P' /\ at_ P' j a bs /\ same_out P P' [(a, zlen bs)].
Proof.
  intros I (sj & Nj & Hj & Va & Hf & Hr & Sp) Zb Bb. pose proof I as [M Ps]. destruct (inv_nth P j sj I Hj) as (dj & Hd & Bd & Ld). pose proof IO as (G & W & D & St & Ch & Ce). pose proof (chain_layout _ _ G W Ch Ce) as Lay.
  pose proof (nth_Forall _ _ _ _ W Hj) as Wj. destruct (mid_fields _ _ _ _ M) as (Sa & _ & Fu & _). destruct (opened_fields sj dj) as (_ & F2 & F3 & _ & _ & F6 & F7 & F8).
  pose proof (chain_upper _ _ _ (pow2_pos _ (proj1 G)) W Ch) as Up. pose proof (nth_Forall _ _ _ _ Up Hj) as Uj. cbn beta in Uj. unfold send in Uj.
  assert (Oc : occupies (salign p) sj a) by (unfold occupies, send; lia).
  assert (Ep : section_from_rva p a = Ok j) by (apply (section_from_rva_spec _ _ _ Lay); exists sj; split; assumption).
  assert (Ej : section_from_rva (Img P d) a = Ok j).
  { rewrite <- Ep. unfold section_from_rva. change (salign (Img P d)) with (salign P). rewrite Sa.
    rewrite (find_index_same (fun x t => exists e, t = opened x e) (in_section (salign p) a) (in_section (salign p) a) (p_sections p) (p_sections (Img P d))); [reflexivity|intros x y [e ->]; apply opened_in|].
    apply Forall2_of_nth; [unfold put_section; cbn [set_p_sections p_sections]; rewrite upd_length; apply (mid_length _ _ _ _ M)|]. intros k x Hk. destruct (Nat.eq_dec i k) as [<-|Nk].
    - rewrite Hs in Hk. injection Hk as <-. exists (opened s d). split; [apply put_get, (nth_lt _ _ _ Ps)|exists d; reflexivity].
    - destruct (inv_nth P k x I Hk) as (e & He & _). exists (opened x e). split; [unfold put_section; cbn [set_p_sections p_sections]; rewrite nth_error_upd_other by congruence; exact He|exists e; reflexivity]. }
  assert (Gj : get_section (Img P d) j = Ok (opened sj dj)) by (apply get_section_ok; unfold put_section; cbn [set_p_sections p_sections]; rewrite nth_error_upd_other by congruence; exact Hd).
  set (d' := splice dj (a - s_va sj) bs). assert (Ld' : zlen d' = zlen dj) by (apply zlen_splice; lia). set (P' := put_section P j (opened sj d')).
  assert (Nj' : nth_error (p_sections P') j = Some (opened sj d')) by (apply put_get, (nth_lt _ _ _ Hd)).
  assert (Ni : nth_error (p_sections P') i = Some s) by (unfold P', put_section; cbn [set_p_sections p_sections]; rewrite nth_error_upd_other by congruence; exact Ps).
  assert (Uo : unmap_virtual (opened sj dj) = opened sj dj) by (unfold unmap_virtual; rewrite F7; reflexivity).
  exists (zlen dj + s_va sj - a), P'. split; [|split; [lia|split; [|split; [|split]]]].
  - unfold length_rva. change (p_full (Img P d)) with (p_full P). rewrite Fu. replace (a <? zlen (p_full p)) with false by lia. cbn [andb]. rewrite Ej. cbn [bind]. rewrite Gj. cbn [bind data_length]. rewrite F3, F8. replace (a <? s_va sj) with false by lia. cbn [throw_if bind].
    replace (zlen dj + s_va sj - a <? 0) with false by lia. rewrite u32_small by lia. reflexivity.
  - unfold poke. change (p_full (Img P d)) with (p_full P). rewrite Fu. replace (a <? zlen (p_full p)) with false by lia. rewrite Ej. cbn [bind]. rewrite Gj. cbn [bind]. rewrite Uo, F6, F3. replace (zlen dj =? 0) with false by lia. cbn [throw_if bind].
    rewrite wr_ok by lia. cbn [bind]. f_equal. unfold P'. rewrite put_comm by congruence. do 2 f_equal. 
  - split; [|exact Ni]. apply mid_put; [exact M|exact Hj|apply bytes_splice; assumption|]. rewrite Ld', Ld. destruct (Nat.eqb_spec j i) as [->|_]; [contradiction|reflexivity].
  - exists sj, d'. split; [exact Hj|]. split; [exact Nj'|]. apply holds_splice; lia.
  - intros k sk dk dk' H1 H2 H3. destruct (Nat.eq_dec j k) as [<-|Nk].
    + rewrite Hj in H1. injection H1 as <-. rewrite (some_opened _ _ _ _ Hd H2) in *. rewrite (some_opened _ _ _ _ Nj' H3). split; [exact Ld'|]. intros k Hk Ht. unfold d'. apply nth_splice; try lia. specialize (Ht _ (or_introl eq_refl)). cbn [fst snd] in Ht. lia.
    + unfold P', put_section in H3. cbn [set_p_sections p_sections] in H3. rewrite nth_error_upd_other in H3 by congruence. rewrite (some_opened _ _ _ _ H2 H3). split; reflexivity.
Qed.
Lemma thunk_step P d j a ip v : inv P -> lies j a sz ->
  exists P', put_thunk i true (Img P d) (a, ip) v = Ok (Img P' d, (a + sz, ip)) /\ inv P' /\ at_ P' j a (le n v) /\ same_out P P' [(a, sz)].
Proof.
  intros I L. pose proof (word_size_ok p) as W4. rewrite thunk_word in W4. destruct (poke_step P d j a (le n v) I) as (x & P' & E1 & E2 & E3 & E4 & E5 & E6); [rewrite zlen_le; exact L|rewrite zlen_le; lia|apply bytes_le|]. rewrite zlen_le in *.
  exists P'. split; [|split; [exact E4|split; assumption]]. destruct (good_sizes p i s P d (inv_good P I)) as (S1 & S2 & _). unfold put_thunk. cbn [fst snd]. rewrite E1. cbn [bind]. rewrite S1, S2. replace (x <=? sz) with false by lia. cbn [throw_if bind]. rewrite E3. cbn [bind].
  rewrite u32_small; [reflexivity|]. destruct L as (sj & _ & Hj & Va & Hfu & Hr & Sp). pose proof IO as (G & W & D & St & Ch & Ce). pose proof (chain_upper _ _ _ (pow2_pos _ (proj1 G)) W Ch) as Up. pose proof (nth_Forall _ _ _ _ Up Hj) as Uj. cbn beta in Uj. unfold send in Uj.
  pose proof (zlen_nonneg (p_full p)). lia.
Qed.
Hypothesis Va : 0 <= s_va s.
(** One function of a library whose tables are rewritten. *)
Lemma import_step (ro : bool) P d str d' str' j a ip jb b op f : inv P -> lies j a sz -> (ro = true -> lies jb b sz /\ (a + sz <= b \/ b + sz <= a)) -> 0 <= str -> s_va s + str < 2^32 ->
  import_d p s true false (d, str, (a, ip), (b, op)) f = Ok (d', str', (a, ip), (b, op)) ->
  exists P', write_import i false ro true ro (Img P d, str, (a, ip), (b, op)) f = Ok (Img P' d', str', (a + sz, ip), (if ro then b + sz else b, op)) /\ inv P' /\
    at_ P' j a (le n (if ro then m_iat f mod base_mod p else thunk_value p s str f)) /\ (ro = true -> at_ P' jb b (le n (thunk_value p s str f))) /\ same_out P P' ((a, sz) :: if ro then [(b, sz)] else []).
Proof.
  intros I L Lb H0 H1 E. destruct (good_sizes p i s P d (inv_good P I)) as (_ & _ & S3 & S4). unfold write_import. rewrite (good_get p) by exact (inv_good P I). cbn [bind]. rewrite good_rva, S3, S4. rewrite u32_small by lia.
  fold (thunk_value p s str f). unfold import_d in E. cbn [bind] in E.
  assert (S1 : exists P1, (if ro then put_thunk i true (Img P d) (a, ip) (m_iat f mod base_mod p) else if by_name f || true then put_thunk i true (Img P d) (a, ip) (thunk_value p s str f) else ' (p', _) <- put_thunk i true (Img P d) (a, ip) (thunk_value p s str f);; Ok (p', (a, ip))) = Ok (Img P1 d, (a + sz, ip)) /\ inv P1 /\
    at_ P1 j a (le n (if ro then m_iat f mod base_mod p else thunk_value p s str f)) /\ same_out P P1 [(a, sz)]).
  { rewrite orb_true_r. destruct ro; exact (thunk_step P d j a ip _ I L). }
  destruct S1 as (P1 & -> & I1 & A1 & O1). cbn [bind].
  assert (S2 : exists P2, (if ro then put_thunk i ro (Img P1 d) (b, op) (thunk_value p s str f) else Ok (Img P1 d, (b, op))) = Ok (Img P2 d, (if ro then b + sz else b, op)) /\ inv P2 /\
    (ro = true -> at_ P2 jb b (le n (thunk_value p s str f))) /\ same_out P1 P2 (if ro then [(b, sz)] else [])).
  { destruct ro; [|exists P1; split; [reflexivity|]; split; [exact I1|]; split; [discriminate|apply out_refl]]. destruct (thunk_step P1 d jb b op (thunk_value p s str f) I1 (proj1 (Lb eq_refl))) as (P2 & X1 & X2 & X3 & X4). exists P2. repeat (split; [assumption|]). split; [intros _; exact X3|exact X4]. }
  destruct S2 as (P2 & -> & I2 & A2 & O2). cbn [bind]. exists P2.
  split.
  { destruct (by_name f); [|congruence]. rewrite (good_wr p) by exact (inv_good P2 I2). destruct (wr d str (le 2 (m_hint f))) as [d3| | |]; cbn [bind] in *; try discriminate E. rewrite (good_wr p) by exact (inv_good P2 I2).
    destruct (wr d3 (str + 2) (m_name f ++ [0])) as [d4| | |]; cbn [bind] in *; try discriminate E. congruence. }
  split; [exact I2|]. split; [|split; [exact A2|exact (out_trans P P1 P2 [(a, sz)] _ I1 O1 O2)]].
  apply (at_out P1 P2 _ j a _ I2 O2 A1). intros t Ht. destruct ro; [|destruct Ht]. destruct Ht as [<-|[]]. cbn [fst snd]. rewrite zlen_le. destruct (Lb eq_refl). lia.
Qed.
Lemma import_names d str x y f : 0 <= str -> str + import_text_size f <= zlen d -> zlen d < 2^32 -> exists d', import_d p s true false (d, str, x, y) f = Ok (d', str + import_text_size f, x, y) /\ zlen d' = zlen d.
Proof.
  intros H1 H2 H3. rewrite named_size in *. unfold import_d. cbn [bind]. destruct (by_name f); [|exists d; rewrite Z.add_0_r; split; reflexivity]. pose proof (zlen_nonneg (m_name f)).
  destruct (wr_step d str (le 2 (m_hint f))) as (d3 & E1 & E2 & _); [lia|rewrite zlen_le; lia|]. rewrite E1. cbn [bind]. assert (Ln : zlen (m_name f ++ [0]) = zlen (m_name f) + 1) by (rewrite zlen_app; reflexivity).
  destruct (wr_step d3 (str + 2) (m_name f ++ [0])) as (d4 & G1 & G2 & _); [lia|lia|]. rewrite G1. cbn [bind]. exists d4. rewrite (u32_small (zlen (m_name f) + 1 + 2)) by lia. rewrite u32_small by lia. split; [|lia]. do 4 f_equal. lia.
Qed.
End Rw.
Section Rw2.
Variables (p : pe) (start : Z) (i : nat) (s : section).
Hypothesis IO : image_ok p start.
Hypothesis Hs : nth_error (p_sections p) i = Some s.
Hypothesis Us : s_old s = None.
Hypothesis Va : 0 <= s_va s.
Local Notation n := (word_size p).
Local Notation sz := (Z.of_nat (word_size p)).
Local Notation Img P d := (put_section P i (opened s d)).
Lemma import_names2 d str f : 0 <= str -> str + import_text_size f <= zlen d -> zlen d < 2^32 -> exists d', zlen d' = zlen d /\ forall x y, import_d p s true false (d, str, x, y) f = Ok (d', str + import_text_size f, x, y).
Proof.
  intros H1 H2 H3. destruct (import_names p s d str (0, 0) (0, 0) f H1 H2 H3) as (d' & E & L). exists d'. split; [exact L|]. intros x y. unfold import_d in *. cbn [bind] in *. destruct (by_name f); [|congruence].
  destruct (wr d str (le 2 (m_hint f))) as [d3| | |]; cbn [bind] in *; try discriminate E. destruct (wr d3 (str + 2) (m_name f ++ [0])) as [d4| | |]; cbn [bind] in *; try discriminate E. congruence.
Qed.
Lemma imports_step (ro : bool) fs : forall P d str j a ip jb b op, inv p i s P -> lies p i j a (sz * (zlen fs + 1)) ->
  (ro = true -> lies p i jb b (sz * (zlen fs + 1)) /\ (a + sz * (zlen fs + 1) <= b \/ b + sz * (zlen fs + 1) <= a)) -> 0 <= str -> str + total import_text_size fs <= zlen d -> s_va s + zlen d < 2^32 ->
  exists P' d', zlen d' = zlen d /\ (forall x y, mfold (import_d p s true false) fs (d, str, x, y) = Ok (d', str + total import_text_size fs, x, y)) /\
    mfold (write_import i false ro true ro) fs (Img P d, str, (a, ip), (b, op)) = Ok (Img P' d', str + total import_text_size fs, (a + sz * zlen fs, ip), (if ro then b + sz * zlen fs else b, op)) /\ inv p i s P' /\
    at_ p P' j a (wordl p (iat_values p s ro str fs)) /\ (ro = true -> at_ p P' jb b (wordl p (thunk_values p s str fs))) /\ same_out p P P' ((a, sz * zlen fs) :: if ro then [(b, sz * zlen fs)] else []).
Proof.
  pose proof (word_size_ok p) as W4. rewrite thunk_word in W4.
  induction fs as [|f fs IH]; intros P d str j a ip jb b op I L Lb H1 H2 H3.
  - change (@zlen imported []) with 0 in *. change (total import_text_size []) with 0 in *. rewrite Z.mul_0_r, !Z.add_0_r in *. exists P, d. split; [reflexivity|]. split; [reflexivity|]. split; [cbn [mfold]; destruct ro; rewrite ?Z.add_0_r; reflexivity|]. split; [exact I|].
    replace (iat_values p s ro str []) with (@nil Z) by (destruct ro; reflexivity). split; [apply (at_nil p i s Hs P j a _ I L); lia|]. split; [intros K; apply (at_nil p i s Hs P jb b _ I (proj1 (Lb K))); lia|].
    apply (out_more p P P []); [intros t []|apply out_refl].
  - rewrite zlen_cons, total_cons in *. pose proof (text_size_nonneg f) as T1. pose proof (total_nonneg import_text_size fs text_size_nonneg) as T2. pose proof (zlen_nonneg fs) as Z0.
    assert (M : sz * (1 + zlen fs) = sz + sz * zlen fs) by lia. assert (M2 : sz * (1 + zlen fs + 1) = sz + sz * (zlen fs + 1)) by lia. rewrite M, M2 in *. assert (Msz : 0 <= sz * zlen fs) by (apply Z.mul_nonneg_nonneg; lia).
    destruct (import_names2 d str f) as (d1 & L1 & N1); [lia|lia|lia|].
    destruct (import_step p start i s IO Hs Va ro P d str d1 (str + import_text_size f) j a ip jb b op f I) as (P1 & E1 & I1 & A1 & B1 & O1); [apply (lies_part _ _ _ _ _ _ _ L); lia| |lia|lia|apply N1|].
    { intros K. destruct (Lb K) as [K1 K2]. split; [apply (lies_part _ _ _ _ _ _ _ K1); lia|lia]. }
    destruct (IH P1 d1 (str + import_text_size f) j (a + sz) ip jb (if ro then b + sz else b) op I1) as (P2 & d2 & L2 & N2 & E2 & I2 & A2 & B2 & O2); [apply (lies_part _ _ _ _ _ _ _ L); lia| |lia|lia|lia|].
    { intros K. destruct (Lb K) as [K1 K2]. rewrite K. split; [apply (lies_part _ _ _ _ _ _ _ K1); lia|lia]. }
    exists P2, d2. split; [lia|]. split; [intros x y; cbn [mfold]; rewrite N1; cbn [bind]; rewrite N2; do 4 f_equal; lia|].
    split; [cbn [mfold]; rewrite E1; cbn [bind]; rewrite E2; rewrite !Z.add_assoc; destruct ro; rewrite ?Z.add_assoc; reflexivity|]. split; [exact I2|].
    assert (Fr : forall k c cs, at_ p P1 k c cs -> (c + zlen cs <= a + sz \/ a + sz + sz * zlen fs <= c) -> (ro = true -> c + zlen cs <= b + sz \/ b + sz + sz * zlen fs <= c) -> at_ p P2 k c cs).
    { intros k c cs Hc C1 C2. apply (at_out p i s Hs P1 P2 _ k c cs I2 O2 Hc). intros t [<-|Ht]; cbn [fst snd]; [lia|]. destruct ro; [|destruct Ht]. destruct Ht as [<-|[]]. cbn [fst snd]. specialize (C2 eq_refl). lia. }
    split. { rewrite iat_cons, wordl_cons. apply at_app; [apply Fr; [exact A1|rewrite zlen_le; lia|intros K; rewrite zlen_le; destruct (Lb K); lia]|]. rewrite zlen_le. exact A2. }
    split. { intros K. cbn [thunk_values]. rewrite wordl_cons. specialize (B1 K). specialize (B2 K). destruct (Lb K) as [_ K2]. subst ro. apply at_app; [apply Fr; [exact B1|rewrite zlen_le; lia|intros _; rewrite zlen_le; lia]|]. rewrite zlen_le. exact B2. }
    apply (out_cover p P P2 (((a, sz) :: if ro then [(b, sz)] else []) ++ ((a + sz, sz * zlen fs) :: if ro then [(b + sz, sz * zlen fs)] else []))).
    + intros x Hx t Ht. destruct ro; cbn [app In] in *; [pose proof (Hx _ (or_introl eq_refl)) as X1; pose proof (Hx _ (or_intror (or_introl eq_refl))) as X2; cbn [fst snd] in *|pose proof (Hx _ (or_introl eq_refl)) as X1; cbn [fst snd] in *];
        repeat (destruct Ht as [Ht|Ht]; [subst t; cbn [fst snd]; lia|]); destruct Ht.
    + destruct ro; exact (out_trans p start i s Hs P P1 P2 _ _ I1 O1 O2).
Qed.
Variable o : import_settings.
Hypothesis Fill : o_fill o = false.
(** What is in the rewritten tables of [l], whose name is at [str]. *)
Definition table_written (P : pe) (str : Z) (l : library) : Prop := rewritten o l = true ->
  (exists j, lies p i j (l_iat l) (library_table_size p l) /\ at_ p P j (l_iat l) (wordl p (iat_values p s (both_tables o l) (str + (zlen (l_name l) + 1)) (l_funcs l) ++ [0]))) /\
  (both_tables o l = true -> exists j, lies p i j (l_oiat l) (library_table_size p l) /\ at_ p P j (l_oiat l) (wordl p (thunk_values p s (str + (zlen (l_name l) + 1)) (l_funcs l) ++ [0]))).
Fixpoint tables_written (P : pe) (str : Z) (libs : list library) : Prop :=
  match libs with [] => True | l :: t => table_written P str l /\ tables_written P (str + library_text_size l) t end.
Lemma wr_length d off bs d' : wr d off bs = Ok d' -> zlen d' = zlen d.
Proof. unfold wr. destruct ((0 <=? off) && (off + zlen bs <=? zlen d)) eqn:E; [|discriminate]. intros H. injection H as <-. apply andb_true_iff in E as [E1 E2]. apply zlen_splice; lia. Qed.
Lemma self_good : good p i s p.
Proof. exists (p_sections p). split; [destruct p; reflexivity|exact Hs]. Qed.
Lemma library_d_ok l d str a ip b op dpos : valid_library l ->
  0 <= str -> str + library_text_size l <= dpos -> dpos + 20 <= ip -> ip + library_table_size p l <= op -> op + ostep p (no_rewrite o) l <= zlen d -> s_va s + zlen d < 2^32 ->
  exists d' a' b', library_d p s (no_rewrite o) ((d, str, (a, ip), (b, op)), dpos) l = Ok ((d', str + library_text_size l, (a', ip + lstep p (no_rewrite o) l), (b', op + ostep p (no_rewrite o) l)), dpos + 20) /\ zlen d' = zlen d.
Proof.
  intros V H1 H2 H3 H4 H5 H6. assert (Nr : kept (no_rewrite o) l && o_rewrite (no_rewrite o) = false) by (apply andb_false_r).
  destruct (write_library_ok p i s Hs Va (no_rewrite o) l d str a ip b op dpos Nr V H1 H2 H3 H4 H5 H6) as (d' & a' & b' & E & L & _). exists d', a', b'. split; [|exact L].
  rewrite (good_library p i s p (no_rewrite o) d str (a, ip) (b, op) dpos l self_good Nr) in E. destruct (library_d p s (no_rewrite o) (d, str, (a, ip), (b, op), dpos) l) as [[[[[d2 str2] x2] y2] dp2]| | |]; cbn [bind image2 image fst snd] in E; try discriminate E.
  injection E as E1 E2 E3 E4 E5. apply (f_equal (fun x => nth_error x i)) in E1. rewrite !nth_error_upd_same in E1 by apply (nth_lt _ _ _ Hs). injection E1 as E1. congruence.
Qed.
Lemma ordpairs_app {A} (R : A -> A -> Prop) l m : ForallOrdPairs R (l ++ m) -> ForallOrdPairs R l /\ ForallOrdPairs R m /\ forall x y, In x l -> In y m -> R x y.
Proof.
  induction l as [|z l IH]; cbn [app]; intros H; [split; [constructor|]; split; [exact H|intros x y []]|]. inversion H as [|? ? F G]; subst. destruct (IH G) as (I1 & I2 & I3). apply Forall_app in F as [F1 F2].
  split; [constructor; assumption|]. split; [exact I2|]. intros x y [<-|Hx] Hy; [rewrite Forall_forall in F2; exact (F2 y Hy)|exact (I3 x y Hx Hy)].
Qed.
Lemma library_step l P d str a ip b op dpos d' a' b' dpos' str' ip' op' : inv p i s P -> valid_library l ->
  Forall (fun t => exists j, lies p i j (fst t) (snd t)) (old_places p o l) -> disjoint (old_places p o l) ->
  0 <= str -> str + library_text_size l <= zlen d -> s_va s + zlen d < 2^32 ->
  library_d p s (no_rewrite o) ((d, str, (a, ip), (b, op)), dpos) l = Ok ((d', str', (a', ip'), (b', op')), dpos') ->
  exists P' a2 b2, write_library i o ((Img P d, str, (a, ip), (b, op)), dpos) l = Ok ((Img P' d', str', (a2, ip'), (b2, op')), dpos') /\ inv p i s P' /\ table_written P' str l /\ same_out p P P' (old_places p o l).
Proof.
  intros I V Lt Dj H1 H2 H3 E. pose proof (word_size_ok p) as W4. rewrite thunk_word in W4. unfold table_written, old_places in *. destruct (rewritten o l) eqn:Er.
  - unfold rewritten in Er. apply andb_true_iff in Er as [Ek Ew]. unfold stays in Ek. unfold library_d in E. cbn [no_rewrite o_save o_build o_fill] in E. rewrite Ek, Fill in E. cbn [negb andb orb] in E.
    unfold write_library. rewrite (good_get p) by exact (inv_good p i s P I). cbn [bind]. rewrite Ek, Ew, Fill. cbn [negb andb orb]. rewrite !good_rva. rewrite andb_false_r in *. fold (both_tables o l).
    set (oft := if o_build o then l_oiat l else 0) in *. rewrite (good_wr p) by exact (inv_good p i s P I).
    match goal with |- context[wr d dpos ?x] => set (D := x) in *; destruct (wr d dpos D) as [d1| | |] eqn:Ed; cbn [bind] in *; try discriminate E end. rewrite (good_wr p) by exact (inv_good p i s P I).
    destruct (wr d1 str (l_name l ++ [0])) as [d2| | |] eqn:Ed2; cbn [bind] in *; try discriminate E.
    assert (Ld : zlen d2 = zlen d) by (rewrite (wr_length _ _ _ _ Ed2), (wr_length _ _ _ _ Ed); reflexivity).
    pose proof (zlen_nonneg (l_name l)) as Z1. pose proof (total_nonneg import_text_size (l_funcs l) text_size_nonneg) as T2. pose proof (zlen_nonneg (l_funcs l)) as Z2.
    assert (Et : library_text_size l = zlen (l_name l) + 1 + total import_text_size (l_funcs l)) by (unfold library_text_size; lia).
    rewrite (u32_small (zlen (l_name l) + 1)) in * by lia. rewrite (u32_small (str + (zlen (l_name l) + 1))) in * by lia. set (str1 := str + (zlen (l_name l) + 1)) in *.
    inversion Lt as [|? ? (j & Lj) Lt2]; subst. cbn [fst snd] in Lj.
    assert (Lb : exists jb, both_tables o l = true -> oft = l_oiat l /\ lies p i jb oft (library_table_size p l) /\ apart (l_iat l) (library_table_size p l) oft (library_table_size p l)).
    { destruct (both_tables o l) eqn:Eb; [|exists 0%nat; discriminate]. inversion Lt2 as [|? ? (jb & Ljb) _]; subst. cbn [fst snd] in Ljb. unfold both_tables in Eb. apply andb_true_iff in Eb as [Eb _].
      assert (Eo : oft = l_oiat l) by (unfold oft; rewrite Eb; reflexivity). rewrite Eo. exists jb. intros _. split; [reflexivity|]. split; [exact Ljb|]. inversion Dj as [|? ? F _]; subst. inversion F as [|? ? Ap _]; subst. exact Ap. }
    destruct Lb as (jb & Lb). unfold library_table_size in Lj, Lb.
    destruct (imports_step (both_tables o l) (l_funcs l) P d2 str1 j (l_iat l) ip jb oft op I) as (P1 & d3 & L3 & N3 & E3 & I3 & A3 & B3 & O3); [exact Lj| |lia|lia|lia|].
    { intros K. destruct (Lb K) as (_ & K1 & K2). split; [exact K1|exact K2]. }
    rewrite N3 in E. cbn [bind] in E. rewrite E3. cbn [bind].
    assert (Msz : sz * (zlen (l_funcs l) + 1) = sz * zlen (l_funcs l) + sz) by lia. assert (M0 : 0 <= sz * zlen (l_funcs l)) by (apply Z.mul_nonneg_nonneg; lia).
    destruct (thunk_step p start i s IO Hs P1 d3 j (l_iat l + sz * zlen (l_funcs l)) ip 0 I3) as (P2 & E4 & I4 & A4 & O4); [apply (lies_part _ _ _ _ _ _ _ Lj); lia|]. rewrite E4. cbn [bind].
    assert (S5 : exists P3, (if both_tables o l then put_thunk i (both_tables o l) (Img P2 d3) (if both_tables o l then oft + sz * zlen (l_funcs l) else oft, op) 0 else Ok (Img P2 d3, (if both_tables o l then oft + sz * zlen (l_funcs l) else oft, op))) =
        Ok (Img P3 d3, (if both_tables o l then oft + sz * zlen (l_funcs l) + sz else oft, op)) /\ inv p i s P3 /\ (both_tables o l = true -> at_ p P3 jb (oft + sz * zlen (l_funcs l)) (le n 0)) /\ same_out p P2 P3 (if both_tables o l then [(oft + sz * zlen (l_funcs l), sz)] else [])).
    { destruct (both_tables o l); [|exists P2; split; [reflexivity|]; split; [exact I4|]; split; [discriminate|apply out_refl]].
      destruct (Lb eq_refl) as (_ & K1 & _). destruct (thunk_step p start i s IO Hs P2 d3 jb (oft + sz * zlen (l_funcs l)) op 0 I4) as (P3 & X1 & X2 & X3 & X4); [apply (lies_part _ _ _ _ _ _ _ K1); lia|]. exists P3. repeat (split; [assumption|]). split; [intros _; exact X3|exact X4]. }
    destruct S5 as (P3 & E5 & I5 & A5 & O5). rewrite E5. cbn [bind]. injection E as <- <- <- <- <- <- <-. exists P3. eexists _, _. split; [reflexivity|]. split; [exact I5|].
    assert (F5 : forall k c cs, at_ p P2 k c cs -> (both_tables o l = true -> c + zlen cs <= oft + sz * zlen (l_funcs l) \/ oft + sz * zlen (l_funcs l) + sz <= c) -> at_ p P3 k c cs).
    { intros k c cs Hc C2. apply (at_out p i s Hs P2 P3 _ k c cs I5 O5 Hc). intros t Ht. destruct (both_tables o l); [|destruct Ht]. destruct Ht as [<-|[]]. cbn [fst snd]. exact (C2 eq_refl). }
    assert (F4 : forall k c cs, at_ p P1 k c cs -> c + zlen cs <= l_iat l + sz * zlen (l_funcs l) \/ l_iat l + sz * zlen (l_funcs l) + sz <= c -> at_ p P2 k c cs).
    { intros k c cs Hc C2. apply (at_out p i s Hs P1 P2 _ k c cs I4 O4 Hc). intros t [<-|[]]. exact C2. }
    split.
    { intros _. split.
      - exists j. split; [exact Lj|]. rewrite wordl_app. apply at_app; [apply F5; [apply F4; [exact A3|]|]|]; rewrite ?wordl_len, ?iat_len; [lia|intros K; destruct (Lb K) as (_ & _ & Ap); unfold apart in Ap; lia|].
        unfold wordl. cbn [map concat]. rewrite app_nil_r. apply F5; [exact A4|]. rewrite zlen_le. intros K. destruct (Lb K) as (_ & _ & Ap). unfold apart in Ap. lia.
      - intros K. destruct (Lb K) as (Eo & K1 & Ap). rewrite <- Eo. exists jb. split; [exact K1|]. unfold apart in Ap. rewrite wordl_app. apply at_app; [apply F5; [apply F4; [exact (B3 K)|]|]|]; rewrite ?wordl_len, ?thunk_values_len; [lia|intros _; lia|].
        unfold wordl. cbn [map concat]. rewrite app_nil_r. exact (A5 K). }
    assert (O : same_out p P P3 (((l_iat l, sz * zlen (l_funcs l)) :: if both_tables o l then [(oft, sz * zlen (l_funcs l))] else []) ++ [(l_iat l + sz * zlen (l_funcs l), sz)] ++ (if both_tables o l then [(oft + sz * zlen (l_funcs l), sz)] else []))).
    { apply (out_trans p start i s Hs P P1 P3 _ _ I3 O3). apply (out_trans p start i s Hs P1 P2 P3 _ _ I4 O4 O5). }
    apply (out_cover p P P3 _ _ _ O) || (revert O; apply out_cover). intros x Hx t Ht. unfold library_table_size in Hx.
    destruct (both_tables o l) eqn:Eb; cbn [app In] in *.
    + destruct (Lb eq_refl) as (Eo & _). rewrite Eo in Ht. pose proof (Hx _ (or_introl eq_refl)) as X1. pose proof (Hx _ (or_intror (or_introl eq_refl))) as X2. cbn [fst snd] in *. repeat (destruct Ht as [Ht|Ht]; [subst t; cbn [fst snd]; lia|]). destruct Ht.
    + pose proof (Hx _ (or_introl eq_refl)) as X1. cbn [fst snd] in *. repeat (destruct Ht as [Ht|Ht]; [subst t; cbn [fst snd]; lia|]). destruct Ht.
  - exists P, a', b'. split; [|split; [exact I|split; [discriminate|apply out_refl]]]. rewrite (good_library p) by (try exact (inv_good p i s P I); exact Er).
    replace (library_d p s o (d, str, (a, ip), (b, op), dpos) l) with (library_d p s (no_rewrite o) (d, str, (a, ip), (b, op), dpos) l) by reflexivity. rewrite E. reflexivity.
Qed.
End Rw2.
Section Rw3.
Variables (p : pe) (start : Z) (i : nat) (s : section).
Hypothesis IO : image_ok p start.
Hypothesis Hs : nth_error (p_sections p) i = Some s.
Hypothesis Us : s_old s = None.
Hypothesis Va : 0 <= s_va s.
Variable o : import_settings.
Hypothesis Fill : o_fill o = false.
Local Notation n := (word_size p).
Local Notation sz := (Z.of_nat (word_size p)).
Local Notation Img P d := (put_section P i (opened s d)).
Definition all_places (libs : list library) : list (Z * Z) := concat (map (old_places p o) libs).
Lemma table_out P Q str l ts : inv p i s Q -> same_out p P Q ts -> (forall t u, In t (old_places p o l) -> In u ts -> apart (fst t) (snd t) (fst u) (snd u)) -> table_written p i s o P str l -> table_written p i s o Q str l.
Proof.
  intros I O Ap T Er. destruct (T Er) as [(j & L1 & A1) T2]. unfold old_places in Ap. rewrite Er in Ap.
  assert (Lw : forall x, zlen x = zlen (l_funcs l) -> zlen (wordl p (x ++ [0])) = library_table_size p l) by (intros x Hx; rewrite wordl_len, zlen_app, Hx; reflexivity).
  split.
  - exists j. split; [exact L1|]. apply (at_out p i s Hs P Q ts j _ _ I O A1). intros t Ht. rewrite Lw by apply iat_len. specialize (Ap _ t (or_introl eq_refl) Ht). unfold apart in Ap. cbn [fst snd] in Ap. lia.
  - intros K. destruct (T2 K) as (k & L2 & A2). exists k. split; [exact L2|]. rewrite K in Ap. apply (at_out p i s Hs P Q ts k _ _ I O A2). intros t Ht. rewrite Lw by apply thunk_values_len. specialize (Ap _ t (or_intror (or_introl eq_refl)) Ht). unfold apart in Ap. cbn [fst snd] in Ap. lia.
Qed.
Lemma libraries_step libs : forall P d str a ip b op dpos a0 b0, inv p i s P -> Forall valid_library libs ->
  Forall (fun t => exists j, lies p i j (fst t) (snd t)) (all_places libs) -> disjoint (all_places libs) ->
  0 <= str -> str + total library_text_size libs <= dpos -> dpos + 20 * zlen libs <= ip -> ip + total (library_table_size p) libs <= op ->
  op + (if two (no_rewrite o) then total (library_table_size p) libs else 0) <= zlen d -> s_va s + zlen d < 2^32 ->
  exists P' d' a1 b1 a2 b2 str' ip' op' dpos', mfold (library_d p s (no_rewrite o)) libs ((d, str, (a0, ip), (b0, op)), dpos) = Ok ((d', str', (a1, ip'), (b1, op')), dpos') /\
    mfold (write_library i o) libs ((Img P d, str, (a, ip), (b, op)), dpos) = Ok ((Img P' d', str', (a2, ip'), (b2, op')), dpos') /\ inv p i s P' /\ tables_written p i s o P' str libs /\ same_out p P P' (all_places libs).
Proof.
  induction libs as [|l libs IH]; intros P d str a ip b op dpos a0 b0 I Fv Lt Dj H1 H2 H3 H4 H5 H6.
  - exists P, d, a0, b0, a, b. do 4 eexists. split; [reflexivity|]. split; [reflexivity|]. split; [exact I|]. split; [exact Logic.I|apply out_refl].
  - inversion Fv as [|? ? Fv1 Fv2]; subst. unfold all_places in *. cbn [map concat] in *. apply Forall_app in Lt as [Lt1 Lt2]. apply ordpairs_app in Dj as (Dj1 & Dj2 & Dj3). rewrite zlen_cons in *. rewrite !total_cons in *.
    pose proof (ltext_nonneg l) as T1. pose proof (table_size_nonneg p l) as T2. pose proof (lstep_le p (no_rewrite o) l) as T3. pose proof (total_nonneg library_text_size libs ltext_nonneg) as T4.
    pose proof (total_nonneg (library_table_size p) libs (table_size_nonneg p)) as T5. pose proof (zlen_nonneg libs) as Z0.
    assert (Ho : 0 <= ostep p (no_rewrite o) l <= if two (no_rewrite o) then library_table_size p l else 0) by (unfold ostep; pose proof (wo_two (no_rewrite o) l) as Tw; destruct (wo_of (no_rewrite o) l); [rewrite (Tw eq_refl); lia|destruct (two (no_rewrite o)); lia]).
    destruct (library_d_ok p start i s IO Hs Va o l d str a ip b op dpos Fv1) as (d1 & x1 & y1 & E1 & L1); [lia|lia|lia|lia|destruct (two (no_rewrite o)); lia|lia|].
    destruct (library_step p start i s IO Hs Va o Fill l P d str a ip b op dpos d1 x1 y1 _ _ _ _ I Fv1 Lt1 Dj1 H1 ltac:(destruct (two (no_rewrite o)); lia) H6 E1) as (P1 & x2 & y2 & E2 & I1 & W1 & O1).
    destruct (IH P1 d1 (str + library_text_size l) x2 (ip + lstep p (no_rewrite o) l) y2 (op + ostep p (no_rewrite o) l) (dpos + 20) x1 y1 I1 Fv2 Lt2 Dj2) as (P2 & d2 & a1 & b1 & a2 & b2 & str' & ip' & op' & dpos' & E3 & E4 & I2 & W2 & O2); [lia|lia|lia|lia|destruct (two (no_rewrite o)); lia|lia|].
    exists P2, d2, a1, b1, a2, b2, str', ip', op', dpos'.
    split. { cbn [mfold]. replace (library_d p s (no_rewrite o) (d, str, (a0, ip), (b0, op), dpos) l) with (library_d p s (no_rewrite o) (d, str, (a, ip), (b, op), dpos) l) by reflexivity. rewrite E1. exact E3. }
    split. { cbn [mfold]. rewrite E2. exact E4. }
    split; [exact I2|]. split.
    + cbn [tables_written]. split; [|exact W2]. apply (table_out P1 P2 str l (concat (map (old_places p o) libs)) I2 O2); [|exact W1]. exact Dj3.
    + exact (out_trans p start i s Hs P P1 P2 _ _ I1 O1 O2).
Qed.
Lemma good_libraries P o' libs : good p i s P -> Forall (fun l => (o_save o' && negb (l_iat l =? 0)) && o_rewrite o' = false) libs -> forall d str ipos opos dpos,
  mfold (write_library i o') libs ((Img P d, str, ipos, opos), dpos) = (st' <- mfold (library_d p s o') libs ((d, str, ipos, opos), dpos) ;; Ok (image2 i s P st')).
Proof.
  intros G F. induction F as [|l libs F1 F2 IH]; intros d str ipos opos dpos; cbn [mfold]; [reflexivity|]. rewrite (good_library p) by assumption.
  destruct (library_d p s o' (d, str, ipos, opos, dpos) l) as [[[[[d1 str1] x] y] dp1]| | |]; cbn [bind image2 image fst snd]; [apply IH|reflexivity..].
Qed.
Lemma rewrite_equiv libs : unmapped p -> let size := import_size p libs o in let off := o_offset o in 0 <= off -> Forall valid_library libs -> room p start i (off + size) ->
  Forall (fun t => exists j, lies p i j (fst t) (snd t)) (all_places libs) -> disjoint (all_places libs) ->
  exists P, inv p i s P /\ tables_written p i s o P off libs /\ same_out p p P (all_places libs) /\ rebuild_imports p libs i o = rebuild_imports P libs i (no_rewrite o).
Proof.
  intros U size off Ho V R Lt Dj. set (T := total library_text_size libs). pose proof (word_size_ok p) as W4. rewrite thunk_word in W4.
  pose proof R as (_ & Tt & s0 & Hs0 & Hz0 & Hf & Hv & Hr & Hroom). rewrite Hs in Hs0. injection Hs0 as <-.
  pose proof IO as ((Ps & Pf & L) & W & _). pose proof (nth_Forall _ _ _ _ W Hs) as Ws.
  set (TS := total (library_table_size p) libs) in *. pose proof (total_nonneg library_text_size libs ltext_nonneg) as T0. fold T in T0.
  pose proof (total_nonneg (library_table_size p) libs (table_size_nonneg p)) as TS0. fold TS in TS0. pose proof (zlen_nonneg libs) as Z0.
  set (k := if two o then 2 else 1) in *.
  assert (Sz : size = T + 20 * (zlen libs + 1) + k * TS + sz) by reflexivity.
  assert (Hk : k = 1 \/ k = 2) by (unfold k; destruct (two o); lia). assert (Hk2 : TS <= k * TS <= 2 * TS) by (destruct Hk as [-> | ->]; lia).
  destruct (open_room_ok p start i (off + size) (off + size) R ltac:(pose proof (ceil_mult_least (off + size) (falign p) (pow2_pos _ Pf)); lia)) as (s' & d0 & Hs' & Eo & Pd & L1 & L2 & L3).
  rewrite Hs in Hs'. inversion Hs'; subst s'; clear Hs'.
  assert (Bv : s_va s + zlen d0 < 2^32).
  { pose proof IO as (_ & W' & _ & _ & Ch & Ce). pose proof (chain_upper _ _ _ (pow2_pos _ Ps) W' Ch) as Up. pose proof (nth_Forall _ _ _ _ Up Hs) as Us0. cbn beta in Us0. unfold send in Us0.
    destruct L2 as [L2|L2]; [lia|]. rewrite L2. destruct (Nat.eqb (S i) (length (p_sections p))); [pose proof (ceil_mult_least (off + size) (salign p) (pow2_pos _ Ps)); lia|lia]. }
  assert (Ei : import_iat_size sz libs = TS) by (apply iat_size_ok; fold TS; lia).
  assert (En : u32 (u32 ((1 + zlen libs) * 20) + (if o_build o || o_fill o then u32 (TS * 2) else TS) + sz + T) = size).
  { rewrite (u32_small ((1 + zlen libs) * 20)) by lia. fold (two o). unfold k in *. destruct (two o); [rewrite (u32_small (TS * 2)) by lia|]; rewrite u32_small by lia; lia. }
  assert (P4 : power_of_two sz) by (destruct W4 as [-> | ->]; [exists 2|exists 3]; split; [lia|reflexivity|lia|reflexivity]).
  pose proof (ceil_mult_least (T + off + (1 + zlen libs) * 20) sz ltac:(lia)) as (_ & Q2 & Q3 & _). set (ip := ceil_mult (T + off + (1 + zlen libs) * 20) sz) in *.
  assert (Al : align_up (u32 (T + off + (1 + zlen libs) * 20)) sz = ip) by (rewrite u32_small by lia; apply align_up_small; [exact P4|lia|lia|fold ip; lia]). clearbody ip.
  assert (Hop : ip + TS + (if two o then TS else 0) <= off + size) by (unfold k in *; destruct (two o); lia).
  destruct (libraries_step libs p d0 off 0 ip 0 (ip + TS) (T + off) 0 0 (inv_self p i s Hs Us p eq_refl U W) V Lt Dj) as (P & d1 & a1 & b1 & a2 & b2 & str' & ip' & op' & dpos' & E1 & E2 & I & Tw & O); try (fold T TS; change (two (no_rewrite o)) with (two o); lia).
  exists P. split; [exact I|]. split; [exact Tw|]. split; [exact O|].
  assert (Sl : thunk_size P = sz /\ open_room P i (off + size) (off + size) = open_room p i (off + size) (off + size)).
  { destruct I as [M Pi]. pose proof (mid_length _ _ _ _ M) as Ml. destruct (mid_fields _ _ _ _ M) as (_ & X2 & _ & _ & X5). split; [unfold thunk_size, base_size; rewrite X5; reflexivity|].
    unfold open_room, section_attached. rewrite Ml, (get_section_ok _ _ _ Pi), (get_section_ok _ _ _ Hs), X2. reflexivity. }
  destruct Sl as [Sl1 Sl2]. unfold rebuild_imports. rewrite Sl1. change (thunk_size p) with sz. cbn [no_rewrite o_offset o_build o_fill o_headers o_zero_iat o_strip]. fold off. rewrite string_size_ok by (fold T; lia). fold T. rewrite Ei, En.
  rewrite (Z.add_comm size off). rewrite (u32_small (off + size)) by lia. rewrite Sl2, Eo. cbn [bind]. rewrite Al. rewrite (u32_small (ip + TS)) by lia. rewrite (u32_small (T + off)) by lia.
  rewrite E2. rewrite good_libraries; [|exact (inv_good p i s P I)|apply Forall_forall; intros x _; apply andb_false_r]. rewrite E1. reflexivity.
Qed.
End Rw3.
