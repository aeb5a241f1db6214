(** Proofs about string tables, message tables and bitmaps. *)
From Verif Require Export SpecResData DirFacts.

(** ** Wide strings *)
Lemma stands_holds d off bs : stands d off bs <-> holds d off bs.
Proof.
  unfold stands, holds. pose proof (zlen_nonneg bs) as Hb. split.
  - intros (a & b & -> & <-). pose proof (zlen_nonneg a). pose proof (zlen_nonneg b). rewrite !zlen_app. split; [lia|]. split; [lia|].
    rewrite slice_app_r by lia. rewrite Z.sub_diag, slice_app_l by lia. apply slice_all. lia.
  - intros (H1 & H2 & H3). exists (ztake off d), (zdrop (off + zlen bs) d). split; [|apply zlen_ztake; lia].
    rewrite <- H3 at 1. rewrite <- slice_full; [reflexivity|lia|lia|lia].
Qed.
Lemma le2 x : le 2 x = [x mod 256; x / 256 mod 256].
Proof. reflexivity. Qed.
Lemma zlen_wide s : zlen (wide s) = 2 * zlen s.
Proof. unfold wide. induction s as [|x s IH]; [reflexivity|]. cbn [map concat]. rewrite zlen_app, zlen_le, zlen_cons, IH. lia. Qed.
Lemma bytes_wide s : bytes (wide s).
Proof. unfold wide. induction s as [|x s IH]; [constructor|]. cbn [map concat]. apply bytes_app. split; [apply bytes_le|exact IH]. Qed.
Lemma units_wide s : wide_ok s -> units (wide s) = s.
Proof.
  unfold wide, wide_ok, is_u16. induction s as [|x s IH]; intros H; [reflexivity|]. apply Forall_cons_iff in H as [Hx H].
  cbn [map concat]. rewrite le2. cbn [app units]. rewrite IH by exact H. f_equal. lia.
Qed.
Lemma pair_ind (P : list Z -> Prop) : P [] -> (forall a, P [a]) -> (forall a b t, P t -> P (a :: b :: t)) -> forall l, P l.
Proof. intros H0 H1 H2. fix F 1. intros [|a [|b t]]; [exact H0|apply H1|apply H2, F]. Qed.
Lemma wide_units d : bytes d -> zlen d mod 2 = 0 -> wide (units d) = d /\ wide_ok (units d).
Proof.
  induction d as [|a|a b t IH] using pair_ind; intros B E.
  - split; [reflexivity|constructor].
  - discriminate E.
  - apply Forall_cons_iff in B as [Ba B]. apply Forall_cons_iff in B as [Bb B]. rewrite !zlen_cons in E.
    destruct (IH B ltac:(lia)) as [I1 I2]. cbn [units]. split.
    + unfold wide in *. cbn [map concat]. rewrite I1, le2. cbn [app]. repeat f_equal; lia.
    + constructor; [unfold is_u16; lia|exact I2].
Qed.
Lemma zlen_units d : zlen d mod 2 = 0 -> zlen (units d) = zlen d / 2.
Proof.
  induction d as [|a|a b t IH] using pair_ind; intros E; [reflexivity|discriminate E|]. rewrite !zlen_cons in *. cbn [units]. rewrite zlen_cons, IH by lia. lia.
Qed.
Lemma rd_units_inv d off n s : bytes d -> 0 <= n -> rd_units d off n = Ok s -> wide_ok s /\ zlen s = n /\ holds d off (wide s).
Proof.
  intros B Hn H. unfold rd_units in H. bnd H bs E. assert (s = units bs) as -> by congruence. apply rd_inv in E as (E0 & E1 & E2 & ->).
  assert (L : zlen (slice d off (2 * n)) = 2 * n) by (apply zlen_slice; lia).
  destruct (wide_units (slice d off (2 * n)) (bytes_slice _ _ _ B) ltac:(lia)) as [W1 W2].
  split; [exact W2|]. split; [rewrite zlen_units by lia; lia|]. rewrite W1. unfold holds. rewrite L. split; [lia|]. split; [lia|reflexivity].
Qed.
Lemma rd_units_ok d off s : wide_ok s -> holds d off (wide s) -> rd_units d off (zlen s) = Ok s.
Proof.
  intros W (H1 & H2 & H3). rewrite zlen_wide in *. unfold rd_units. pose proof (zlen_nonneg s). rewrite rd_ok by lia. cbn [bind]. rewrite H3, units_wide by exact W. reflexivity.
Qed.

(** ** Maps *)
Lemma zinsert_last {A} k (v : A) m : Forall (fun x => fst x < k) m -> zinsert k v m = m ++ [(k, v)].
Proof.
  induction m as [|[k' v'] m IH]; intros H; [reflexivity|]. apply Forall_cons_iff in H as [H1 H]. cbn [fst] in H1. cbn [zinsert app].
  replace (k <? k') with false by lia. replace (k =? k') with false by lia. rewrite IH by exact H. reflexivity.
Qed.
Lemma zinsert_in {A} k (v : A) m : forall k' v', In (k', v') (zinsert k v m) -> (k' = k /\ v' = v) \/ In (k', v') m.
Proof.
  induction m as [|[a b] m IH]; intros k' v' H; cbn [zinsert] in H.
  - destruct H as [H|[]]. left. split; congruence.
  - destruct (k <? a); [|destruct (k =? a)].
    + destruct H as [H|H]; [left; split; congruence|right; exact H].
    + right; exact H.
    + destruct H as [H|H]; [right; left; exact H|]. destruct (IH _ _ H) as [G|G]; [left; exact G|right; right; exact G].
Qed.
Lemma zinsert_sorted {A} k (v : A) m : Sorted.StronglySorted Z.lt (map fst m) -> Sorted.StronglySorted Z.lt (map fst (zinsert k v m)).
Proof.
  induction m as [|[a b] m IH]; intros H; cbn [zinsert map fst].
  - repeat constructor.
  - cbn [map fst] in H. apply Sorted.StronglySorted_inv in H as [H1 H2]. destruct (Z.ltb_spec k a) as [L|L]; [|destruct (Z.eqb_spec k a) as [E|N]].
    + cbn [map fst]. constructor; [constructor; assumption|]. constructor; [exact L|]. eapply Forall_impl; [|exact H2]. cbn. intros; lia.
    + cbn [map fst]. constructor; assumption.
    + cbn [map fst]. constructor; [apply IH, H1|]. apply Forall_forall. intros x Hx. apply in_map_iff in Hx as ([x' y] & <- & Hx). cbn [fst].
      destruct (zinsert_in _ _ _ _ _ Hx) as [[-> _]|G]; [lia|]. rewrite Forall_forall in H2. apply H2. apply (in_map fst) in G. exact G.
Qed.
Lemma zinsert_has {A} k (v : A) m : Sorted.StronglySorted Z.lt (map fst m) -> forall k' v', In (k', v') (zinsert k v m) <-> In (k', v') m \/ (k' = k /\ v' = v /\ ~ In k (map fst m)).
Proof.
  induction m as [|[a b] m IH]; intros H k' v'; cbn [zinsert map fst].
  - cbn [In]. split; [intros [E|[]]; right|intros [[]|(-> & -> & _)]; left; reflexivity]. assert (k' = k /\ v' = v) as [-> ->] by (split; congruence). tauto.
  - cbn [map fst] in H. apply Sorted.StronglySorted_inv in H as [H1 H2]. rewrite Forall_forall in H2. destruct (Z.ltb_spec k a) as [L|L]; [|destruct (Z.eqb_spec k a) as [E|N]].
    + cbn [In]. split.
      * intros [E|G]; [right|left; exact G]. assert (k' = k /\ v' = v) as [-> ->] by (split; congruence). split; [reflexivity|]. split; [reflexivity|].
        intros [G|G]; [lia|]. specialize (H2 _ G). lia.
      * intros [G|(-> & -> & _)]; [right; exact G|left; reflexivity].
    + subst a. cbn [In]. split; [intros G; left; exact G|]. intros [G|(-> & -> & G)]; [exact G|]. exfalso. apply G. left; reflexivity.
    + cbn [In]. rewrite (IH H1). split.
      * intros [G|[G|(-> & -> & G)]]; [left; left; exact G|left; right; exact G|]. right. split; [reflexivity|]. split; [reflexivity|]. intros [Q|Q]; [lia|contradiction].
      * intros [[G|G]|(-> & -> & G)]; [left; exact G|right; left; exact G|]. right. right. split; [reflexivity|]. split; [reflexivity|]. intros Q. apply G. right; exact Q.
Qed.
(** Inserting the pairs of a list one after the other. *)
Definition zinsert_all {A} (l m : list (Z * A)) : list (Z * A) := fold_left (fun m kv => zinsert (fst kv) (snd kv) m) l m.
Lemma zinsert_all_app {A} (l1 l2 m : list (Z * A)) : zinsert_all (l1 ++ l2) m = zinsert_all l2 (zinsert_all l1 m).
Proof. apply fold_left_app. Qed.
Lemma zinsert_all_first {A} (l : list (Z * A)) : first_wins l (zinsert_all l []).
Proof.
  unfold first_wins. induction l as [|[k v] l IH] using rev_ind.
  - cbn. split; [constructor|]. intros k v. split; [intros []|]. intros ([|] & l2 & E & _); discriminate.
  - destruct IH as [S1 S2]. rewrite zinsert_all_app. cbn [zinsert_all fold_left fst snd]. fold (zinsert_all l (@nil (Z * A))). set (m := zinsert_all l []) in *.
    assert (K : In k (map fst m) <-> In k (map fst l)).
    { split; intros G; apply in_map_iff in G as ([k' w] & Ek & G); cbn [fst] in Ek; subst k'.
      - apply S2 in G as (l1 & l2 & -> & _). rewrite map_app. apply in_or_app. right. left. reflexivity.
      - clear -G S2. apply in_map_iff. revert w G. assert (Q : forall l0 l1, l = l0 ++ l1 -> ~ In k (map fst l0) -> forall w, In (k, w) l1 -> exists x, fst x = k /\ In x m).
        { intros l0 l1; revert l0. induction l1 as [|[a b] l1 I]; intros l0 E N w G; [destruct G|]. destruct (Z.eq_dec a k) as [->|Na].
          - exists (k, b). split; [reflexivity|]. apply S2. exists l0, l1. split; assumption.
          - destruct G as [G|G]; [congruence|]. apply (I (l0 ++ [(a, b)])) with (w := w); [rewrite <- app_assoc; exact E| |exact G].
            rewrite map_app. intros X. apply in_app_or in X as [X|[X|[]]]; [contradiction|cbn in X; lia]. }
        intros w G. apply (Q [] l eq_refl) with (w := w); [intros []|exact G]. }
    split; [apply zinsert_sorted, S1|]. intros k' v'. rewrite (zinsert_has k v m S1), S2, K. split.
    + intros [(l1 & l2 & -> & N)|(-> & -> & N)].
      * exists l1, (l2 ++ [(k, v)]). split; [rewrite <- app_assoc; reflexivity|exact N].
      * exists l, []. split; [reflexivity|exact N].
    + intros (l1 & l2 & E & N). destruct l2 as [|x l2 _] using rev_ind.
      * apply app_inj_tail in E as [-> E]. right. assert (k' = k /\ v' = v) as [-> ->] by (split; congruence). tauto.
      * left. rewrite app_comm_cons, app_assoc in E. apply app_inj_tail in E as [-> _]. exists l1, l2. split; [reflexivity|exact N].
Qed.

(** ** String tables *)
Lemma zlen_zero {A} (l : list A) : zlen l = 0 -> l = [].
Proof. destruct l; [reflexivity|]. rewrite zlen_cons. pose proof (zlen_nonneg l). lia. Qed.
Lemma rd_le_ok' d off n v : 0 <= v < 256 ^ Z.of_nat n -> holds d off (le n v) -> rd_le d off n = Ok v.
Proof.
  intros V (H1 & H2 & H3). rewrite zlen_le in *. unfold rd_le. rewrite rd_ok by lia. cbn [bind]. rewrite H3. rewrite unle_le_small by exact V. reflexivity.
Qed.
Lemma rd_le_inv d off n v : bytes d -> rd_le d off n = Ok v -> 0 <= v < 256 ^ Z.of_nat n /\ holds d off (le n v).
Proof.
  intros B H. unfold rd_le in H. bnd H bs E. assert (v = unle bs) as -> by congruence. apply rd_inv in E as (E0 & E1 & E2 & ->).
  pose proof (bytes_slice d off (Z.of_nat n) B) as Bs. assert (L : zlen (slice d off (Z.of_nat n)) = Z.of_nat n) by (apply zlen_slice; lia).
  split; [pose proof (unle_bound _ Bs) as U; rewrite L in U; exact U|]. rewrite le_unle_n; [|exact Bs|unfold zlen in L; lia]. unfold holds. rewrite L. split; [lia|]. split; [lia|reflexivity].
Qed.
Definition string_id (id i : Z) : Z := (16 * (id - 1) + i) mod 2^16.
Lemma string_id_u16 id i : u16 (u32 (Z.shiftl (u32 (id - 1)) 4 + i)) = string_id id i.
Proof. unfold string_id, u16, u32. rewrite Z.shiftl_mul_pow2 by lia. change (2 ^ 4) with 16. lia. Qed.
Lemma zlen_counted s : zlen (counted s) = 2 + 2 * zlen s.
Proof. unfold counted. rewrite zlen_app, zlen_le, zlen_wide. reflexivity. Qed.
Lemma string_step_iff id d passed m i r : bytes d -> 0 <= passed < 2^31 ->
  (string_step id d (passed, m) i = Ok r <->
   exists s, string_ok s /\ holds d passed (counted s) /\ r = (passed + zlen (counted s), match s with [] => m | _ => zinsert (string_id id i) s m end)).
Proof.
  intros B Hp. unfold string_step. cbv iota beta. rewrite string_id_u16. split.
  - intros H. thr H T1. bnd H len E1. apply rd_le_inv in E1 as [Hl H1]; [|exact B]. change (256 ^ Z.of_nat 2) with (2^16) in Hl.
    cbv zeta in H. rewrite (u32_small (passed + 2)) in H by lia. rewrite (u32_small (len + (passed + 2))) in H by lia. thr H T2.
    rewrite (u32_small (passed + 2 + len * 2)) in H by lia. bnd H m' E2.
    destruct (Z.eqb_spec len 0) as [->|Nz].
    + exists []. split; [split; [constructor|reflexivity]|]. split; [exact H1|]. change (zlen (counted [])) with 2. assert (m = m') as -> by congruence.
      assert (r = (passed + 2 + 0 * 2, m')) as -> by congruence. f_equal. lia.
    + bnd E2 s E3. apply rd_units_inv in E3 as (W & L & H3); [|exact B|lia]. exists s. split; [split; [exact W|lia]|]. split.
      * unfold counted. apply holds_app. rewrite L. split; [exact H1|]. rewrite zlen_le. exact H3.
      * rewrite zlen_counted, L. destruct s as [|x s]; [change (@zlen Z []) with 0 in L; lia|]. assert (m' = zinsert (string_id id i) (x :: s) m) as -> by congruence.
        assert (r = (passed + 2 + len * 2, zinsert (string_id id i) (x :: s) m)) as -> by congruence. f_equal. lia.
  - intros (s & [W L] & H & ->). unfold counted in H. apply holds_app in H as [H1 H2]. rewrite zlen_le in H2. change (passed + Z.of_nat 2) with (passed + 2) in H2.
    pose proof (holds_range _ _ _ H1) as R1. pose proof (holds_range _ _ _ H2) as R2. rewrite zlen_le in R1. rewrite zlen_wide in R2. pose proof (zlen_nonneg s).
    replace (zlen d <? 2 + passed) with false by lia. unfold throw_if at 1. cbn [bind]. rewrite (rd_le_ok' d passed 2 (zlen s)); [|change (256 ^ Z.of_nat 2) with (2^16); lia|exact H1].
    cbn [bind]. cbv zeta. rewrite (u32_small (passed + 2)) by lia. rewrite (u32_small (zlen s + (passed + 2))) by lia.
    replace (zlen d <? zlen s + (passed + 2)) with false by lia. unfold throw_if. cbn [bind]. rewrite (u32_small (passed + 2 + zlen s * 2)) by lia. rewrite zlen_counted.
    destruct s as [|x s].
    + change (@zlen Z []) with 0. cbn [Z.eqb bind]. f_equal. f_equal. lia.
    + replace (zlen (x :: s) =? 0) with false by (rewrite zlen_cons in *; pose proof (zlen_nonneg s); lia).
      rewrite rd_units_ok by assumption. cbn [bind]. f_equal. f_equal. lia.
Qed.
Fixpoint zrange (i : Z) (n : nat) : list Z := match n with O => [] | S k => i :: zrange (i + 1) k end.
Lemma string_fold id d : bytes d -> forall n i passed m r, 0 <= i -> i + Z.of_nat n <= 16 -> 0 <= passed <= zlen d -> passed + 131072 * Z.of_nat n < 2^31 ->
  Forall (fun x => fst x < string_id id 0 + i) m ->
  (mfold (string_step id d) (zrange i n) (passed, m) = Ok r <->
   exists ss, length ss = n /\ Forall string_ok ss /\ holds d passed (concat (map counted ss)) /\ r = (passed + zlen (concat (map counted ss)), m ++ numbered id i ss)).
Proof.
  intros B. induction n as [|n IH]; intros i passed m r Hi Hn Hp Hb Hm; cbn [zrange mfold].
  - split.
    + intros H. exists []. split; [reflexivity|]. split; [constructor|]. split; [apply holds_nil; lia|]. cbn [map concat numbered]. change (@zlen Z []) with 0. rewrite app_nil_r, Z.add_0_r. congruence.
    + intros (ss & L & _ & _ & ->). destruct ss; [|discriminate]. cbn [map concat numbered]. change (@zlen Z []) with 0. rewrite app_nil_r, Z.add_0_r. reflexivity.
  - assert (Sid : string_id id i = string_id id 0 + i) by (unfold string_id in *; lia).
    assert (M : forall s, Forall (fun x => fst x < string_id id 0 + (i + 1)) (match s with [] => m | _ => zinsert (string_id id i) s m end) /\
        (match s with [] => m | _ => zinsert (string_id id i) s m end) = m ++ match s with [] => [] | _ => [(string_id id i, s)] end).
    { intros s. assert (Hm1 : Forall (fun x => fst x < string_id id 0 + (i + 1)) m) by (eapply Forall_impl; [|exact Hm]; cbn; intros; lia).
      destruct s as [|x s]; [split; [exact Hm1|rewrite app_nil_r; reflexivity]|]. rewrite zinsert_last by (rewrite Sid; exact Hm). split; [|reflexivity].
      apply Forall_app. split; [exact Hm1|]. constructor; [cbn [fst]; lia|constructor]. }
    assert (NC : forall s ss, numbered id i (s :: ss) = (match s with [] => [] | _ => [(string_id id i, s)] end) ++ numbered id (i + 1) ss) by (intros [|x s] ss; reflexivity).
    split.
    + intros H. bnd H st E. apply string_step_iff in E as (s & [W L] & H1 & ->); [|exact B|lia]. pose proof (holds_range _ _ _ H1) as R1. pose proof (zlen_counted s) as LC. pose proof (zlen_nonneg s).
      apply IH in H as (ss & Ls & Ws & H2 & ->); [|lia|lia|lia|lia|apply M].
      exists (s :: ss). split; [cbn [length]; lia|]. split; [constructor; [split|]; assumption|]. cbn [map concat]. split; [apply holds_app; split; assumption|].
      rewrite zlen_app, NC. destruct (M s) as [_ ->]. rewrite <- app_assoc, Z.add_assoc. reflexivity.
    + intros (ss & Ls & Ws & H & ->). destruct ss as [|s ss]; [discriminate|]. apply Forall_cons_iff in Ws as [W Ws]. cbn [map concat] in *. apply holds_app in H as [H1 H2].
      pose proof (holds_range _ _ _ H1) as R1. pose proof (zlen_counted s) as LC. pose proof (zlen_nonneg s). pose proof (proj2 W) as WL.
      assert (E : string_step id d (passed, m) i = Ok (passed + zlen (counted s), match s with [] => m | _ => zinsert (string_id id i) s m end)).
      { apply string_step_iff; [exact B|lia|]. exists s. split; [exact W|]. split; [exact H1|reflexivity]. }
      rewrite E. cbn [bind]. apply IH; [lia|lia|lia|lia|apply M|]. exists ss. split; [cbn [length] in Ls; lia|]. split; [exact Ws|]. split; [exact H2|].
      rewrite zlen_app, NC. destruct (M s) as [_ ->]. rewrite <- app_assoc, Z.add_assoc. reflexivity.
Qed.
Lemma string_table_iff id d m : bytes d ->
  (parse_string_list id d = Ok m <-> exists ss rest, length ss = 16%nat /\ Forall string_ok ss /\ d = concat (map counted ss) ++ rest /\ m = numbered id 0 ss).
Proof.
  intros B. unfold parse_string_list. change [0;1;2;3;4;5;6;7;8;9;10;11;12;13;14;15] with (zrange 0 16). pose proof (zlen_nonneg d) as Zd.
  assert (F : forall r, mfold (string_step id d) (zrange 0 16) (0, []) = Ok r <->
    exists ss, length ss = 16%nat /\ Forall string_ok ss /\ holds d 0 (concat (map counted ss)) /\ r = (0 + zlen (concat (map counted ss)), [] ++ numbered id 0 ss)).
  { intros r. apply string_fold; [exact B|lia|cbn; lia|lia|cbn; lia|constructor]. }
  split.
  - intros H. bnd H r E. apply F in E as (ss & L & W & Hd & ->). cbn [snd app] in H. apply stands_holds in Hd as (a & b & -> & Ha).
    exists ss, b. split; [exact L|]. split; [exact W|]. apply zlen_zero in Ha as ->. split; [reflexivity|congruence].
  - intros (ss & rest & L & W & E & ->). assert (Q : mfold (string_step id d) (zrange 0 16) (0, []) = Ok (0 + zlen (concat (map counted ss)), [] ++ numbered id 0 ss)).
    { apply F. exists ss. split; [exact L|]. split; [exact W|]. split; [|reflexivity]. apply stands_holds. exists [], rest. split; [exact E|reflexivity]. }
    rewrite Q. reflexivity.
Qed.
(** Looking a string up in the table its id names. *)
Lemma numbered_find id t : forall ss i k, 0 <= i -> i + zlen ss <= 16 -> string_id t 0 + i <= id -> id = string_id t 0 + k -> 
  zfind id (numbered t i ss) = match nth_error ss (Z.to_nat (k - i)) with Some (x :: s) => Some (x :: s) | _ => None end.
Proof.
  induction ss as [|s ss IH]; intros i k Hi Hl Hk Hid; [cbn [numbered zfind]; destruct (Z.to_nat (k - i)); reflexivity|]. rewrite zlen_cons in Hl. pose proof (zlen_nonneg ss).
  assert (Sid : string_id t i = string_id t 0 + i) by (unfold string_id in *; lia).
  destruct (Z.eq_dec k i) as [->|Nk].
  - rewrite Z.sub_diag. cbn [Z.to_nat nth_error]. destruct s as [|x s].
    + cbn [numbered]. clear IH Sid Hk. assert (G : forall ss j, 0 <= j -> j + zlen ss <= 16 -> id < string_id t 0 + j -> zfind id (numbered t j ss) = None).
      { clear. induction ss as [|s ss IH]; intros j H0 H1 H2; [reflexivity|]. rewrite zlen_cons in H1. pose proof (zlen_nonneg ss). destruct s as [|x s]; cbn [numbered]; [apply IH; lia|].
        cbn [zfind]. fold (string_id t j). assert (string_id t j = string_id t 0 + j) as -> by (unfold string_id in *; lia). replace (id =? string_id t 0 + j) with false by lia. apply IH; lia. }
      apply G; lia.
    + cbn [numbered zfind]. fold (string_id t i). replace (id =? string_id t i) with true by lia. reflexivity.
  - replace (Z.to_nat (k - i)) with (S (Z.to_nat (k - (i + 1)))) by lia. cbn [nth_error]. destruct s as [|x s]; cbn [numbered].
    + apply IH; lia.
    + cbn [zfind]. fold (string_id t i). replace (id =? string_id t i) with false by lia. apply IH; lia.
Qed.
Lemma string_lookup id ss : is_u16 id -> length ss = 16%nat ->
  get_string id (numbered (id / 16 + 1) 0 ss) = match nth_error ss (Z.to_nat (id mod 16)) with Some (x :: s) => Ok (x :: s) | _ => Throw resource_string_not_found end.
Proof.
  intros U L. unfold get_string. assert (Q : string_id (id / 16 + 1) 0 + id mod 16 = id) by (unfold string_id, is_u16 in *; lia).
  rewrite (numbered_find id (id / 16 + 1) ss 0 (id mod 16)); [|lia|unfold zlen; lia|lia|lia]. rewrite Z.sub_0_r. destruct (nth_error _ _) as [[|x s]|]; reflexivity.
Qed.

(** ** Message tables *)
Lemma repeat_rev {A} (x : A) n : rev (repeat x n) = repeat x n.
Proof.
  induction n as [|n IH]; [reflexivity|]. cbn [repeat rev]. rewrite IH. clear. induction n as [|n IH]; [reflexivity|]. cbn [repeat app]. rewrite IH. reflexivity.
Qed.
Lemma strip_trimmed s : trimmed s (strip_nullbytes s).
Proof.
  unfold trimmed, padded, strip_nullbytes. destruct (drop_leading0_split (rev s)) as [n E]. split.
  - exists (Z.of_nat n). unfold zeros. rewrite Nat2Z.id. apply (f_equal (@rev Z)) in E. rewrite rev_involutive, rev_app_distr, repeat_rev in E. exact E.
  - destruct (drop_leading0 (rev s)) as [|b t] eqn:Q; [left; reflexivity|]. right. exists b, (rev t). split; [reflexivity|]. apply (drop_leading0_hd _ _ _ Q).
Qed.
Lemma trimmed_unique s t : trimmed s t -> t = strip_nullbytes s.
Proof.
  intros [[n ->] H]. unfold strip_nullbytes, zeros. rewrite rev_app_distr, repeat_rev. generalize (Z.to_nat n) as k. intros k.
  assert (G : drop_leading0 (repeat 0 k ++ rev t) = rev t).
  { induction k as [|k IH]; [|exact IH]. cbn [repeat app]. destruct H as [->|(b & u & -> & Hb)]; [reflexivity|]. rewrite rev_app_distr. cbn [rev app drop_leading0].
    destruct (Z.eqb_spec b 0); [contradiction|reflexivity]. }
  rewrite G, rev_involutive. reflexivity.
Qed.
Lemma testbit0_even x : Z.testbit x 0 = negb (Z.even x).
Proof. rewrite Z.bit0_odd, Z.negb_even. reflexivity. Qed.
Lemma message_step_safe d hi off id pos m : bytes d -> is_u32 off -> 0 <= pos < 2^32 ->
  match message_step d hi off (id, pos, m) with
  | Ok (inl (id', pos', m')) => pos < pos' < 2^32
  | Ok (inr _) | Throw _ => True
  | _ => False
  end.
Proof.
  intros B Ho Hp. unfold message_step. cbv iota beta. case_if C1; [|exact I]. case_throw T1; [exact I|]. cbn [bind].
  apply orb_false_iff in T1 as [T1 T3]. apply orb_false_iff in T1 as [T1 T2]. apply negb_false_iff in T1. apply negb_false_iff in T2. unfold is_u32 in Ho.
  rewrite is_sum_safe_spec in T1 by lia. rewrite u32_small in T2 by lia. rewrite is_sum_safe_spec in T2 by lia. rewrite u32_small in T3 by lia.
  unfold rd_le. rewrite rd_ok by lia. cbn [bind]. rewrite rd_ok by lia. cbn [bind].
  pose proof (unle_bound _ (bytes_slice d (off + pos) (Z.of_nat 2) B)) as U. rewrite zlen_slice in U by lia. change (256 ^ Z.of_nat 2) with (2^16) in U.
  set (len := unle (slice d (off + pos) (Z.of_nat 2))) in *. clearbody len. case_throw T4; [exact I|]. cbn [bind].
  apply orb_false_iff in T4 as [T4 _]. apply orb_false_iff in T4 as [T4 T6]. apply orb_false_iff in T4 as [T4 T5]. apply negb_false_iff in T5.
  rewrite u32_small in T5 by lia. rewrite is_sum_safe_spec in T5 by lia. rewrite u32_small in T6 by lia.
  destruct (Z.testbit _ 0).
  - case_throw T7; [exact I|]. cbn [bind]. unfold rd_units. rewrite rd_ok by lia. cbn [bind]. rewrite u32_small by lia. lia.
  - rewrite rd_ok by lia. cbn [bind]. rewrite u32_small by lia. lia.
Qed.
Lemma message_block_safe d i m : bytes d -> 0 <= i -> 16 + 12 * i <= zlen d -> safe (message_block d i m).
Proof.
  intros B Hi L. unfold message_block, rd_le. rewrite !rd_ok by lia. cbn [bind]. case_throw T; [exact I|]. cbn [bind].
  pose proof (unle_bound _ (bytes_slice d (16 - 12 + 12 * i + 8) (Z.of_nat 4) B)) as U. rewrite zlen_slice in U by lia.
  apply (mloop_safe _ _ (fun st : Z * Z * list (Z * message) => 0 <= snd (fst st) < 2^32) (fun st => 2^32 - snd (fst st))).
  - intros [[id pos] m'] Hp. cbn [fst snd] in *. split; [lia|]. pose proof (message_step_safe d (unle (slice d (16 - 12 + 12 * i + 4) (Z.of_nat 4))) _ id pos m' B U Hp) as S.
    destruct (message_step _ _ _ _) as [[[[id' pos'] m'']|a]| | |]; cbn [fst snd]; try exact S. lia.
  - cbn [fst snd]. lia.
  - cbn [fst snd]. reflexivity.
Qed.
Lemma parse_message_safe d : bytes d -> safe (parse_message_list d).
Proof.
  intros B. unfold parse_message_list. case_throw T; [exact I|]. cbn [bind]. unfold rd_le at 1. rewrite rd_ok by lia. cbn [bind].
  pose proof (unle_bound _ (bytes_slice d 0 (Z.of_nat 4) B)) as U. rewrite zlen_slice in U by lia. set (n := unle _) in *. clearbody n. change (256 ^ Z.of_nat 4) with (2^32) in U.
  case_throw T2; [exact I|]. cbn [bind]. apply orb_false_iff in T2 as [_ T2].
  apply (mloop_safe _ _ (fun st : Z * list (Z * message) => 0 <= fst st <= n) (fun st => n - fst st)); [|cbn [fst]; lia|cbn [fst]; unfold big_fuel; lia].
  intros [i m] Hi. cbn [fst] in *. split; [lia|]. case_if C; [exact I|]. pose proof (message_block_safe d i m B ltac:(lia) ltac:(lia)) as S.
  destruct (message_block d i m); try exact S. cbn [bind fst]. rewrite u32_small by lia. lia.
Qed.

Lemma le_inj n a b : 0 <= a < 256 ^ Z.of_nat n -> 0 <= b < 256 ^ Z.of_nat n -> le n a = le n b -> a = b.
Proof. intros Ha Hb E. apply (f_equal unle) in E. rewrite !unle_le_small in E by assumption. exact E. Qed.
Lemma zlen_ansi flags body : zlen (le 2 (4 + zlen body) ++ le 2 flags ++ body) = 4 + zlen body.
Proof. rewrite !zlen_app, !zlen_le. lia. Qed.
Lemma zlen_unicode flags s : zlen (le 2 (4 + 2 * zlen s) ++ le 2 flags ++ wide s) = 4 + 2 * zlen s.
Proof. rewrite !zlen_app, !zlen_le, zlen_wide. lia. Qed.
Lemma message_step_iff d hi off id pos m r : bytes d -> zlen d < 2^32 -> is_u32 off -> 0 <= pos < 2^32 -> off + pos <= zlen d -> id <= hi ->
  (message_step d hi off (id, pos, m) = Ok r <->
   exists bs msg, message_entry bs msg /\ holds d (off + pos) bs /\ r = inl (u32 (id + 1), pos + zlen bs, zinsert id msg m)).
Proof.
  intros B L32 Ho Hp Hop Hid. unfold is_u32 in Ho. unfold message_step. cbv iota beta. replace (id <=? hi) with true by lia.
  rewrite (u32_small (off + pos)) by lia. split.
  - intros H. thr H T1. apply orb_false_iff in T1 as [T1 T3]. apply orb_false_iff in T1 as [T1 T2]. apply negb_false_iff in T2. rewrite is_sum_safe_spec in T2 by lia.
    rewrite (u32_small (off + pos + 4)) in T3 by lia. bnd H len E1. bnd H flags E2. apply rd_le_inv in E1 as [U1 H1]; [|exact B]. apply rd_le_inv in E2 as [U2 H2]; [|exact B].
    change (256 ^ Z.of_nat 2) with (2^16) in *. thr H T4.
    apply orb_false_iff in T4 as [T4 _]. apply orb_false_iff in T4 as [T4 T6]. apply orb_false_iff in T4 as [T4 T5]. apply negb_false_iff in T5.
    rewrite is_sum_safe_spec in T5 by lia. rewrite (u32_small (off + pos + len)) in T6 by lia. bnd H item E3. rewrite (u32_small (pos + len)) in H by lia.
    rewrite testbit0_even in E3. destruct (Z.even flags) eqn:Ev; cbn [negb] in E3.
    + bnd E3 s E4. apply rd_inv in E4 as (_ & _ & E5 & Es). assert (Bs : bytes s) by (rewrite Es; apply bytes_slice, B). assert (Ls : zlen s = len - 4) by (rewrite Es; apply zlen_slice; lia).
      exists (le 2 (4 + zlen s) ++ le 2 flags ++ s), (false, strip_nullbytes s). split; [apply entry_ansi; [exact U2|exact Ev|exact Bs|lia|apply strip_trimmed]|]. rewrite zlen_ansi, Ls.
      replace (4 + (len - 4)) with len by lia. split.
      * apply holds_app. split; [exact H1|]. rewrite zlen_le. apply holds_app. split; [exact H2|]. rewrite zlen_le. replace (off + pos + Z.of_nat 2 + Z.of_nat 2) with (off + pos + 4) by lia.
        unfold holds. rewrite Ls. split; [lia|]. split; [lia|]. congruence.
      * injection E3 as <-. injection H as <-. reflexivity.
    + thr E3 T7. apply negb_false_iff in T7. bnd E3 s E4. apply rd_units_inv in E4 as (W & Ls & Hs); [|exact B|lia].
      exists (le 2 (4 + 2 * zlen s) ++ le 2 flags ++ wide s), (true, strip_nullbytes s). split; [apply entry_unicode; [exact U2|exact Ev|exact W|lia|apply strip_trimmed]|]. rewrite zlen_unicode, Ls.
      replace (4 + 2 * ((len - 4) / 2)) with len by lia. split.
      * apply holds_app. split; [exact H1|]. rewrite zlen_le. apply holds_app. split; [exact H2|]. rewrite zlen_le. replace (off + pos + Z.of_nat 2 + Z.of_nat 2) with (off + pos + 4) by lia. exact Hs.
      * injection E3 as <-. injection H as <-. reflexivity.
  - intros (bs & msg & M & H & ->). pose proof (holds_range _ _ _ H) as R.
    assert (Q : exists len flags body, bs = le 2 len ++ le 2 flags ++ body /\ zlen bs = len /\ 0 <= len < 2^16 /\ is_u16 flags /\ 4 <= len /\ zlen body = len - 4).
    { destruct M as [flags body text F1 F2 F3 F4 F5|flags s text F1 F2 F3 F4 F5].
      - pose proof (zlen_nonneg body). exists (4 + zlen body), flags, body. rewrite zlen_ansi. split; [reflexivity|]. split; [reflexivity|]. split; [lia|]. split; [exact F1|]. lia.
      - pose proof (zlen_nonneg s). exists (4 + 2 * zlen s), flags, (wide s). rewrite zlen_unicode, zlen_wide. split; [reflexivity|]. split; [reflexivity|]. split; [lia|]. split; [exact F1|]. lia. }
    destruct Q as (len & flags & body & Eb & Lb & Ul & Uf & H4 & Lbody). rewrite Eb in H. apply holds_app in H as [H1 H]. apply holds_app in H as [H2 H3]. rewrite !zlen_le in *.
    change (Z.of_nat 2) with 2 in *. replace (off + pos + 2 + 2) with (off + pos + 4) in * by lia.
    rewrite (u32_small (off + pos + 4)) by lia. replace (is_sum_safe off pos) with true by (symmetry; apply is_sum_safe_spec; lia).
    replace (is_sum_safe (off + pos) 4) with true by (symmetry; apply is_sum_safe_spec; lia). replace (zlen d <? off + pos + 4) with false by lia. cbn [negb orb throw_if bind].
    rewrite (rd_le_ok' d (off + pos) 2 len) by (try exact H1; exact Ul). cbn [bind]. rewrite (rd_le_ok' d (off + pos + 2) 2 flags) by (try exact H2; exact Uf). cbn [bind].
    replace (is_sum_safe (off + pos) len) with true by (symmetry; apply is_sum_safe_spec; lia). rewrite (u32_small (off + pos + len)) by lia. replace (zlen d <? off + pos + len) with false by lia.
    replace (len <? 4) with false by lia. cbn [negb orb throw_if bind]. rewrite (u32_small (pos + len)) by lia. rewrite Lb. rewrite testbit0_even.
    destruct M as [flags' body' text F1 F2 F3 F4 F5|flags' s text F1 F2 F3 F4 F5].
    + rewrite zlen_ansi in Lb. rewrite Lb in Eb. apply app_inj_len in Eb as [_ Eb]; [|reflexivity]. apply app_inj_len in Eb as [Ef Eb]; [|rewrite !zlen_le; reflexivity].
      apply le_inj in Ef; [|exact F1|exact Uf]. subst flags' body'. rewrite F2. cbn [negb].
      rewrite rd_ok by (destruct H3; lia). destruct H3 as (_ & _ & H3). rewrite Lbody in H3. rewrite H3. cbn [bind]. rewrite <- (trimmed_unique _ _ F5). reflexivity.
    + rewrite zlen_unicode in Lb. rewrite Lb in Eb. apply app_inj_len in Eb as [_ Eb]; [|reflexivity]. apply app_inj_len in Eb as [Ef Eb]; [|rewrite !zlen_le; reflexivity].
      apply le_inj in Ef; [|exact F1|exact Uf]. subst flags' body. rewrite F2. cbn [negb]. replace (len mod 2 =? 0) with true by lia. cbn [negb throw_if bind].
      replace ((len - 4) / 2) with (zlen s) by lia. rewrite rd_units_ok by assumption. cbn [bind]. rewrite <- (trimmed_unique _ _ F5). reflexivity.
Qed.
Lemma nloop_cont' {S R} n (f : S -> res (S + R)) s s' : f s = Ok (inl s') -> nloop (Datatypes.S n) f s = nloop n f s'.
Proof. intros H. cbn [nloop]. rewrite H. reflexivity. Qed.
Inductive message_run (d : list Z) : Z -> Z -> list (Z * message) -> Z -> Prop :=
| run_nil pos id : message_run d pos id [] pos
| run_cons pos id bs m l e : holds d pos bs -> message_entry bs m -> message_run d (pos + zlen bs) (id + 1) l e -> message_run d pos id ((id, m) :: l) e.
Lemma run_entries d pos id l e : message_run d pos id l e -> message_entries d pos id l.
Proof. induction 1; [constructor|]. econstructor; [apply stands_holds; eassumption|eassumption|assumption]. Qed.
Lemma entries_run d pos id l : message_entries d pos id l -> exists e, message_run d pos id l e.
Proof. induction 1 as [pos id|pos id bs m l H M _ [e R]]; [eexists; constructor|]. exists e. econstructor; [apply stands_holds; eassumption|eassumption|assumption]. Qed.
Lemma run_snoc d pos id l e bs m : message_run d pos id l e -> holds d e bs -> message_entry bs m -> message_run d pos id (l ++ [(id + zlen l, m)]) (e + zlen bs).
Proof.
  induction 1 as [pos id|pos id bs0 m0 l e H0 M0 R IH]; intros H M.
  - cbn [app]. change (@zlen (Z * message) []) with 0. rewrite Z.add_0_r. econstructor; [exact H|exact M|constructor].
  - cbn [app]. rewrite zlen_cons. replace (id + (1 + zlen l)) with (id + 1 + zlen l) by lia. econstructor; [exact H0|exact M0|]. apply IH; assumption.
Qed.
Lemma message_loop_iff d hi off lo m0 m : bytes d -> zlen d < 2^32 -> is_u32 off -> off <= zlen d -> is_u32 lo -> is_u32 hi -> lo <= hi ->
  (mloop big_fuel (message_step d hi off) (lo, 0, m0) = Ok m <->
   exists l, hi < 2^32 - 1 /\ message_entries d off lo l /\ zlen l = hi - lo + 1 /\ m = zinsert_all l m0).
Proof.
  intros B L32 Ho Hol Hlo Hhi Hle. split.
  - pose (Inv := fun st : Z * Z * list (Z * message) => let '(id, pos, mm) := st in is_u32 id /\ 0 <= pos /\ off + pos <= zlen d /\
        (hi < 2^32 - 1 -> exists l, message_run d off lo l (off + pos) /\ id = lo + zlen l /\ id <= hi + 1 /\ mm = zinsert_all l m0)).
    apply (mloop_inv (message_step d hi off) big_fuel Inv (fun m => exists l, hi < 2^32 - 1 /\ message_entries d off lo l /\ zlen l = hi - lo + 1 /\ m = zinsert_all l m0)).
    + intros [[id pos] mm] (U & P1 & P2 & K). unfold is_u32 in *.
      destruct (Z.leb_spec id hi) as [C|C].
      * destruct (message_step d hi off (id, pos, mm)) as [r| | |] eqn:E; try exact I.
        apply message_step_iff in E as (bs & msg & M & H & ->); [|exact B|exact L32|exact Ho|lia|exact P2|exact C].
        pose proof (holds_range _ _ _ H) as Rg. pose proof (zlen_nonneg bs). cbn [Inv]. split; [unfold u32; lia|]. split; [lia|]. split; [lia|].
        intros Hh. destruct (K Hh) as (l & R & Ei & Eh & Em). exists (l ++ [(lo + zlen l, msg)]). split; [rewrite Z.add_assoc; apply run_snoc; assumption|].
        rewrite zlen_app. change (zlen [(lo + zlen l, msg)]) with 1. rewrite u32_small by lia. split; [lia|]. split; [lia|].
        rewrite zinsert_all_app. cbn [zinsert_all fold_left fst snd]. fold (zinsert_all l m0). rewrite <- Em, <- Ei. reflexivity.
      * unfold message_step. replace (id <=? hi) with false by lia. destruct (K ltac:(lia)) as (l & R & Ei & Eh & Em).
        exists l. split; [lia|]. split; [eapply run_entries, R|]. split; [lia|exact Em].
    + cbn [Inv]. split; [exact Hlo|]. split; [lia|]. split; [lia|]. intros _. exists []. rewrite Z.add_0_r. split; [constructor|]. change (@zlen (Z * message) []) with 0. split; [lia|]. split; [lia|reflexivity].
  - intros (l & Hh & En & Ll & ->). apply entries_run in En as [e R]. unfold is_u32 in *.
    apply (mloop_exec _ _ (S (length l))); [|unfold big_fuel; unfold zlen in Ll; lia].
    assert (G : forall l q id e, message_run d q id l e -> forall pos mm, q = off + pos -> 0 <= pos -> q <= zlen d -> 0 <= id -> zlen l = hi - id + 1 ->
      nloop (S (length l)) (message_step d hi off) (id, pos, mm) = Ok (inr (zinsert_all l mm))).
    { clear l e R Ll. intros l q id e R. induction R as [q id|q id bs msg l e H M R IH]; intros pos mm -> P1 P2 I0 Ll.
      - change (@zlen (Z * message) []) with 0 in Ll. cbn [length nloop]. unfold message_step. replace (id <=? hi) with false by lia. reflexivity.
      - rewrite zlen_cons in Ll. pose proof (zlen_nonneg l). pose proof (zlen_nonneg bs). pose proof (holds_range _ _ _ H) as Rg. change (length ((id, msg) :: l)) with (S (length l)).
        assert (E : message_step d hi off (id, pos, mm) = Ok (inl (u32 (id + 1), pos + zlen bs, zinsert id msg mm))).
        { apply message_step_iff; try assumption; try lia. exists bs, msg. split; [exact M|]. split; [exact H|reflexivity]. }
        cbn [nloop] in IH |- *. rewrite E. rewrite (u32_small (id + 1)) by lia. cbn [zinsert_all fold_left fst snd].
        apply (IH (pos + zlen bs) (zinsert id msg mm)); lia. }
    eapply G; [exact R|lia|lia|lia|lia|lia].
Qed.
Lemma message_block_iff d i m0 m : bytes d -> zlen d < 2^32 -> 0 <= i -> 16 + 12 * i <= zlen d ->
  (message_block d i m0 = Ok m <-> exists lo hi l, message_block_at d i lo hi l /\ m = zinsert_all l m0).
Proof.
  intros B L32 Hi Hl. unfold message_block. change (16 - 12) with 4. change (256 ^ Z.of_nat 4) with (2^32) in *. split.
  - intros H. bnd H lo E1. bnd H hi E2. bnd H off E3. apply rd_le_inv in E1 as [U1 H1]; [|exact B]. apply rd_le_inv in E2 as [U2 H2]; [|exact B]. apply rd_le_inv in E3 as [U3 H3]; [|exact B].
    change (256 ^ Z.of_nat 4) with (2^32) in *. thr H T. apply orb_false_iff in T as [T1 T2]. apply message_loop_iff in H as (l & Hh & En & Ll & ->); try assumption; try lia.
    exists lo, hi, l. split; [|reflexivity]. exists off. split; [exact U1|]. split; [exact U3|]. split; [lia|]. split; [|split; [exact En|exact Ll]].
    apply stands_holds, holds_app. split; [exact H1|]. rewrite zlen_le. apply holds_app. split; [exact H2|]. rewrite zlen_le. replace (4 + 12 * i + Z.of_nat 4 + Z.of_nat 4) with (4 + 12 * i + 8) by lia. exact H3.
  - intros (lo & hi & l & (off & U1 & U3 & Hh & H & En & Ll) & ->). apply stands_holds in H. apply holds_app in H as [H1 H]. apply holds_app in H as [H2 H3]. rewrite !zlen_le in *.
    change (Z.of_nat 4) with 4 in *. replace (4 + 12 * i + 4 + 4) with (4 + 12 * i + 8) in * by lia.
    assert (U2 : is_u32 hi) by (unfold is_u32 in *; lia).
    rewrite (rd_le_ok' d _ 4 lo) by (try exact H1; exact U1). rewrite (rd_le_ok' d _ 4 hi) by (try exact H2; exact U2). rewrite (rd_le_ok' d _ 4 off) by (try exact H3; exact U3). cbn [bind].
    assert (Hol : off <= zlen d).
    { destruct En as [|pos id bs msg l St]; [change (@zlen (Z * message) []) with 0 in Ll; lia|]. apply stands_holds, holds_range in St. pose proof (zlen_nonneg bs). lia. }
    replace (zlen d <? off) with false by lia. replace (hi <? lo) with false by lia. cbn [orb throw_if bind].
    apply message_loop_iff; try assumption; try lia. exists l. split; [lia|]. split; [exact En|]. split; [exact Ll|reflexivity].
Qed.
Lemma message_blocks_app d t1 : forall i t2, message_blocks d i (t1 ++ t2) <-> message_blocks d i t1 /\ message_blocks d (i + zlen t1) t2.
Proof.
  induction t1 as [|[[lo hi] l] t1 IH]; intros i t2; cbn [app].
  - change (@zlen (Z * Z * list (Z * message)) []) with 0. rewrite Z.add_0_r. split; [intros H; split; [constructor|exact H]|intros [_ H]; exact H].
  - rewrite zlen_cons, Z.add_assoc. split.
    + intros H. inversion H as [|i' lo' hi' l' t' Hb Ht]; subst. apply IH in Ht as [T1 T2]. split; [constructor; assumption|exact T2].
    + intros [H1 H2]. inversion H1 as [|i' lo' hi' l' t' Hb Ht]; subst. constructor; [exact Hb|]. apply IH. split; assumption.
Qed.
Definition table_entries (t : list (Z * Z * list (Z * message))) : list (Z * message) := concat (map snd t).
Lemma parse_message_iff d m : bytes d -> zlen d < 2^32 ->
  (parse_message_list d = Ok m <-> exists t, message_table d t /\ m = zinsert_all (table_entries t) []).
Proof.
  intros B L32. unfold parse_message_list. change (256 ^ Z.of_nat 4) with (2^32) in *. split.
  - intros H. thr H T1. bnd H n E1. apply rd_le_inv in E1 as [U1 H1]; [|exact B]. thr H T2. apply orb_false_iff in T2 as [T2 T3].
    pose (Inv := fun st : Z * list (Z * message) => 0 <= fst st <= n /\ exists t, zlen t = fst st /\ message_blocks d 0 t /\ snd st = zinsert_all (table_entries t) []).
    revert H. apply (mloop_inv _ big_fuel Inv (fun m => exists t, message_table d t /\ m = zinsert_all (table_entries t) [])).
    + intros [i mm] (Hi & t & Lt & Mt & Em). cbn [fst snd] in *. case_if C.
      * exists t. split; [|exact Em]. replace n with (zlen t) in * by lia. split; [apply stands_holds; exact H1|]. split; [lia|exact Mt].
      * destruct (message_block d i mm) as [m'| | |] eqn:E; cbn [bind]; try exact I.
        apply message_block_iff in E as (lo & hi & l & Hb & ->); try assumption; try lia. unfold Inv. cbn [fst snd]. rewrite u32_small by lia. split; [lia|].
        exists (t ++ [(lo, hi, l)]). rewrite zlen_app. change (zlen [(lo, hi, l)]) with 1. split; [lia|]. split.
        -- apply message_blocks_app. split; [exact Mt|]. constructor; [rewrite Lt; exact Hb|constructor].
        -- unfold table_entries in *. rewrite map_app, concat_app. cbn [map concat snd]. rewrite app_nil_r, zinsert_all_app, <- Em. reflexivity.
    + unfold Inv. cbn [fst snd]. split; [lia|]. exists []. split; [reflexivity|]. split; [constructor|reflexivity].
  - intros (t & (H1 & L & Mt) & ->). apply stands_holds in H1. pose proof (zlen_nonneg t) as Zt. replace (zlen d <? 16) with false by lia. cbn [throw_if bind].
    rewrite (rd_le_ok' d 0 4 (zlen t)); [|change (256 ^ Z.of_nat 4) with (2^32); lia|exact H1]. cbn [bind]. unfold max_dword. replace (0xFFFFFFFF / 12 <=? zlen t) with false by lia.
    rewrite u32_small by lia. replace (is_sum_safe (zlen t * 12) 16) with true by (symmetry; apply is_sum_safe_spec; lia). replace (zlen d <? zlen t * 12 + 16) with false by lia. cbn [negb orb throw_if bind].
    apply (mloop_exec _ _ (S (length t))); [|unfold big_fuel; unfold zlen in *; lia].
    assert (G : forall t2 t1 mm, message_blocks d (zlen t1) t2 -> t = t1 ++ t2 ->
      nloop (S (length t2)) (fun st : Z * list (Z * message) => let '(i, m) := st in if i =? zlen t then Ok (inr m) else m' <- message_block d i m ;; Ok (inl (u32 (i + 1), m'))) (zlen t1, mm) =
      Ok (inr (zinsert_all (table_entries t2) mm))).
    { induction t2 as [|[[lo hi] l] t2 IH]; intros t1 mm M E.
      - rewrite app_nil_r in E. subst t1. cbn [length nloop]. rewrite Z.eqb_refl. reflexivity.
      - pose proof (f_equal zlen E) as Lz. rewrite zlen_app, zlen_cons in Lz. pose proof (zlen_nonneg t1). pose proof (zlen_nonneg t2).
        inversion M as [|i' lo' hi' l' t' Hb Ht]; subst i' lo' hi' l' t'. change (length (_ :: t2)) with (S (length t2)).
        erewrite nloop_cont'.
        2:{ cbv beta iota. replace (zlen t1 =? zlen t) with false by lia.
            assert (Q : message_block d (zlen t1) mm = Ok (zinsert_all l mm)) by (apply message_block_iff; try assumption; try lia; exists lo, hi, l; split; [exact Hb|reflexivity]).
            rewrite Q. cbn [bind]. rewrite u32_small by lia. replace (zlen t1 + 1) with (zlen (t1 ++ [(lo, hi, l)])) by (rewrite zlen_app; reflexivity). reflexivity. }
        rewrite IH.
        + unfold table_entries. cbn [map concat snd]. rewrite zinsert_all_app. reflexivity.
        + rewrite zlen_app. exact Ht.
        + rewrite <- app_assoc. exact E. }
    exact (G t [] [] Mt eq_refl).
Qed.
(** Every id of a block is in the result, and nothing else. *)
Lemma entries_ids d pos id l : message_entries d pos id l -> map fst l = zrange id (length l).
Proof. induction 1 as [|pos id bs m l _ _ _ IH]; [reflexivity|]. cbn [map fst length zrange]. rewrite IH. reflexivity. Qed.
Lemma zrange_in n : forall i k, In k (zrange i n) <-> i <= k < i + Z.of_nat n.
Proof.
  induction n as [|n IH]; intros i k; cbn [zrange In]; [lia|]. rewrite IH. split; [intros [<-|H]; lia|]. intros H. destruct (Z.eq_dec i k) as [->|]; [left; reflexivity|right; lia].
Qed.
Lemma first_wins_keys {A} (l m : list (Z * A)) k : first_wins l m -> (In k (map fst m) <-> In k (map fst l)).
Proof.
  intros [_ W]. split; intros G; apply in_map_iff in G as ([k' w] & Ek & G); cbn [fst] in Ek; subst k'.
  - apply W in G as (l1 & l2 & -> & _). rewrite map_app. apply in_or_app. right. left. reflexivity.
  - apply in_map_iff. assert (Q : forall l1 l0, l = l0 ++ l1 -> ~ In k (map fst l0) -> forall w, In (k, w) l1 -> exists x, fst x = k /\ In x m).
    { induction l1 as [|[a b] l1 I]; intros l0 E N w' G'; [destruct G'|]. destruct (Z.eq_dec a k) as [->|Na].
      - exists (k, b). split; [reflexivity|]. apply W. exists l0, l1. split; assumption.
      - destruct G' as [G'|G']; [congruence|]. apply (I (l0 ++ [(a, b)])) with (w := w'); [rewrite <- app_assoc; exact E| |exact G'].
        rewrite map_app. intros X. apply in_app_or in X as [X|[X|[]]]; [contradiction|cbn in X; lia]. }
    apply (Q l [] eq_refl) with (w := w); [intros []|exact G].
Qed.
Lemma blocks_in d : forall t i, message_blocks d i t -> forall lo hi l, In (lo, hi, l) t -> exists j, message_block_at d j lo hi l.
Proof.
  induction t as [|[[a b] c] t IH]; intros i M lo hi l H; [destruct H|]. inversion M as [|i' lo' hi' l' t' Hb Ht]; subst. destruct H as [H|H].
  - assert (a = lo /\ b = hi /\ c = l) as (-> & -> & ->) by (repeat split; congruence). exists i. exact Hb.
  - eapply IH; eassumption.
Qed.
Lemma parse_message_ids d m : bytes d -> zlen d < 2^32 -> parse_message_list d = Ok m ->
  exists t, message_table d t /\ first_wins (table_entries t) m /\ forall k, In k (map fst m) <-> exists lo hi l, In (lo, hi, l) t /\ lo <= k <= hi.
Proof.
  intros B L H. apply parse_message_iff in H as (t & M & ->); [|exact B|exact L]. exists t. split; [exact M|]. pose proof (zinsert_all_first (table_entries t)) as W. split; [exact W|].
  intros k. rewrite (first_wins_keys _ _ k W). destruct M as (_ & _ & Mt). unfold table_entries. split.
  - intros G. apply in_map_iff in G as ([k' w] & Ek & G). cbn [fst] in Ek. subst k'. apply in_concat in G as (l & Hl & G). apply in_map_iff in Hl as ([[lo hi] l'] & El & Hl). cbn [snd] in El. subst l'.
    exists lo, hi, l. split; [exact Hl|]. destruct (blocks_in d t 0 Mt _ _ _ Hl) as (j & off & _ & _ & Hh & _ & En & Ll). apply (in_map fst) in G. cbn [fst] in G. rewrite (entries_ids _ _ _ _ En) in G.
    apply zrange_in in G. unfold zlen in Ll. lia.
  - intros (lo & hi & l & Hl & Hk). destruct (blocks_in d t 0 Mt _ _ _ Hl) as (j & off & _ & _ & Hh & _ & En & Ll).
    assert (G : In k (map fst l)) by (rewrite (entries_ids _ _ _ _ En); apply zrange_in; unfold zlen in Ll; lia).
    apply in_map_iff in G as ([k' w] & Ek & G). cbn [fst] in Ek. subst k'. apply in_map_iff. exists (k, w). split; [reflexivity|]. apply in_concat. exists l. split; [|exact G].
    apply in_map_iff. exists (lo, hi, l). split; [reflexivity|exact Hl].
Qed.

(** ** Bitmaps *)
Lemma bitmap_round_trip file d : bytes file -> zlen file < 2^32 -> bitmap_data file = Ok d -> 40 <= zlen d ->
  create_bitmap d = Ok (bitmap_header d ++ zdrop 14 file) /\ zlen (bitmap_header d ++ zdrop 14 file) = zlen file.
Proof.
  intros B L H Hd. unfold bitmap_data in H. thr H T. assert (d = zdrop 14 file) as -> by congruence. set (d := zdrop 14 file) in *.
  assert (Ld : zlen d = zlen file - 14) by (unfold d; apply zlen_zdrop; lia). assert (Bd : bytes d) by (apply bytes_zdrop, B).
  split.
  - unfold create_bitmap. replace (zlen d <? 40) with false by lia. cbn [throw_if bind]. unfold rd_le. rewrite !rd_ok by lia. cbn [bind].
    unfold bitmap_header, colour_bytes. change (Z.of_nat 4) with 4. change (Z.of_nat 2) with 2.
    set (clr := unle (slice d 32 4)). set (bits := unle (slice d 14 2)). f_equal. change (le 2 0x4d42) with [0x42; 0x4d]. change (le 2 0) with [0;0]. unfold u32. rewrite <- !app_assoc. f_equal. f_equal. cbn [app]. do 4 f_equal.
    f_equal. f_equal. destruct (clr =? 0); cbn [negb]; [|lia]. destruct (bits <=? 8); [reflexivity|]. reflexivity.
  - unfold bitmap_header. rewrite !zlen_app, !zlen_le. fold d. change (zlen [0x42; 0x4d]) with 2. change (zlen [0;0;0;0]) with 4. lia.
Qed.
Lemma bitmap_rejected file : zlen file < 54 -> (exists e, (d <- bitmap_data file ;; create_bitmap d) = Throw e).
Proof.
  intros H. unfold bitmap_data. case_throw T; [eexists; reflexivity|]. cbn [bind]. unfold create_bitmap.
  rewrite zlen_zdrop by lia. replace (zlen file - 14 <? 40) with true by lia. eexists. reflexivity.
Qed.
(** ** Uniqueness of maps *)
Lemma sorted_ext {A} (m1 : list (Z * A)) : forall m2, StronglySorted Z.lt (map fst m1) -> StronglySorted Z.lt (map fst m2) -> (forall k v, In (k, v) m1 <-> In (k, v) m2) -> m1 = m2.
Proof.
  induction m1 as [|[a b] m1 IH]; intros [|[c e] m2] S1 S2 H.
  - reflexivity.
  - exfalso. apply (H c e). left; reflexivity.
  - exfalso. apply (H a b). left; reflexivity.
  - cbn [map fst] in S1, S2. apply StronglySorted_inv in S1 as [S1 F1]. apply StronglySorted_inv in S2 as [S2 F2]. rewrite Forall_forall in F1, F2.
    assert (E : (a, b) = (c, e)).
    { destruct (proj1 (H a b) (or_introl eq_refl)) as [E|G]; [congruence|]. destruct (proj2 (H c e) (or_introl eq_refl)) as [E|G']; [congruence|].
      apply (in_map fst) in G. apply (in_map fst) in G'. specialize (F2 _ G). specialize (F1 _ G'). cbn [fst] in *. lia. }
    injection E as <- <-. f_equal. apply IH; [exact S1|exact S2|]. intros k v. split; intros G.
    + destruct (proj1 (H k v) (or_intror G)) as [E|G']; [|exact G']. injection E as <- <-. apply (in_map fst) in G. specialize (F1 _ G). cbn [fst] in *. lia.
    + destruct (proj2 (H k v) (or_intror G)) as [E|G']; [|exact G']. injection E as <- <-. apply (in_map fst) in G. specialize (F2 _ G). cbn [fst] in *. lia.
Qed.
Lemma first_wins_unique {A} (l m : list (Z * A)) : first_wins l m -> m = zinsert_all l [].
Proof. intros [S H]. destruct (zinsert_all_first l) as [S' H']. apply sorted_ext; [exact S|exact S'|]. intros k v. rewrite H, H'. tauto. Qed.
Lemma message_table_iff d m : bytes d -> zlen d < 2^32 ->
  (parse_message_list d = Ok m <-> exists t, message_table d t /\ first_wins (concat (map snd t)) m).
Proof.
  intros B L. rewrite parse_message_iff by assumption. split; intros (t & M & H); exists t; (split; [exact M|]).
  - rewrite H. apply zinsert_all_first.
  - apply first_wins_unique, H.
Qed.
Lemma string_table_inside id d m : bytes d -> parse_string_list id d = Ok m -> forall k s, In (k, s) m -> wide_ok s /\ exists off, stands d off (wide s).
Proof.
  intros B H k s Hs. apply string_table_iff in H as (ss & rest & L & W & -> & ->); [|exact B]. clear L B. revert Hs. generalize 0 as i.
  revert rest. induction ss as [|x ss IH]; intros rest i Hs; [destruct Hs|]. apply Forall_cons_iff in W as [[Wx Lx] W]. cbn [map concat].
  assert (G : In (k, s) (numbered id (i + 1) ss) -> wide_ok s /\ exists off, stands ((counted x ++ concat (map counted ss)) ++ rest) off (wide s)).
  { intros G. destruct (IH W rest (i + 1) G) as [Ws (off & a & b & E & La)]. split; [exact Ws|]. exists (zlen (counted x) + off). exists (counted x ++ a), b. rewrite <- !app_assoc, E. split; [rewrite ?app_assoc; reflexivity|]. rewrite zlen_app. lia. }
  destruct x as [|y x]; [apply G, Hs|]. destruct Hs as [E|Hs]; [|apply G, Hs]. assert (s = y :: x) as -> by congruence. split; [exact Wx|].
  exists 2. exists (le 2 (zlen (y :: x))), (concat (map counted ss) ++ rest). unfold counted at 1. rewrite <- !app_assoc. split; [reflexivity|apply zlen_le].
Qed.
