(** Facts about the numbers of new icons and cursors. *)
From Verif Require Export SpecIcon.
From Verif Require Import BaseFacts ManagerFacts.

(** ** Ranges *)
Definition from (a : Z) (n : nat) : list Z := map (fun k => a + Z.of_nat k) (seq 0 n).
Lemma from_S a n : from a (S n) = a :: from (a + 1) n.
Proof. unfold from. cbn [seq map]. f_equal; [lia|]. rewrite <- seq_shift, map_map. apply map_ext. intros k. lia. Qed.
Lemma from_app a m n : from a (m + n) = from a m ++ from (a + Z.of_nat m) n.
Proof. revert a. induction m as [|m IH]; intros a; [cbn [Nat.add]; change (from a 0) with (@nil Z); cbn [app]; replace (a + Z.of_nat 0) with a by lia; reflexivity|]. cbn [Nat.add]. rewrite !from_S, IH. cbn [app]. do 3 f_equal. lia. Qed.
Lemma zlen_from a n : zlen (from a n) = Z.of_nat n.
Proof. unfold zlen, from. rewrite map_length, seq_length. reflexivity. Qed.
Lemma in_from a n x : In x (from a n) <-> a <= x < a + Z.of_nat n.
Proof. unfold from. rewrite in_map_iff. split; [intros (k & <- & H); apply in_seq in H; lia|intros H; exists (Z.to_nat (x - a)); split; [lia|apply in_seq; lia]]. Qed.
Lemma nodup_from a n : NoDup (from a n).
Proof. unfold from. apply FinFun.Injective_map_NoDup; [intros x y H; lia|apply seq_NoDup]. Qed.
Lemma from_zrange a n : map (Z.add a) (zrange n) = from a (Z.to_nat n).
Proof. unfold zrange, from. rewrite map_map. reflexivity. Qed.

(** ** Sorting *)
Lemma insert_perm x l : Permutation.Permutation (insert_sorted x l) (x :: l).
Proof. induction l as [|y l IH]; cbn [insert_sorted]; [reflexivity|]. destruct (x <=? y); [reflexivity|]. apply (Permutation.Permutation_trans (l' := y :: x :: l)); [apply Permutation.perm_skip, IH|apply Permutation.perm_swap]. Qed.
Lemma sort_perm l : Permutation.Permutation (sort_ids l) l.
Proof. induction l as [|x l IH]; cbn [sort_ids]; [reflexivity|]. apply (Permutation.Permutation_trans (insert_perm x (sort_ids l))), Permutation.perm_skip, IH. Qed.
Lemma insert_sorted_ok x l : Sorted.StronglySorted Z.le l -> Sorted.StronglySorted Z.le (insert_sorted x l).
Proof.
  induction l as [|y l IH]; cbn [insert_sorted]; intros H; [repeat constructor|]. inversion H as [|? ? H1 H2]; subst. destruct (x <=? y) eqn:E.
  - constructor; [exact H|]. constructor; [lia|]. apply (Forall_impl _ (P := Z.le y)); [intros z Hz; lia|exact H2].
  - constructor; [exact (IH H1)|]. apply (Permutation.Permutation_Forall (Permutation.Permutation_sym (insert_perm x l))). constructor; [lia|exact H2].
Qed.
Lemma sort_sorted l : Sorted.StronglySorted Z.le (sort_ids l).
Proof. induction l as [|x l IH]; cbn [sort_ids]; [constructor|]. apply insert_sorted_ok, IH. Qed.
Lemma fold_max l : forall x, x <= fold_left Z.max l x /\ Forall (fun y => y <= fold_left Z.max l x) l /\ (fold_left Z.max l x = x \/ In (fold_left Z.max l x) l).
Proof.
  induction l as [|y l IH]; intros x; cbn [fold_left]; [split; [lia|]; split; [constructor|left; reflexivity]|].
  destruct (IH (Z.max x y)) as (H1 & H2 & H3). split; [lia|]. split; [constructor; [lia|exact H2]|]. destruct H3 as [H3|H3]; [|right; right; exact H3].
  rewrite H3. destruct (Z.max_spec x y) as [[_ ->]|[_ ->]]; [right; left; reflexivity|left; reflexivity].
Qed.
Lemma top_largest ids : exists top, match sort_ids ids with [] => 0 | x :: t => fold_left Z.max t x end = top /\ largest ids top.
Proof.
  eexists. split; [reflexivity|]. pose proof (sort_perm ids) as P. destruct (sort_ids ids) as [|x t]; [left; split; [apply Permutation.Permutation_nil, P|reflexivity]|].
  right. destruct (fold_max t x) as (H1 & H2 & H3). split.
  - apply (Permutation.Permutation_in _ P). destruct H3 as [-> |H3]; [left; reflexivity|right; exact H3].
  - apply (Permutation.Permutation_Forall P). constructor; assumption.
Qed.
Lemma largest_fun ids a b : largest ids a -> largest ids b -> a = b.
Proof.
  intros [[H1 H2]|[H1 H2]] [[H3 H4]|[H3 H4]]; subst; try lia; try (destruct H1; fail); try (destruct H3; fail).
  rewrite Forall_forall in *. pose proof (H2 _ H3). pose proof (H4 _ H1). lia.
Qed.

(** ** At the end *)
Lemma after_max_from ids top count acc : largest ids top -> 0 <= top -> zlen acc <= count -> top + count - zlen acc <= 65535 ->
  after_max (sort_ids ids) count acc = acc ++ from (top + 1) (Z.to_nat (count - zlen acc)).
Proof.
  intros L T C B. unfold after_max. destruct (top_largest ids) as (top' & -> & L'). rewrite <- (largest_fun _ _ _ L L'). f_equal. unfold zrange, from. rewrite map_map. apply map_ext_in. intros k Hk. apply in_seq in Hk.
  unfold u16, u32. rewrite !Z.mod_small; lia.
Qed.
Lemma count_up_from n : forall i stop acc, 0 <= i <= stop -> stop <= 65535 -> stop - i < Z.of_nat n -> count_up n i stop acc = Ok (acc ++ from i (Z.to_nat (stop - i))).
Proof.
  induction n as [|n IH]; intros i stop acc H1 H2 H3; [lia|]. cbn [count_up]. destruct (i =? stop) eqn:E.
  - replace (stop - i) with 0 by lia. cbn [Z.to_nat from seq map]. rewrite app_nil_r. reflexivity.
  - unfold u16. rewrite Z.mod_small by lia. rewrite IH by lia. replace (Z.to_nat (stop - i)) with (S (Z.to_nat (stop - (i + 1)))) by lia. rewrite from_S, <- app_assoc. reflexivity.
Qed.
Lemma count_up_endless n : forall i acc, 0 <= i < 65536 -> count_up n i 65536 acc = Fuel.
Proof. induction n as [|n IH]; intros i acc H; cbn [count_up]; [reflexivity|]. replace (i =? 65536) with false by lia. apply IH. unfold u16. lia. Qed.

(** ** Gaps *)
Lemma fill_gap_from n : forall i stop count acc, 0 <= i <= stop -> stop <= 65535 -> stop - i < Z.of_nat n -> zlen acc < count ->
  fill_gap n i stop count acc = Ok (ztake count (acc ++ from i (Z.to_nat (stop - i)))).
Proof.
  induction n as [|n IH]; intros i stop count acc H1 H2 H3 H4; [lia|]. cbn [fill_gap]. destruct (i =? stop) eqn:E.
  - replace (stop - i) with 0 by lia. cbn [Z.to_nat from seq map]. rewrite app_nil_r. unfold ztake. rewrite firstn_all2 by (unfold zlen in H4; lia). reflexivity.
  - replace (Z.to_nat (stop - i)) with (S (Z.to_nat (stop - (i + 1)))) by lia. rewrite from_S.
    change (i :: from (i + 1) (Z.to_nat (stop - (i + 1)))) with ([i] ++ from (i + 1) (Z.to_nat (stop - (i + 1)))). rewrite app_assoc. rewrite zlen_app. change (zlen [i]) with 1.
    destruct (zlen acc + 1 =? count) eqn:K.
    + unfold ztake. rewrite firstn_app. replace (Z.to_nat count - length (acc ++ [i]))%nat with 0%nat by (rewrite app_length; cbn [length]; unfold zlen in K; lia). cbn [firstn]. rewrite app_nil_r.
      rewrite firstn_all2 by (rewrite app_length; cbn [length]; unfold zlen in K; lia). reflexivity.
    + unfold u16. rewrite Z.mod_small by lia. rewrite IH by (rewrite ?zlen_app; change (zlen [i]) with 1; lia). reflexivity.
Qed.
(* the free numbers below b *)
Definition free_below (ids : list Z) (b : Z) : list Z := filter (fun x => negb (existsb (Z.eqb x) ids)) (from 1 (Z.to_nat (b - 1))).
Lemma taken_in ids x : existsb (Z.eqb x) ids = true <-> In x ids.
Proof. rewrite existsb_exists. split; [intros (y & H & E); assert (x = y) by lia; subst; exact H|intros H; exists x; split; [exact H|lia]]. Qed.
Lemma filter_all {A} (f : A -> bool) l : (forall x, In x l -> f x = true) -> filter f l = l.
Proof. induction l as [|x l IH]; cbn [filter]; intros H; [reflexivity|]. rewrite (H x (or_introl eq_refl)), IH; [reflexivity|]. intros y Hy. apply H. right. exact Hy. Qed.
Lemma free_step ids p b : 0 <= p < b -> In p ids \/ p = 0 -> (forall x, In x ids -> p < x -> b <= x) -> free_below ids b = free_below ids p ++ from (p + 1) (Z.to_nat (b - p - 1)).
Proof.
  intros R P N. unfold free_below. destruct (Z.eq_dec p 0) as [->|Np].
  - replace (Z.to_nat (0 - 1)) with 0%nat by lia. cbn [from seq map filter app]. rewrite filter_all; [f_equal; lia|]. intros x Hx. apply in_from in Hx. apply negb_true_iff, not_true_is_false. rewrite taken_in. intros K. pose proof (N x K ltac:(lia)). lia.
  - destruct P as [P|P]; [|congruence]. replace (Z.to_nat (b - 1)) with (Z.to_nat (p - 1) + S (Z.to_nat (b - p - 1)))%nat by lia. rewrite from_app, filter_app. f_equal. rewrite from_S. cbn [filter].
    replace (1 + Z.of_nat (Z.to_nat (p - 1))) with p by lia. rewrite (proj2 (taken_in ids p) P). cbn [negb]. apply filter_all. intros x Hx. apply in_from in Hx. apply negb_true_iff, not_true_is_false. rewrite taken_in. intros K. pose proof (N x K ltac:(lia)). lia.
Qed.
Lemma ztake_app_take (count : Z) (a b : list Z) : zlen a <= count -> ztake count (a ++ b) = a ++ ztake (count - zlen a) b.
Proof. intros H. unfold ztake. rewrite firstn_app. rewrite firstn_all2 by (unfold zlen in H; lia). f_equal. f_equal. unfold zlen. lia. Qed.
Lemma ztake_le (count : Z) (a : list Z) : zlen a <= count -> ztake count a = a.
Proof. intros H. unfold ztake. apply firstn_all2. unfold zlen in H. lia. Qed.
Lemma zlen_take_le (count : Z) (a : list Z) : 0 <= count -> zlen (ztake count a) = Z.min count (zlen a).
Proof. intros H. unfold ztake, zlen. rewrite firstn_length. lia. Qed.
Lemma take_of_full (count : Z) (a b : list Z) : 0 <= count -> zlen (ztake count a) = count -> ztake count (a ++ b) = ztake count a.
Proof. intros P H. rewrite zlen_take_le in H by exact P. unfold ztake. rewrite firstn_app. replace (Z.to_nat count - length a)%nat with 0%nat by (unfold zlen in H; lia). cbn [firstn]. apply app_nil_r. Qed.
Lemma last_cons_Z (x : Z) l d : last (x :: l) d = last l x.
Proof. revert x d. induction l as [|y l IH]; intros x d; [reflexivity|]. change (last (x :: y :: l) d) with (last (y :: l) d). rewrite !IH. reflexivity. Qed.
Lemma last_in (l : list Z) : forall d, In (last l d) (d :: l).
Proof. induction l as [|y l IH]; intros d; [left; reflexivity|]. rewrite last_cons_Z. right. apply IH. Qed.
Lemma last_sorted l : forall x, Sorted.StronglySorted Z.le (x :: l) -> Forall (fun y => y <= last l x) (x :: l).
Proof.
  induction l as [|y l IH]; intros x H; [repeat constructor; cbn [last]; lia|]. rewrite last_cons_Z. inversion H as [|? ? H1 H2]; subst. specialize (IH y H1). constructor; [|exact IH].
  inversion IH; subst. inversion H2; subst. lia.
Qed.
Lemma free_below_more ids b b' : b <= b' -> exists m, free_below ids b' = free_below ids b ++ m.
Proof.
  intros H. unfold free_below. replace (Z.to_nat (b' - 1)) with (Z.to_nat (b - 1) + (Z.to_nat (b' - 1) - Z.to_nat (b - 1)))%nat by lia. rewrite from_app, filter_app. eauto.
Qed.
Lemma take_more ids b b' count : 0 <= count -> b <= b' -> zlen (ztake count (free_below ids b)) = count -> ztake count (free_below ids b') = ztake count (free_below ids b).
Proof. intros C H E. destruct (free_below_more ids b b' H) as [m ->]. apply take_of_full; assumption. Qed.
Lemma gaps_some n ids count : 65536 < Z.of_nat n -> Forall is_u16 ids -> 0 < count -> forall l p, Sorted.StronglySorted Z.le (p :: l) -> In p ids -> (forall x, In x l -> In x ids) ->
  (forall x, In x ids -> In x l \/ x <= p) -> zlen (free_below ids p) < count -> fill_gaps n (Some p) l count (free_below ids p) = Ok (ztake count (free_below ids (last l p))).
Proof.
  intros Hn U C. induction l as [|x l IH]; intros p S P L A F.
  - cbn [fill_gaps last]. rewrite ztake_le by lia. reflexivity.
  - inversion S as [|? ? S1 S2]; subst. inversion S2 as [|? ? S3 S4]; subst. pose proof (proj1 (Forall_forall _ _) U) as U'. pose proof (U' p P) as Up. pose proof (U' x (L x (or_introl eq_refl))) as Ux. unfold is_u16 in Up, Ux.
    cbn [fill_gaps]. rewrite last_cons_Z. inversion S1 as [|? ? S5 S6]; subst.
    assert (Step : (if 1 <? u32 (p - x) then fill_gap n (u16 (p + 1)) (u16 x) count (free_below ids p) else Ok (free_below ids p)) = Ok (ztake count (free_below ids x))).
    { destruct (Z.eq_dec x p) as [->|D].
      - unfold u32. replace (p - p) with 0 by lia. rewrite Z.mod_0_l by lia. cbn [Z.ltb Z.compare]. rewrite ztake_le by lia. reflexivity.
      - replace (1 <? u32 (p - x)) with true by (unfold u32; lia). unfold u16. rewrite !Z.mod_small by lia. rewrite fill_gap_from by lia. rewrite <- (Z.sub_sub_distr x p 1) || idtac.
        rewrite (free_step ids p x); [f_equal; f_equal; f_equal; f_equal; lia|lia|left; exact P|]. intros y Hy Gy. destruct (A y Hy) as [[->|K]|K]; [lia| |lia]. rewrite Forall_forall in S6. exact (S6 y K). }
    rewrite Step. cbn [bind]. destruct (zlen (ztake count (free_below ids x)) =? count) eqn:E.
    + f_equal. symmetry. apply take_more; [lia| |lia]. pose proof (last_sorted l x S1) as Ls. inversion Ls; subst. assumption.
    + rewrite zlen_take_le in E by lia. rewrite (ztake_le count (free_below ids x)) by lia. apply IH; [exact S1|apply L; left; reflexivity|intros y Hy; apply L; right; exact Hy| |lia].
      intros y Hy. destruct (A y Hy) as [[->|K]|K]; [right; lia|left; exact K|right; lia].
Qed.
Lemma gaps_none n ids count : 65536 < Z.of_nat n -> Forall is_u16 ids -> 0 < count -> fill_gaps n None (sort_ids ids) count [] = Ok (ztake count (free_below ids (last (sort_ids ids) 1))).
Proof.
  intros Hn U C. pose proof (sort_sorted ids) as S. pose proof (sort_perm ids) as P. destruct (sort_ids ids) as [|x l]; [cbn [fill_gaps last]; unfold ztake; change (free_below ids 1) with (@nil Z); rewrite firstn_nil; reflexivity|].
  assert (In_ids : forall y, In y ids <-> In y (x :: l)) by (intros y; split; apply Permutation.Permutation_in; [apply Permutation.Permutation_sym|]; exact P).
  pose proof (proj1 (Forall_forall _ _) U x (proj2 (In_ids x) (or_introl eq_refl))) as Ux. unfold is_u16 in Ux. inversion S as [|? ? S1 S2]; subst. rewrite Forall_forall in S2.
  cbn [fill_gaps]. rewrite last_cons_Z.
  assert (Step : (if 1 <? x then fill_gap n 1 x count [] else Ok []) = Ok (ztake count (free_below ids x))).
  { destruct (1 <? x) eqn:E.
    - rewrite fill_gap_from by (try change (@zlen Z []) with 0; lia). cbn [app]. rewrite (free_step ids 0 x); [|lia|right; reflexivity|intros y Hy _; apply In_ids in Hy as [->|Hy]; [lia|exact (S2 y Hy)]].
      unfold free_below at 1. replace (Z.to_nat (0 - 1)) with 0%nat by lia. cbn [from seq map filter app]. repeat f_equal; lia.
    - unfold free_below. replace (Z.to_nat (x - 1)) with 0%nat by lia. cbn [from seq map filter]. unfold ztake. rewrite firstn_nil. reflexivity. }
  rewrite Step. cbn [bind]. destruct (zlen (ztake count (free_below ids x)) =? count) eqn:E.
  - f_equal. symmetry. apply take_more; [lia| |lia]. pose proof (last_sorted l x S) as Ls. inversion Ls; subst. assumption.
  - rewrite zlen_take_le in E by lia. rewrite (ztake_le count (free_below ids x)) by lia. apply gaps_some; try assumption; [apply In_ids; left; reflexivity|intros y Hy; apply In_ids; right; exact Hy| |lia].
    intros y Hy. apply In_ids in Hy as [->|Hy]; [right; lia|left; exact Hy].
Qed.
Lemma last_largest ids top : Forall is_u16 ids -> largest ids top -> free_below ids (last (sort_ids ids) 1) = free_below ids top /\ 0 <= top <= 65535 /\ (In top ids \/ top = 0).
Proof.
  intros U L. pose proof (sort_sorted ids) as S. pose proof (sort_perm ids) as P. destruct L as [[-> ->]|[I F]].
  - cbn [sort_ids last]. unfold free_below. cbn. split; [reflexivity|]. split; [lia|right; reflexivity].
  - pose proof (proj1 (Forall_forall _ _) U top I) as Ut. unfold is_u16 in Ut. split; [|split; [lia|left; exact I]]. f_equal. apply (Permutation.Permutation_in _ (Permutation.Permutation_sym P)) in I. apply (Permutation.Permutation_Forall (Permutation.Permutation_sym P)) in F.
    destruct (sort_ids ids) as [|x l]; [destruct I|]. rewrite last_cons_Z. pose proof (last_sorted l x S) as Ls. rewrite Forall_forall in Ls, F. pose proof (Ls top I). pose proof (F _ (last_in l x)). lia.
Qed.
Lemma free_numbers_split ids top : 0 <= top <= 65535 -> In top ids \/ top = 0 -> Forall (fun x => x <= top) ids -> free_numbers ids = free_below ids top ++ from (top + 1) (Z.to_nat (65535 - top)).
Proof.
  intros R I F. unfold free_numbers. rewrite from_zrange. change (filter (fun x => negb (existsb (Z.eqb x) ids)) (from 1 (Z.to_nat 65535))) with (free_below ids 65536). rewrite (free_step ids top 65536); [f_equal; f_equal; lia|lia|exact I|].
  intros x Hx G. rewrite Forall_forall in F. specialize (F x Hx). lia.
Qed.
Lemma take_from a n c : 0 <= c <= Z.of_nat n -> ztake c (from a n) = from a (Z.to_nat c).
Proof.
  intros H. replace n with (Z.to_nat c + (n - Z.to_nat c))%nat by lia. rewrite from_app. unfold ztake. rewrite firstn_app.
  assert (E : length (from a (Z.to_nat c)) = Z.to_nat c) by (unfold from; rewrite map_length, seq_length; reflexivity). rewrite firstn_all2 by lia. rewrite E, Nat.sub_diag. cbn [firstn]. apply app_nil_r.
Qed.
Lemma in_free ids x : In x (free_numbers ids) <-> 1 <= x <= 65535 /\ ~ In x ids.
Proof.
  unfold free_numbers. rewrite filter_In, from_zrange, in_from, negb_true_iff. rewrite <- (taken_in ids x). destruct (existsb (Z.eqb x) ids); split; intros [H1 H2]; try discriminate; try (split; [lia|congruence]); try congruence.
Qed.
Lemma nodup_free ids : NoDup (free_numbers ids).
Proof. unfold free_numbers. apply NoDup_filter. rewrite from_zrange. apply nodup_from. Qed.

(** ** The numbers chosen *)
Lemma ids_at_end n t k ids top count : list_ids t (image_type k) = Ok ids -> largest ids top -> Forall (fun x => 0 <= x) ids -> 0 <= count -> top + count <= 65535 ->
  free_ids_from n t k true count = Ok (map (Z.add (top + 1)) (zrange count)).
Proof.
  intros E L P C B. unfold free_ids_from. rewrite E. cbn [bind]. assert (T : 0 <= top) by (destruct L as [[_ ->]|[I _]]; [lia|]; rewrite Forall_forall in P; exact (P _ I)).
  rewrite (after_max_from ids top) by (try change (@zlen Z []) with 0; try assumption; lia). cbn [app]. rewrite from_zrange. change (@zlen Z []) with 0. repeat f_equal; lia.
Qed.
Lemma ids_in_gaps n t k ids count : 65536 < Z.of_nat n -> list_ids t (image_type k) = Ok ids -> Forall is_u16 ids -> 0 < count -> count <= zlen (free_numbers ids) ->
  free_ids_from n t k false count = Ok (ztake count (free_numbers ids)).
Proof.
  intros Hn E U C B. unfold free_ids_from. rewrite E. rewrite (gaps_none n ids count Hn U C). cbn [bind]. destruct (top_largest ids) as (top & Et & L). clear Et. destruct (last_largest ids top U L) as (-> & R & I).
  assert (F : Forall (fun x => x <= top) ids) by (destruct L as [[-> _]|[_ L]]; [constructor|exact L]). pose proof (free_numbers_split ids top R I F) as Sp. rewrite Sp in B |- *. rewrite zlen_app, zlen_from in B. f_equal.
  assert (Lt : zlen (ztake count (free_below ids top)) = Z.min count (zlen (free_below ids top))) by (apply zlen_take_le; lia).
  assert (Z0' : 0 <= zlen (free_below ids top)) by (unfold zlen; lia).
  rewrite (after_max_from ids top) by (try assumption; lia). destruct (Z_le_gt_dec count (zlen (free_below ids top))) as [G|G].
  - rewrite (take_of_full count (free_below ids top)) by lia. replace (count - zlen (ztake count (free_below ids top))) with 0 by lia. cbn [Z.to_nat from seq map]. apply app_nil_r.
  - rewrite ztake_app_take by lia. rewrite (ztake_le count) by lia. f_equal. rewrite take_from by lia. reflexivity.
Qed.
Lemma ids_first n t k at_end count e : 65536 < Z.of_nat n -> list_ids t (image_type k) = Throw e -> 0 <= count <= 65534 -> free_ids_from n t k at_end count = Ok (map (Z.add 1) (zrange count)).
Proof.
  intros Hn E C. unfold free_ids_from. rewrite E. unfold u32. rewrite Z.mod_small by lia. rewrite count_up_from by lia. cbn [app]. rewrite from_zrange. repeat f_equal; lia.
Qed.
Lemma fresh_from ids a count : 0 <= count -> 1 <= a -> a + count <= 65536 -> (forall x, In x ids -> x < a) -> fresh_numbers ids count (map (Z.add a) (zrange count)).
Proof.
  intros C A B L. rewrite from_zrange. split; [rewrite zlen_from; lia|]. split; [apply nodup_from|]. apply Forall_forall. intros x Hx. apply in_from in Hx. split; [lia|]. intros K. pose proof (L x K). lia.
Qed.
Lemma fresh_take ids count : 0 <= count <= zlen (free_numbers ids) -> fresh_numbers ids count (ztake count (free_numbers ids)).
Proof.
  intros C. split; [rewrite zlen_take_le by lia; lia|]. split.
  - pose proof (nodup_free ids) as N. unfold ztake. rewrite <- (firstn_skipn (Z.to_nat count) (free_numbers ids)) in N. revert N. generalize (firstn (Z.to_nat count) (free_numbers ids)) (skipn (Z.to_nat count) (free_numbers ids)). intros a b. induction a as [|x a IH]; cbn [app]; intros N; [constructor|]. inversion N as [|? ? N1 N2]; subst. constructor; [intros K; apply N1, in_or_app; left; exact K|exact (IH N2)].
  - apply Forall_forall. intros x Hx. apply in_free. unfold ztake in Hx. rewrite <- (firstn_skipn (Z.to_nat count) (free_numbers ids)). apply in_or_app. left. exact Hx.
Qed.
Lemma room_fresh t k at_end count : 0 < count -> room t k at_end count -> exists l, free_ids t k at_end count = Ok l /\ fresh_numbers (in_use t k) count l.
Proof.
  intros C [[[e E] B]|(ids & E & U & B)]; unfold in_use; rewrite E.
  - eexists. split; [apply (ids_first _ t k at_end count e); [lia|exact E|lia]|]. apply fresh_from; try lia. intros x [].
  - assert (P : Forall (fun x => 0 <= x) ids) by (eapply Forall_impl; [|exact U]; unfold is_u16; intros x Hx; lia). destruct at_end.
    + destruct B as (top & L & B). assert (T : 0 <= top) by (destruct L as [[_ ->]|[I _]]; [lia|]; rewrite Forall_forall in P; exact (P _ I)).
      eexists. split; [apply (ids_at_end _ t k ids top count E L P); lia|]. apply fresh_from; try lia. intros x Hx. destruct L as [[-> ->]|[_ L]]; [destruct Hx|]. rewrite Forall_forall in L. specialize (L x Hx). lia.
    + eexists. split; [apply (ids_in_gaps _ t k ids count); try assumption; lia|]. apply fresh_take. lia.
Qed.
