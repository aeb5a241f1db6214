(** Proofs: the tree of resources - induction, sizes and sorting. *)
From Verif Require Import StoreFacts ExportFacts.
From Verif Require Export SpecRes.

(** ** Induction *)
Lemma rnode_ind2 (P : rnode -> Prop) : P RNone -> (forall d c, P (RData d c)) -> (forall h l, Forall (fun e => P (snd e)) l -> P (RDir h l)) -> forall n, P n.
Proof.
  intros H1 H2 H3. fix IH 1. intros [|d c|h l]; [exact H1|apply H2|]. apply H3. induction l as [|[nm c] l IHl]; constructor; [apply IH|exact IHl].
Qed.
Lemma fold_Forall {A} (Q : A -> Prop) l : fold_right (fun e P => Q e /\ P) True l <-> Forall Q l.
Proof. induction l as [|e l IH]; cbn [fold_right]; [split; constructor|]. rewrite IH. split; [intros [H1 H2]; constructor; assumption|intros H; inversion H; tauto]. Qed.
Lemma valid_dir h l : valid_tree (RDir h l) <-> is_u32 (r_chars h) /\ is_u32 (r_time h) /\ is_u16 (r_major h) /\ is_u16 (r_minor h) /\ Forall (fun e => valid_rname (fst e) /\ valid_tree (snd e)) l.
Proof. cbn [valid_tree]. rewrite (fold_Forall (fun e => valid_rname (fst e) /\ valid_tree (snd e))). reflexivity. Qed.
Lemma storable_dir h l : storable_tree (RDir h l) <-> count_named l < 2^16 /\ count_ids l < 2^16 /\ NoDup (map fst l) /\ Forall (fun e => storable_rname (fst e) /\ storable_tree (snd e)) l.
Proof. cbn [storable_tree]. rewrite (fold_Forall (fun e => storable_rname (fst e) /\ storable_tree (snd e))). reflexivity. Qed.
Lemma ordered_dir h l : ordered_tree (RDir h l) <-> ordered l /\ Forall (fun e => ordered_tree (snd e)) l.
Proof. cbn [ordered_tree]. rewrite (fold_Forall (fun e => ordered_tree (snd e))). reflexivity. Qed.
Lemma even_dir h l : even_tree (RDir h l) <-> Forall (fun e => even_tree (snd e)) l.
Proof. cbn [even_tree]. rewrite (fold_Forall (fun e => even_tree (snd e))). reflexivity. Qed.

(** ** Sizes *)
Lemma total_nonneg {A} (f : A -> Z) l : Forall (fun x => 0 <= f x) l -> 0 <= total f l.
Proof. unfold total. induction 1; cbn [fold_right]; lia. Qed.
Lemma table_size_nonneg n : 0 <= table_size n.
Proof.
  induction n as [|d c|h l F] using rnode_ind2; cbn [table_size]; try lia. assert (0 <= total (fun e => 8 + table_size (snd e)) l); [|lia].
  apply total_nonneg. apply (Forall_impl _ (P := fun e => 0 <= table_size (snd e))); [|exact F]. cbv beta. lia.
Qed.
Lemma rname_size_nonneg n : 0 <= rname_size n.
Proof. destruct n as [s|]; cbn [rname_size]; [pose proof (zlen_nonneg s)|]; lia. Qed.
Lemma text_size_nonneg n : 0 <= text_size n.
Proof.
  induction n as [|d c|h l F] using rnode_ind2; cbn [text_size]; try lia.
  apply total_nonneg. apply (Forall_impl _ (P := fun e => 0 <= text_size (snd e))); [|exact F]. cbv beta. intros e. pose proof (rname_size_nonneg (fst e)). lia.
Qed.
Lemma data_end_ge n : forall pos, pos <= data_end n pos.
Proof.
  induction n as [|d c|h l F] using rnode_ind2; intros pos; cbn [data_end]; [lia| |].
  - pose proof (ceil_mult_least pos 4 ltac:(lia)). pose proof (zlen_nonneg d). lia.
  - revert pos; induction F as [|e l He F IH]; intros pos; cbn [fold_left]; [lia|]. specialize (He pos). specialize (IH (data_end (snd e) pos)). lia.
Qed.
Lemma fold_data_ge (l : list rentry) : forall pos, pos <= fold_left (fun q (e : rentry) => data_end (snd e) q) l pos.
Proof. induction l as [|e l IH]; intros pos; cbn [fold_left]; [lia|]. pose proof (data_end_ge (snd e) pos). specialize (IH (data_end (snd e) pos)). lia. Qed.
Lemma pow2_4 : power_of_two 4. Proof. exists 2. split; [lia|reflexivity]. Qed.
Lemma align4 x : 0 <= x -> ceil_mult x 4 < 2^32 -> align_up x 4 = ceil_mult x 4.
Proof. intros. apply align_up_small; try lia. exact pow2_4. Qed.

(** ** The two scans of the writer *)
Definition tables_list := fix go (l : list rentry) (st : Z * Z) : res (Z * Z) :=
  match l with
  | [] => Ok st
  | (name, c) :: t =>
      let st1 := (u32 (fst st + 8), match name with Named s => u32 (snd st + u32 ((zlen s + 1) * 2 + 2)) | Ided _ => snd st end) in
      st2 <- (match c with RData _ _ => Ok st1 | _ => tables_space c st1 end) ;;
      go t st2
  end.
Lemma tables_dir h l st : tables_space (RDir h l) st = tables_list l (u32 (fst st + 16), snd st).
Proof. reflexivity. Qed.
Definition space_list := fix go (l : list rentry) (st : Z * Z) : res (Z * Z) :=
  match l with
  | [] => Ok st
  | (_, c) :: t =>
      st1 <- (match c with
              | RData data _ => let size := u32 (zlen data + 16 + u32 (align_up (snd st) 4 - snd st)) in Ok (u32 (fst st + size), u32 (snd st + size))
              | _ => data_space c st
              end) ;;
      go t st1
  end.
Lemma space_dir h l st : data_space (RDir h l) st = space_list l st.
Proof. reflexivity. Qed.
Definition is_dir (n : rnode) : Prop := match n with RDir _ _ => True | _ => False end.
Lemma tables_ok n : valid_tree n -> is_dir n -> forall a b, 0 <= a -> 0 <= b -> a + table_size n < 2^32 -> b + text_size n < 2^32 ->
  tables_space n (a, b) = Ok (a + table_size n, b + text_size n).
Proof.
  induction n as [|d c|h l F] using rnode_ind2; intros V D a b Ha Hb La Lb; try destruct D. rewrite tables_dir. apply valid_dir in V as (_ & _ & _ & _ & V).
  cbn [table_size text_size fst snd] in *. set (f := fun e : rentry => 8 + table_size (snd e)) in *. set (g := fun e : rentry => rname_size (fst e) + text_size (snd e)) in *.
  assert (Nf : forall l, 0 <= total f l) by (intros m; apply total_nonneg, Forall_forall; intros x _; unfold f; pose proof (table_size_nonneg (snd x)); lia).
  assert (Ng : forall l, 0 <= total g l) by (intros m; apply total_nonneg, Forall_forall; intros x _; unfold g; pose proof (text_size_nonneg (snd x)); pose proof (rname_size_nonneg (fst x)); lia).
  rewrite u32_small by (specialize (Nf l); lia). enough (K : forall a b, 0 <= a -> 0 <= b -> a + total f l < 2^32 -> b + total g l < 2^32 -> tables_list l (a, b) = Ok (a + total f l, b + total g l)).
  { rewrite K by lia. do 2 f_equal. lia. }
  clear La Lb Ha Hb a b. revert F V. induction l as [|[nm c] l IH]; intros F V a b Ha Hb La Lb; cbn [tables_list total fold_right]; [do 2 f_equal; lia|].
  apply Forall_cons_iff in F as [Fc F]. apply Forall_cons_iff in V as [[Vn Vc] V]. cbn [fst snd] in *.
  cbn [total fold_right] in La, Lb. fold (total f l) in *. fold (total g l) in *.
  pose proof (Nf l) as N1. pose proof (Ng l) as N2. assert (Ef : f (nm, c) = 8 + table_size c) by reflexivity. assert (Eg : g (nm, c) = rname_size nm + text_size c) by reflexivity.
  pose proof (table_size_nonneg c). pose proof (text_size_nonneg c). pose proof (rname_size_nonneg nm).
  assert (E1 : match nm with Named s => u32 (b + u32 ((zlen s + 1) * 2 + 2)) | Ided _ => b end = b + rname_size nm).
  { destruct nm as [s|]; cbn [rname_size] in *; [|lia]. rewrite (u32_small ((zlen s + 1) * 2 + 2)) by lia. rewrite u32_small by lia. lia. }
  rewrite E1. rewrite u32_small by lia.
  assert (E2 : match c with RData _ _ => Ok (a + 8, b + rname_size nm) | _ => tables_space c (a + 8, b + rname_size nm) end = Ok (a + 8 + table_size c, b + rname_size nm + text_size c)).
  { destruct c as [|d cp|h2 l2]; [destruct Vc|cbn [table_size text_size]; do 2 f_equal; lia|]. apply Fc; try assumption; try exact I; lia. }
  rewrite E2. cbn [bind]. rewrite (IH F V) by lia. do 2 f_equal; lia.
Qed.
Lemma space_ok n : valid_tree n -> is_dir n -> forall a pos, 0 <= a -> 0 <= pos -> data_end n pos < 2^32 -> a + (data_end n pos - pos) < 2^32 ->
  data_space n (a, pos) = Ok (a + (data_end n pos - pos), data_end n pos).
Proof.
  induction n as [|d c|h l F] using rnode_ind2; intros V D a pos Ha Hb La Lb; try destruct D. rewrite space_dir. apply valid_dir in V as (_ & _ & _ & _ & V).
  cbn [data_end] in *. revert a pos Ha Hb La Lb F V. induction l as [|[nm c] l IH]; intros a pos Ha Hb La Lb F V; cbn [space_list fold_left snd fst] in *; [do 2 f_equal; lia|].
  apply Forall_cons_iff in F as [Fc F]. apply Forall_cons_iff in V as [[Vn Vc] V]. cbn [fst snd] in *.
  pose proof (fold_data_ge l (data_end c pos)) as G1. pose proof (data_end_ge c pos) as G2.
  match goal with |- bind ?m _ = _ => assert (E2 : m = Ok (a + (data_end c pos - pos), data_end c pos)) end.
  { destruct c as [|d cp|h2 l2]; [destruct Vc| |apply Fc; try assumption; try exact I; lia]. cbn [data_end] in *. pose proof (ceil_mult_least pos 4 ltac:(lia)). pose proof (zlen_nonneg d).
    rewrite align4 by lia. cbv zeta. rewrite (u32_small (ceil_mult pos 4 - pos)) by lia. rewrite (u32_small (zlen d + 16 + (ceil_mult pos 4 - pos))) by lia. rewrite !u32_small by lia. do 2 f_equal; lia. }
  rewrite E2. cbn [bind]. rewrite IH; try assumption; try lia. do 2 f_equal; lia.
Qed.

(** ** Sorting *)
Lemma rname_lt_before a b : rname_lt a b = true <-> rname_before a b.
Proof. destruct a as [s|m], b as [t|n]; cbn [rname_lt rname_before]; try apply str_ltb_before; try (split; congruence); try tauto; [split; [discriminate|tauto]|lia]. Qed.
Lemma insert_rperm e l : Permutation (e :: l) (insert_rentry e l).
Proof. induction l as [|x l IH]; cbn [insert_rentry]; [reflexivity|]. destruct (rname_lt _ _); [|reflexivity]. rewrite perm_swap. constructor. exact IH. Qed.
Lemma sort_rperm l : Permutation l (sort_rentries l).
Proof. unfold sort_rentries. induction l as [|e l IH]; cbn [fold_right]; [reflexivity|]. rewrite <- insert_rperm. constructor. exact IH. Qed.
Lemma str_eqb_eq a : forall b, str_eqb a b = true -> a = b.
Proof. induction a as [|x a IH]; intros [|y b]; cbn [str_eqb]; try congruence. intros H. apply andb_true_iff in H as [H1 H2]. f_equal; [lia|auto]. Qed.
Lemma rname_total a b : rname_lt a b = false -> a <> b -> rname_before b a.
Proof.
  destruct a as [s|m], b as [t|n]; cbn [rname_lt rname_before]; try tauto; try congruence; intros H N.
  - apply str_total; [exact H|]. destruct (str_eqb s t) eqn:E; [|reflexivity]. apply str_eqb_eq in E. congruence.
  - assert (m <> n) by congruence. lia.
Qed.
Lemma rname_trans a b c : rname_before a b -> rname_before b c -> rname_before a c.
Proof. destruct a, b, c; cbn [rname_before]; try tauto; try lia. apply str_before_trans. Qed.
Lemma insert_rsorted e l : ordered l -> ~ In (fst e) (map fst l) -> ordered (insert_rentry e l).
Proof.
  unfold ordered. induction 1 as [|x l S IH F]; intros N; cbn [insert_rentry]; [repeat constructor|]. cbn [map] in N.
  destruct (rname_lt (fst x) (fst e)) eqn:E.
  - constructor; [apply IH; intros I; apply N; right; exact I|]. apply (Permutation_Forall (insert_rperm e l)). constructor; [apply rname_lt_before; exact E|exact F].
  - apply rname_total in E; [|intros Q; apply N; left; congruence]. constructor; [constructor; assumption|]. constructor; [exact E|].
    apply (Forall_impl _ (P := fun f => rname_before (fst x) (fst f))); [|exact F]. cbv beta. intros f Hf. apply (rname_trans _ _ _ E Hf).
Qed.
Lemma sort_rsorted l : NoDup (map fst l) -> ordered (sort_rentries l).
Proof.
  unfold sort_rentries. induction l as [|e l IH]; cbn [fold_right map]; intros N; [constructor|]. apply NoDup_cons_iff in N as [N1 N2]. apply insert_rsorted; [exact (IH N2)|].
  intros H. apply N1. apply (Permutation_in _ (Permutation_sym (Permutation_map fst (sort_rperm l)))). exact H.
Qed.
Lemma rname_irrefl a b : rname_before a b -> rname_lt b a = false.
Proof.
  intros H. destruct (rname_lt b a) eqn:E; [|reflexivity]. apply rname_lt_before in E. pose proof (rname_trans _ _ _ H E) as X.
  apply rname_lt_before in X. destruct a as [s|m]; cbn [rname_lt] in X; [|lia]. exfalso. clear -X. induction s as [|x s IH]; cbn [str_ltb] in X; [discriminate|]. destruct (x <? x) eqn:Q; [lia|]. rewrite Z.eqb_refl in X. cbn [orb andb] in X. auto.
Qed.
Lemma sort_ordered l : ordered l -> sort_rentries l = l.
Proof.
  unfold ordered, sort_rentries. induction 1 as [|x l S IH F]; cbn [fold_right]; [reflexivity|]. rewrite IH. destruct l as [|y l]; cbn [insert_rentry]; [reflexivity|].
  apply Forall_inv in F. rewrite (rname_irrefl _ _ F). reflexivity.
Qed.
Lemma total_perm {A} (f : A -> Z) l m : Permutation l m -> total f l = total f m.
Proof. unfold total. induction 1; cbn [fold_right]; lia. Qed.
Lemma total_map {A B} (f : B -> Z) (g : A -> B) l : total f (map g l) = total (fun x => f (g x)) l.
Proof. unfold total. induction l as [|x l IH]; cbn [map fold_right]; [reflexivity|]. rewrite IH. reflexivity. Qed.
Lemma total_ext {A} (f g : A -> Z) l : Forall (fun x => f x = g x) l -> total f l = total g l.
Proof. unfold total. induction 1 as [|x l H F IH]; cbn [fold_right]; [reflexivity|]. rewrite H, IH. reflexivity. Qed.
Definition sort_child (e : rentry) : rentry := (fst e, sort_tree (snd e)).
Lemma sort_dir h l : sort_tree (RDir h l) = RDir h (sort_rentries (map sort_child l)).
Proof. reflexivity. Qed.
Lemma sort_is_dir n : is_dir n -> is_dir (sort_tree n).
Proof. destruct n; cbn; tauto. Qed.
Lemma sort_table n : table_size (sort_tree n) = table_size n.
Proof.
  induction n as [|d c|h l F] using rnode_ind2; try reflexivity. rewrite sort_dir. cbn [table_size]. f_equal. rewrite <- (total_perm _ _ _ (sort_rperm _)), total_map.
  apply total_ext. apply (Forall_impl _ (P := fun e => table_size (sort_tree (snd e)) = table_size (snd e))); [|exact F]. cbv beta. intros e He. cbn [sort_child snd]. lia.
Qed.
Lemma sort_text n : text_size (sort_tree n) = text_size n.
Proof.
  induction n as [|d c|h l F] using rnode_ind2; try reflexivity. rewrite sort_dir. cbn [text_size]. rewrite <- (total_perm _ _ _ (sort_rperm _)), total_map.
  apply total_ext. apply (Forall_impl _ (P := fun e => text_size (sort_tree (snd e)) = text_size (snd e))); [|exact F]. cbv beta. intros e He. cbn [sort_child snd fst]. lia.
Qed.
Lemma sort_Forall (Q : rentry -> Prop) l : Forall (fun e => Q (sort_child e)) l -> Forall Q (sort_rentries (map sort_child l)).
Proof. intros H. apply (Permutation_Forall (sort_rperm _)). apply Forall_map. exact H. Qed.
Lemma Forall_mp {A} (P Q : A -> Prop) l : Forall (fun x => P x -> Q x) l -> Forall P l -> Forall Q l.
Proof. intros H. induction H; intros K; inversion K; constructor; auto. Qed.
Lemma sort_valid n : valid_tree n -> valid_tree (sort_tree n).
Proof.
  induction n as [|d c|h l F] using rnode_ind2; try (cbn; tauto). intros V. apply valid_dir in V as (H1 & H2 & H3 & H4 & V). rewrite sort_dir. apply valid_dir. repeat (split; [assumption|]).
  apply sort_Forall. apply (Forall_mp (fun e => valid_rname (fst e) /\ valid_tree (snd e))); [|exact V]. apply (Forall_impl _ (P := fun e => valid_tree (snd e) -> valid_tree (sort_tree (snd e)))); [|exact F]. cbv beta. cbn [sort_child fst snd]. tauto.
Qed.
Lemma count_perm f l m : Permutation l m -> zlen (filter f l) = zlen (filter (A := rentry) f m).
Proof. intros H. unfold zlen. f_equal. apply Permutation_length, filter_perm, H. Qed.
Lemma count_map f l : (forall e, f (sort_child e) = f e) -> zlen (filter f (map sort_child l)) = zlen (filter f l).
Proof. intros H. induction l as [|e l IH]; cbn [map filter]; [reflexivity|]. rewrite H. destruct (f e); rewrite ?zlen_cons; lia. Qed.
Lemma sort_counts l : count_named (sort_rentries (map sort_child l)) = count_named l /\ count_ids (sort_rentries (map sort_child l)) = count_ids l.
Proof.
  unfold count_named, count_ids. split; rewrite <- (count_perm _ _ _ (sort_rperm _)); apply count_map; reflexivity.
Qed.
Lemma sort_keys l : map fst (map sort_child l) = map fst l.
Proof. rewrite map_map. reflexivity. Qed.
Lemma sort_storable n : storable_tree n -> storable_tree (sort_tree n).
Proof.
  induction n as [|d c|h l F] using rnode_ind2; try (cbn; tauto). intros V. apply storable_dir in V as (H1 & H2 & H3 & V). rewrite sort_dir. apply storable_dir.
  destruct (sort_counts l) as [-> ->]. split; [exact H1|]. split; [exact H2|]. split.
  - apply (Permutation_NoDup (Permutation_map fst (sort_rperm (map sort_child l)))). rewrite sort_keys. exact H3.
  - apply sort_Forall. apply (Forall_mp (fun e => storable_rname (fst e) /\ storable_tree (snd e))); [|exact V]. apply (Forall_impl _ (P := fun e => storable_tree (snd e) -> storable_tree (sort_tree (snd e)))); [|exact F]. cbv beta. cbn [sort_child fst snd]. tauto.
Qed.
Lemma sort_ordered_tree n : ordered_tree n -> sort_tree n = n.
Proof.
  induction n as [|d c|h l F] using rnode_ind2; try reflexivity. intros O. apply ordered_dir in O as [O1 O2]. rewrite sort_dir.
  assert (map sort_child l = l) as ->.
  { clear O1. induction l as [|[nm c] l IH]; [reflexivity|]. apply Forall_cons_iff in F as [Fc F]. apply Forall_cons_iff in O2 as [Oc O2]. cbn [map snd] in *. rewrite (IH F O2). change (sort_child (nm, c)) with (nm, sort_tree c). rewrite (Fc Oc). reflexivity. }
  rewrite sort_ordered by exact O1. reflexivity.
Qed.
(** Data of even lengths takes the same space in any order. *)
Fixpoint data_total (n : rnode) : Z :=
  match n with RNone => 0 | RData d _ => 16 + zlen d | RDir _ l => total (fun e => data_total (snd e)) l end.
Lemma data_total_nonneg n : 0 <= data_total n.
Proof. induction n as [|d c|h l F] using rnode_ind2; cbn [data_total]; [lia|pose proof (zlen_nonneg d); lia|]. apply total_nonneg. exact F. Qed.
Lemma data_end_even n : even_tree n -> (4 | data_total n) /\ forall pos, 0 <= pos -> data_end n pos = if data_total n =? 0 then pos else ceil_mult pos 4 + data_total n.
Proof.
  induction n as [|d c|h l F] using rnode_ind2; cbn [data_end data_total].
  - intros _. split; [exists 0; reflexivity|reflexivity].
  - cbn [even_tree]. intros [k Hk]. pose proof (zlen_nonneg d). split; [exists (4 + k); lia|]. intros pos Hp. replace (16 + zlen d =? 0) with false by lia. lia.
  - intros E. apply even_dir in E. set (f := fun e : rentry => data_total (snd e)).
    assert (Nf : forall l, 0 <= total f l) by (intros m; apply total_nonneg, Forall_forall; intros x _; apply data_total_nonneg).
    induction l as [|[nm c] l IH]; cbn [fold_left total fold_right]; [split; [exists 0; reflexivity|reflexivity]|].
    apply Forall_cons_iff in F as [Fc F]. apply Forall_cons_iff in E as [Ec E]. cbn [snd] in *. fold (total f l). destruct (Fc Ec) as [D1 K1]. destruct (IH F E) as [D2 K2].
    change (f (nm, c)) with (data_total c). split; [apply Z.divide_add_r; assumption|]. intros pos Hp. pose proof (data_total_nonneg c) as Z1. pose proof (Nf l) as Z2.
    assert (Hm : forall x y, 0 <= x -> (4 | y) -> ceil_mult (ceil_mult x 4 + y) 4 = ceil_mult x 4 + y).
    { intros x y Hx Dy. apply ceil_mult_id; [lia|]. apply Z.mod_divide; [lia|]. apply Z.divide_add_r; [apply ceil_mult_least; lia|exact Dy]. }
    pose proof (ceil_mult_least pos 4 ltac:(lia)) as Cm. rewrite K1 by exact Hp. destruct (Z.eqb_spec (data_total c) 0) as [E0|E0].
    + rewrite K2 by exact Hp. rewrite E0. reflexivity.
    + rewrite K2 by lia. replace (data_total c + total f l =? 0) with false by lia. destruct (Z.eqb_spec (total f l) 0) as [E1|E1]; [lia|]. rewrite Hm by assumption. lia.
Qed.
Lemma sort_data_total n : data_total (sort_tree n) = data_total n.
Proof.
  induction n as [|d c|h l F] using rnode_ind2; try reflexivity. rewrite sort_dir. cbn [data_total]. rewrite <- (total_perm _ _ _ (sort_rperm _)), total_map. apply total_ext. exact F.
Qed.
Lemma sort_even n : even_tree n -> even_tree (sort_tree n).
Proof.
  induction n as [|d c|h l F] using rnode_ind2; try (cbn; tauto). intros V. apply even_dir in V. rewrite sort_dir. apply even_dir.
  apply sort_Forall. apply (Forall_mp (fun e => even_tree (snd e))); [|exact V]. exact F.
Qed.
Lemma sort_data_end n pos : 0 <= pos -> ordered_tree n \/ even_tree n -> data_end (sort_tree n) pos = data_end n pos.
Proof.
  intros Hp [O|E]; [rewrite sort_ordered_tree by exact O; reflexivity|]. destruct (data_end_even n E) as [_ ->]; [|exact Hp].
  destruct (data_end_even _ (sort_even n E)) as [_ ->]; [|exact Hp]. rewrite sort_data_total. reflexivity.
Qed.

(** ** What the reader makes of a sorted tree *)
Fixpoint counted (n : rnode) : rnode :=
  match n with
  | RDir h l => RDir (mk_rhead (r_chars h) (r_time h) (r_major h) (r_minor h) (count_named l) (count_ids l)) (map (fun e => (fst e, counted (snd e))) l)
  | _ => n
  end.
Lemma canonical_sorted n : valid_tree n -> storable_tree n -> canonical n (counted (sort_tree n)).
Proof.
  induction n as [|d c|h l F] using rnode_ind2; [intros []|intros; constructor|]. intros V S. apply valid_dir in V as (_ & _ & _ & _ & V). apply storable_dir in S as (_ & _ & Nd & S).
  rewrite sort_dir. cbn [counted]. destruct (sort_counts l) as [-> ->].
  destruct (Permutation_map_inv sort_child l (Permutation_sym (sort_rperm (map sort_child l)))) as (m & Em & Pm).
  apply (canonical_dir h l m); [exact Pm| |].
  - rewrite Em. rewrite map_map. apply (Permutation_Forall Pm) in F. apply (Permutation_Forall Pm) in V. apply (Permutation_Forall Pm) in S. clear -F V S.
    induction m as [|e m IH]; cbn [map]; constructor; inversion F; inversion V; inversion S; subst; [split; [reflexivity|cbn [sort_child fst snd]; tauto]|apply IH; assumption].
  - pose proof (sort_rsorted (map sort_child l)) as O. rewrite sort_keys in O. specialize (O Nd). revert O. generalize (sort_rentries (map sort_child l)). clear.
    unfold ordered. intros l. induction 1 as [|e l S IH F]; cbn [map]; constructor; [exact IH|]. apply Forall_map. exact F.
Qed.
