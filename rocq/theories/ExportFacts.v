(** Proofs about exports. *)
From Verif Require Export SpecExport StoreFacts.

(** ** Strings *)
Lemma str_eqb_eq a : forall b, str_eqb a b = true <-> a = b.
Proof.
  induction a as [|x a IH]; intros [|y b]; cbn [str_eqb]; try (split; congruence).
  rewrite andb_true_iff, IH, Z.eqb_eq. split; [intros [-> ->]; reflexivity|intros H; injection H; auto].
Qed.
Lemma str_ltb_before a : forall b, str_ltb a b = true <-> str_before a b.
Proof.
  unfold str_before. induction a as [|x a IH]; intros [|y b]; cbn [str_ltb].
  - split; [discriminate|]. intros (c & s & t & A & B & D). destruct c; [|discriminate A]. cbn [app] in *. subst s t. contradiction.
  - split; [|reflexivity]. intros _. exists [], [], (y :: b). repeat split.
  - split; [discriminate|]. intros (c & s & t & A & B & D). destruct c; [|discriminate B]. cbn [app] in *. subst s t. contradiction.
  - rewrite orb_true_iff, andb_true_iff, Z.ltb_lt, Z.eqb_eq, IH. split.
    + intros [H|[-> (c & s & t & -> & -> & D)]].
      * exists [], (x :: a), (y :: b). repeat split. exact H.
      * exists (y :: c), s, t. repeat split. exact D.
    + intros ([|z c] & s & t & A & B & D); cbn [app] in *.
      * subst s t. left. exact D.
      * injection A as -> ->. injection B as <- ->. right. split; [reflexivity|]. exists c, s, t. repeat split. exact D.
Qed.
Lemma str_before_trans a b c : str_before a b -> str_before b c -> str_before a c.
Proof.
  rewrite <- !str_ltb_before. revert b c; induction a as [|x a IH]; intros [|y b] [|z c]; cbn [str_ltb]; try congruence; try reflexivity.
  rewrite !orb_true_iff, !andb_true_iff, !Z.ltb_lt, !Z.eqb_eq. intros [H|[-> H]] [K|[-> K]]; [left; lia|left; lia|left; lia|right; split; [reflexivity|apply (IH b c H K)]].
Qed.
Lemma str_total a : forall b, str_ltb a b = false -> str_eqb a b = false -> str_before b a.
Proof.
  intros b. rewrite <- str_ltb_before. revert b. induction a as [|x a IH]; intros [|y b]; cbn [str_ltb str_eqb]; try congruence; try reflexivity.
  intros H K. destruct (Z.ltb_spec x y); [discriminate|]. cbn [orb] in H. destruct (Z.ltb_spec y x); [reflexivity|]. replace (x =? y) with true in * by lia.
  replace (y =? x) with true by lia. cbn [andb orb] in *. apply IH; assumption.
Qed.
Lemma is_empty_nil {A} (l : list A) : is_empty l = true <-> l = [].
Proof. destruct l; cbn [is_empty]; split; congruence. Qed.
Lemma is_empty_not {A} (l : list A) : is_empty l = false <-> l <> [].
Proof. destruct l; cbn [is_empty]; split; congruence. Qed.

(** ** The scan *)
Lemma given_cons s l : given (s :: l) = if is_empty s then given l else s :: given l.
Proof. unfold given. cbn [filter]. destruct (is_empty s); reflexivity. Qed.
Lemma names_cons f l : export_names (f :: l) = if has_name f then e_name f :: export_names l else export_names l.
Proof. unfold export_names, has_name. cbn [map]. rewrite given_cons. destruct (is_empty (e_name f)); reflexivity. Qed.
Lemma forwards_cons f l : export_forwards (f :: l) = if is_forwarded f then e_fwd f :: export_forwards l else export_forwards l.
Proof. unfold export_forwards, is_forwarded. cbn [map]. rewrite given_cons. destruct (is_empty (e_fwd f)); reflexivity. Qed.
Lemma existsb_in {A} (eqb : A -> A -> bool) (E : forall a b, eqb a b = true <-> a = b) x l : existsb (eqb x) l = true <-> In x l.
Proof.
  rewrite existsb_exists. split; [intros (y & H & K); apply E in K; subst; exact H|]. intros H. exists x. split; [exact H|]. apply E. reflexivity.
Qed.
Definition scan_step := (fun (st : list Z * list (list Z) * (Z * Z * Z * Z * Z)) f =>
    let '(ords, names, (nn, base, top, names_size, fwd_size)) := st in
    throw_if (existsb (Z.eqb (e_ordinal f)) ords) duplicate_exported_function_ordinal ;;;
    throw_if (has_name f && existsb (str_eqb (e_name f)) names) duplicate_exported_function_name ;;;
    Ok (e_ordinal f :: ords, if has_name f then e_name f :: names else names,
        (if has_name f then u32 (nn + 1) else nn, Z.min base (e_ordinal f), Z.max top (e_ordinal f),
         if has_name f then u32 (names_size + u32 (zlen (e_name f) + 1)) else names_size,
         if is_forwarded f then u32 (fwd_size + u32 (zlen (e_fwd f) + 1)) else fwd_size))).
Lemma u32_add a b : u32 (a + u32 b) = u32 (a + b).
Proof. unfold u32. rewrite Zplus_mod_idemp_r. reflexivity. Qed.
Lemma u32_add_l a b : u32 (u32 a + b) = u32 (a + b).
Proof. unfold u32. rewrite Zplus_mod_idemp_l. reflexivity. Qed.
Lemma u32_u32 a : u32 (u32 a) = u32 a.
Proof. unfold u32. apply Z.mod_mod. lia. Qed.
Lemma scan_ok l : forall ords names nn base top ns fs,
  NoDup (export_ordinals l) -> NoDup (export_names l) -> (forall x, In x ords -> ~ In x (export_ordinals l)) -> (forall x, In x names -> ~ In x (export_names l)) ->
  exists o n, mfold scan_step l (ords, names, (u32 nn, base, top, u32 ns, u32 fs)) =
  Ok (o, n, (u32 (nn + zlen (export_names l)), fold_left Z.min (export_ordinals l) base, fold_left Z.max (export_ordinals l) top,
     u32 (ns + stored_strings (export_names l)), u32 (fs + stored_strings (export_forwards l)))).
Proof.
  induction l as [|f l IH]; intros ords names nn base top ns fs N1 N2 D1 D2.
  - exists ords, names. cbn [mfold export_ordinals export_names export_forwards given map filter fold_left stored_strings fold_right]. change (zlen []) with 0. rewrite !Z.add_0_r. reflexivity.
  - cbn [mfold]. unfold scan_step at 1. change (export_ordinals (f :: l)) with (e_ordinal f :: export_ordinals l) in *.
    rewrite names_cons in *. rewrite forwards_cons. inversion N1 as [|? ? N1a N1b]; subst.
    assert (X1 : existsb (Z.eqb (e_ordinal f)) ords = false).
    { apply not_true_is_false. rewrite (existsb_in Z.eqb Z.eqb_eq). intros K. apply (D1 _ K). left. reflexivity. }
    assert (X2 : has_name f && existsb (str_eqb (e_name f)) names = false).
    { destruct (has_name f); [|reflexivity]. cbn [andb]. apply not_true_is_false. rewrite (existsb_in str_eqb str_eqb_eq). intros K. apply (D2 _ K). left. reflexivity. }
    rewrite X1, X2. cbn [throw_if bind]. cbn [fold_left].
    assert (D1' : forall x, In x (e_ordinal f :: ords) -> ~ In x (export_ordinals l)).
    { intros x [<-|K]; [exact N1a|]. intros Q. apply (D1 _ K). right. exact Q. }
    destruct (has_name f).
    + inversion N2 as [|? ? N2a N2b]; subst. rewrite u32_add_l, u32_add, u32_add_l.
      assert (D2' : forall x, In x (e_name f :: names) -> ~ In x (export_names l)).
      { intros x [<-|K]; [exact N2a|]. intros Q. apply (D2 _ K). right. exact Q. }
      replace (if is_forwarded f then u32 (u32 fs + u32 (zlen (e_fwd f) + 1)) else u32 fs) with (u32 (if is_forwarded f then fs + (zlen (e_fwd f) + 1) else fs)) by (destruct (is_forwarded f); [rewrite u32_add_l, u32_add|]; reflexivity).
      destruct (IH (e_ordinal f :: ords) (e_name f :: names) (nn + 1) (Z.min base (e_ordinal f)) (Z.max top (e_ordinal f)) (ns + (zlen (e_name f) + 1)) (if is_forwarded f then fs + (zlen (e_fwd f) + 1) else fs) N1b N2b D1' D2') as (o & n & E).
      exists o, n. rewrite E. rewrite zlen_cons. cbn [stored_strings fold_right].
      fold (stored_strings (export_names l)).
      replace (nn + 1 + zlen (export_names l)) with (nn + (1 + zlen (export_names l))) by lia. replace (ns + (zlen (e_name f) + 1) + stored_strings (export_names l)) with (ns + (zlen (e_name f) + 1 + stored_strings (export_names l))) by lia.
      destruct (is_forwarded f); [|reflexivity]. cbn [stored_strings fold_right]. fold (stored_strings (export_forwards l)). rewrite <- (Z.add_assoc fs). reflexivity.
    + replace (if is_forwarded f then u32 (u32 fs + u32 (zlen (e_fwd f) + 1)) else u32 fs) with (u32 (if is_forwarded f then fs + (zlen (e_fwd f) + 1) else fs)) by (destruct (is_forwarded f); [rewrite u32_add_l, u32_add|]; reflexivity).
      destruct (IH (e_ordinal f :: ords) names nn (Z.min base (e_ordinal f)) (Z.max top (e_ordinal f)) ns (if is_forwarded f then fs + (zlen (e_fwd f) + 1) else fs) N1b N2 D1' D2) as (o & n & E).
      exists o, n. rewrite E. destruct (is_forwarded f); [|reflexivity]. cbn [stored_strings fold_right]. fold (stored_strings (export_forwards l)). rewrite <- (Z.add_assoc fs). reflexivity.
Qed.
Lemma fold_min l : forall b, fold_left Z.min l b = fold_right Z.min b l.
Proof. intros b. apply fold_symmetric; intros; lia. Qed.
Lemma fold_max l : forall b, fold_left Z.max l b = fold_right Z.max b l.
Proof. intros b. apply fold_symmetric; intros; lia. Qed.
Lemma min_start l b c : Forall (fun x => x <= b /\ x <= c) l -> l <> [] -> fold_right Z.min b l = fold_right Z.min c l.
Proof.
  induction 1 as [|x l H F IH]; intros N; [congruence|]. cbn [fold_right]. destruct l as [|y l]; [cbn [fold_right]; lia|]. rewrite IH by discriminate. reflexivity.
Qed.
Lemma export_scan_ok l : l <> [] -> Forall valid_export l -> distinct_exports l ->
  export_scan 0xFFFFFFFF l = Ok (u32 (zlen (export_names l)), lowest l, highest l, u32 (stored_strings (export_names l)), u32 (stored_strings (export_forwards l))).
Proof.
  intros Nl V [D1 D2]. unfold export_scan. fold scan_step.
  destruct (scan_ok l [] [] 0 0xFFFFFFFF 0 0 0 D1 D2 ltac:(intros ? []) ltac:(intros ? [])) as (o & n & E). change (u32 0) with 0 in E. rewrite E. cbn [bind].
  rewrite !Z.add_0_l, fold_min, fold_max. unfold lowest, highest. rewrite (min_start (export_ordinals l) 0xFFFFFFFF 0xFFFF); [reflexivity| |].
  - unfold export_ordinals. apply Forall_map. apply (Forall_impl _ (P := valid_export)); [|exact V]. intros f (_ & _ & H & _). unfold is_u16 in H. lia.
  - destruct l; [congruence|discriminate].
Qed.
(** Duplicates. *)
Lemma scan_dup l : forall ords names st,
  (exists o n st', mfold scan_step l (ords, names, st) = Ok (o, n, st') /\ NoDup (export_ordinals l) /\ NoDup (export_names l) /\
     (forall x, In x ords -> ~ In x (export_ordinals l)) /\ (forall x, In x names -> ~ In x (export_names l))) \/
  (mfold scan_step l (ords, names, st) = Throw duplicate_exported_function_ordinal /\ ~ (NoDup (export_ordinals l) /\ (forall x, In x ords -> ~ In x (export_ordinals l)))) \/
  (mfold scan_step l (ords, names, st) = Throw duplicate_exported_function_name /\ ~ (NoDup (export_names l) /\ (forall x, In x names -> ~ In x (export_names l)))).
Proof.
  induction l as [|f l IH]; intros ords names [[[[nn base] top] ns] fs].
  - left. exists ords, names, (nn, base, top, ns, fs). split; [reflexivity|]. split; [constructor|]. split; [constructor|]. split; intros x _ [].
  - cbn [mfold]. unfold scan_step at 1 3 5. change (export_ordinals (f :: l)) with (e_ordinal f :: export_ordinals l). rewrite names_cons.
    destruct (existsb (Z.eqb (e_ordinal f)) ords) eqn:X1; cbn [throw_if bind].
    { right; left. split; [reflexivity|]. intros [_ K]. apply (existsb_in Z.eqb Z.eqb_eq) in X1. apply (K _ X1). left. reflexivity. }
    assert (Y1 : ~ In (e_ordinal f) ords) by (intros K; apply (existsb_in Z.eqb Z.eqb_eq) in K; congruence).
    destruct (has_name f) eqn:Hn; cbn [andb].
    + destruct (existsb (str_eqb (e_name f)) names) eqn:X2; cbn [throw_if bind].
      { right; right. split; [reflexivity|]. intros [_ K]. apply (existsb_in str_eqb str_eqb_eq) in X2. apply (K _ X2). left. reflexivity. }
      assert (Y2 : ~ In (e_name f) names) by (intros K; apply (existsb_in str_eqb str_eqb_eq) in K; congruence).
      edestruct (IH (e_ordinal f :: ords) (e_name f :: names)) as [(o & n & st' & E & A1 & A2 & A3 & A4)|[[E K]|[E K]]]; rewrite E.
      * left. exists o, n, st'. split; [reflexivity|]. split; [constructor; [apply A3; left; reflexivity|exact A1]|]. split; [constructor; [apply A4; left; reflexivity|exact A2]|].
        split; intros x Hx [<-|Q]; try contradiction; [apply (A3 x (or_intror Hx) Q)|apply (A4 x (or_intror Hx) Q)].
      * right; left. split; [reflexivity|]. intros [B1 B2]. apply K. inversion B1; subst. split; [assumption|]. intros x [<-|Hx]; [assumption|]. intros Q. apply (B2 x Hx). right. exact Q.
      * right; right. split; [reflexivity|]. intros [B1 B2]. apply K. inversion B1; subst. split; [assumption|]. intros x [<-|Hx]; [assumption|]. intros Q. apply (B2 x Hx). right. exact Q.
    + cbn [throw_if bind]. edestruct (IH (e_ordinal f :: ords) names) as [(o & n & st' & E & A1 & A2 & A3 & A4)|[[E K]|[E K]]]; rewrite E.
      * left. exists o, n, st'. split; [reflexivity|]. split; [constructor; [apply A3; left; reflexivity|exact A1]|]. split; [exact A2|].
        split; [|exact A4]. intros x Hx [<-|Q]; try contradiction. apply (A3 x (or_intror Hx) Q).
      * right; left. split; [reflexivity|]. intros [B1 B2]. apply K. inversion B1; subst. split; [assumption|]. intros x [<-|Hx]; [assumption|]. intros Q. apply (B2 x Hx). right. exact Q.
      * right; right. split; [reflexivity|]. exact K.
Qed.

(** ** Sorting *)
Lemma insert_ord_perm f l : Permutation (insert_by_ordinal f l) (f :: l).
Proof.
  induction l as [|g l IH]; cbn [insert_by_ordinal]; [reflexivity|]. destruct (e_ordinal f <? e_ordinal g); [reflexivity|].
  rewrite IH. apply perm_swap.
Qed.
Lemma insert_ord_sorted f l : StronglySorted by_ordinal l -> ~ In (e_ordinal f) (export_ordinals l) -> StronglySorted by_ordinal (insert_by_ordinal f l).
Proof.
  induction 1 as [|g l S IH F]; intros N; cbn [insert_by_ordinal]; [repeat constructor|].
  assert (e_ordinal g <> e_ordinal f) by (intros K; apply N; left; exact K).
  destruct (Z.ltb_spec (e_ordinal f) (e_ordinal g)) as [C|C].
  - constructor; [constructor; assumption|]. constructor; [exact C|]. apply (Forall_impl _ (P := by_ordinal g)); [|exact F]. unfold by_ordinal. intros; lia.
  - constructor; [apply IH; intros K; apply N; right; exact K|]. rewrite insert_ord_perm. constructor; [unfold by_ordinal; lia|exact F].
Qed.
Lemma sort_ok l : NoDup (export_ordinals l) -> Permutation (sort_by_ordinal l) l /\ StronglySorted by_ordinal (sort_by_ordinal l).
Proof.
  unfold sort_by_ordinal. intros N. enough (H : forall a, StronglySorted by_ordinal a -> (forall f, In f l -> ~ In (e_ordinal f) (export_ordinals a)) ->
    Permutation (fold_left (fun acc f => insert_by_ordinal f acc) l a) (a ++ l) /\ StronglySorted by_ordinal (fold_left (fun acc f => insert_by_ordinal f acc) l a)).
  { apply (H []); [constructor|intros ? ? []]. }
  induction l as [|f l IH]; intros a S D; cbn [fold_left]; [rewrite app_nil_r; split; [reflexivity|exact S]|].
  change (export_ordinals (f :: l)) with (e_ordinal f :: export_ordinals l) in N. inversion N as [|? ? N1 N2]; subst.
  destruct (IH N2 (insert_by_ordinal f a)) as [P Q].
  - apply insert_ord_sorted; [exact S|apply D; left; reflexivity].
  - intros g Hg K. unfold export_ordinals in K. rewrite insert_ord_perm in K. destruct K as [K|K]; [|apply (D g (or_intror Hg) K)].
    apply N1. rewrite K. apply in_map, Hg.
  - split; [|exact Q]. rewrite P, insert_ord_perm. cbn [app]. apply Permutation_middle.
Qed.
Notation named := (list Z * Z)%type.
Definition map_step (base : Z) (m : list named) (f : exported) : list named :=
  if has_name f then insert_by_name (e_name f) (u16 (e_ordinal f - base)) m else m.
Definition name_before (x y : named) : Prop := str_before (fst x) (fst y).
Lemma insert_name_ok n o m : StronglySorted name_before m -> ~ In n (map fst m) ->
  Permutation (insert_by_name n o m) ((n, o) :: m) /\ StronglySorted name_before (insert_by_name n o m).
Proof.
  induction 1 as [|[n2 o2] m S IH F]; intros N; cbn [insert_by_name]; [split; [reflexivity|repeat constructor]|].
  destruct (str_ltb n n2) eqn:C.
  - split; [reflexivity|]. apply str_ltb_before in C. constructor; [constructor; assumption|]. constructor; [exact C|].
    apply (Forall_impl _ (P := name_before (n2, o2))); [|exact F]. intros x Hx. apply (str_before_trans _ _ _ C Hx).
  - assert (E : str_eqb n n2 = false) by (apply not_true_is_false; rewrite str_eqb_eq; intros ->; apply N; left; reflexivity). rewrite E.
    destruct IH as [P Q]; [intros K; apply N; right; exact K|]. split; [rewrite P; apply perm_swap|]. constructor; [exact Q|].
    rewrite P. constructor; [|exact F]. apply (str_total _ _ C E).
Qed.
(** The named functions with the values that are stored. *)
Definition name_pairs (base : Z) (l : list exported) : list named :=
  map (fun f => (e_name f, u16 (e_ordinal f - base))) (filter has_name l).
Lemma fst_name_pairs base l : map fst (name_pairs base l) = export_names l.
Proof.
  unfold name_pairs, export_names. rewrite map_map. cbn [fst]. induction l as [|f l IH]; [reflexivity|]. cbn [filter map]. rewrite given_cons.
  unfold has_name at 1. destruct (is_empty (e_name f)); cbn [negb map]; rewrite IH; reflexivity.
Qed.
Lemma map_ok base l : forall a, NoDup (export_names l) -> StronglySorted name_before a -> (forall x, In x (map fst a) -> ~ In x (export_names l)) ->
  Permutation (fold_left (map_step base) l a) (a ++ name_pairs base l) /\ StronglySorted name_before (fold_left (map_step base) l a).
Proof.
  induction l as [|f l IH]; intros a N S D; cbn [fold_left]; [rewrite app_nil_r; split; [reflexivity|exact S]|].
  rewrite names_cons in *. unfold map_step at 2 4, name_pairs. cbn [filter]. destruct (has_name f) eqn:Hn; [|apply IH; assumption].
  inversion N as [|? ? N1 N2]; subst. destruct (insert_name_ok (e_name f) (u16 (e_ordinal f - base)) a S) as [P Q].
  { intros K. apply (D _ K). left. reflexivity. }
  destruct (IH (insert_by_name (e_name f) (u16 (e_ordinal f - base)) a) N2 Q) as [P2 Q2].
  { intros x. rewrite P. intros [<-|K]; [exact N1|]. intros T. apply (D _ K). right. exact T. }
  split; [|exact Q2]. rewrite P2, P. cbn [map app]. apply Permutation_middle.
Qed.

(** ** Writing the functions *)
Fixpoint ascending (cur : Z) (m : list exported) : Prop :=
  match m with [] => True | f :: t => cur <= e_ordinal f /\ ascending (e_ordinal f + 1) t end.
Fixpoint exp_end (cur : Z) (m : list exported) : Z := match m with [] => cur | f :: t => exp_end (e_ordinal f + 1) t end.
(** The address table: for every ordinal the address and the function, if there is one. *)
Notation slot := (Z * option exported)%type.
Fixpoint exp_table (va cur fp : Z) (m : list exported) : list slot :=
  match m with
  | [] => []
  | f :: t => repeat (0, None) (Z.to_nat (e_ordinal f - cur)) ++
      (if is_forwarded f then va + fp else e_rva f, Some f) :: exp_table va (e_ordinal f + 1) (if is_forwarded f then fp + (zlen (e_fwd f) + 1) else fp) t
  end.
Definition addresses (t : list slot) : list Z := concat (map (fun e => le 4 (fst e)) t).
Definition fwds (m : list exported) : list Z := concat (map (fun f => if is_forwarded f then e_fwd f ++ [0] else []) m).
Lemma addresses_app a b : addresses (a ++ b) = addresses a ++ addresses b.
Proof. unfold addresses. rewrite map_app, concat_app. reflexivity. Qed.
Lemma addresses_cons e b : addresses (e :: b) = le 4 (fst e) ++ addresses b. Proof. reflexivity. Qed.
Lemma zlen_addresses t : zlen (addresses t) = 4 * zlen t.
Proof. induction t as [|e t IH]; [reflexivity|]. rewrite addresses_cons, zlen_app, zlen_le, IH, zlen_cons. lia. Qed.
Lemma le_zero n : le n 0 = zeros (Z.of_nat n).
Proof. unfold zeros. rewrite Nat2Z.id. induction n as [|n IH]; [reflexivity|]. cbn [le repeat]. rewrite Z.mod_0_l, Z.div_0_l, IH by lia. reflexivity. Qed.
Lemma addresses_gap n : addresses (repeat (0, None) (Z.to_nat n)) = zeros (4 * n).
Proof.
  unfold zeros. destruct (Z.le_gt_cases n 0) as [H|H]; [replace (Z.to_nat n) with O by lia; replace (Z.to_nat (4 * n)) with O by lia; reflexivity|].
  replace (Z.to_nat (4 * n)) with (4 * Z.to_nat n)%nat by lia. generalize (Z.to_nat n) as k. clear. induction k as [|k IH]; [reflexivity|].
  cbn [repeat]. rewrite addresses_cons, IH. cbn [fst]. rewrite le_zero. change (zeros (Z.of_nat 4)) with (repeat 0 4). rewrite <- repeat_app. f_equal. lia.
Qed.
Lemma exp_end_le m : forall cur, ascending cur m -> cur <= exp_end cur m.
Proof. induction m as [|f t IH]; intros cur A; cbn [exp_end ascending] in *; [lia|]. destruct A as [A B]. specialize (IH _ B). lia. Qed.
Lemma zlen_table va m : forall cur fp, ascending cur m -> zlen (exp_table va cur fp m) = exp_end cur m - cur.
Proof.
  induction m as [|f t IH]; intros cur fp A; cbn [exp_end exp_table ascending] in *; [change (@zlen slot []) with 0; lia|]. destruct A as [A B].
  rewrite zlen_app, zlen_cons, (IH _ _ B). unfold zlen at 1. rewrite repeat_length. lia.
Qed.
Lemma fwds_cons f m : fwds (f :: m) = (if is_forwarded f then e_fwd f ++ [0] else []) ++ fwds m. Proof. reflexivity. Qed.
Lemma zlen_fwds m : zlen (fwds m) = stored_strings (export_forwards m).
Proof.
  induction m as [|f m IH]; [reflexivity|]. rewrite fwds_cons, forwards_cons, zlen_app, IH. destruct (is_forwarded f); [|reflexivity].
  cbn [stored_strings fold_right]. fold (stored_strings (export_forwards m)). rewrite zlen_app. reflexivity.
Qed.
Lemma write_exports_ok s1 va base B : (forall x, 0 <= x <= B -> rva_from_section_offset s1 x = va + x) -> B < 2^32 -> forall m d last cur apos fpos mp,
  ascending cur m -> Forall valid_export m -> (cur = last + 1 \/ (cur = last /\ exists f t, m = f :: t /\ e_ordinal f = cur)) -> 0 <= last ->
  0 <= fpos -> fpos + zlen (fwds m) <= apos -> apos + 4 * (exp_end cur m - cur) <= Z.min B (zlen d) ->
  exists d' last' apos' fpos', mfold (write_export s1 base) m (d, last, apos, fpos, mp) = Ok (d', last', apos', fpos', fold_left (map_step base) m mp) /\
    zlen d' = zlen d /\ (bytes d -> bytes d') /\ holds d' apos (addresses (exp_table va cur fpos m)) /\ holds d' fpos (fwds m) /\
    (forall o x, holds d o x -> o + zlen x <= fpos \/ fpos + zlen (fwds m) <= o -> o + zlen x <= apos \/ apos + 4 * (exp_end cur m - cur) <= o -> holds d' o x).
Proof.
  intros Hv HB. induction m as [|f m IH]; intros d last cur apos fpos mp As V Hc Hl Hf Hfa Ha.
  - cbn [mfold fold_left exp_end exp_table fwds concat map addresses] in *. change (@zlen Z []) with 0 in *. exists d, last, apos, fpos. split; [reflexivity|]. split; [reflexivity|]. split; [tauto|].
    split; [apply holds_nil; lia|]. split; [apply holds_nil; lia|]. intros o x H _ _. exact H.
  - cbn [ascending exp_end exp_table] in *. destruct As as [A1 A2]. inversion V as [|? ? Vf V']; subst. pose proof Vf as (Vn & Vw & Vo & Vr). unfold is_u16 in Vo.
    pose proof (exp_end_le _ _ A2) as Le. rewrite fwds_cons, zlen_app in *. pose proof (zlen_nonneg (fwds m)) as Lf. set (gap := e_ordinal f - cur) in *. assert (Eg : e_ordinal f = cur + gap) by lia.
    pose proof (zlen_nonneg (if is_forwarded f then e_fwd f ++ [0] else [])) as Lw.
    assert (Hcur : e_ordinal f - last - 1 = gap \/ (gap = 0 /\ last = e_ordinal f)).
    { destruct Hc as [Hc|(Hc & f' & t' & Q1 & Q2)]; [left; lia|]. injection Q1 as <- <-. right. lia. }
    assert (S1 : exists d1, (if last <? e_ordinal f then
       (if u32 (4 * u32 (e_ordinal f - last - 1)) =? 0 then Ok (d, apos, e_ordinal f) else d' <- wr d apos (zeros (u32 (4 * u32 (e_ordinal f - last - 1)))) ;; Ok (d', u32 (apos + u32 (4 * u32 (e_ordinal f - last - 1))), e_ordinal f))
       else Ok (d, apos, last)) = Ok (d1, apos + 4 * gap, e_ordinal f) /\ zlen d1 = zlen d /\ (bytes d -> bytes d1) /\ holds d1 apos (zeros (4 * gap)) /\
       (forall o x, holds d o x -> o + zlen x <= apos \/ apos + 4 * gap <= o -> holds d1 o x)).
    { assert (E0 : gap = 0 -> exists d1, Ok (d, apos, e_ordinal f) = Ok (d1, apos + 4 * gap, e_ordinal f) /\ zlen d1 = zlen d /\ (bytes d -> bytes d1) /\ holds d1 apos (zeros (4 * gap)) /\
       (forall o x, holds d o x -> o + zlen x <= apos \/ apos + 4 * gap <= o -> holds d1 o x)).
      { intros ->. exists d. rewrite Z.add_0_r. split; [reflexivity|]. split; [reflexivity|]. split; [tauto|]. split; [apply holds_nil; lia|]. intros o x H _. exact H. }
      destruct Hcur as [Hcur|[G0 Hcur]].
      - replace (last <? e_ordinal f) with true by lia. rewrite Hcur. rewrite (u32_small gap) by lia. rewrite (u32_small (4 * gap)) by lia.
        destruct (Z.eqb_spec (4 * gap) 0) as [C|C]; [apply E0; lia|].
        destruct (wr_step d apos (zeros (4 * gap))) as (d1 & W & L & H & Fr & Bb); [lia|rewrite zlen_zeros; lia|]. rewrite zlen_zeros in Fr by lia.
        rewrite W. cbn [bind]. rewrite u32_small by lia. exists d1. split; [reflexivity|]. split; [exact L|]. split; [intros K; apply (Bb K), bytes_zeros|]. split; [exact H|exact Fr].
      - replace (last <? e_ordinal f) with false by lia. rewrite Hcur. apply E0, G0. }
    destruct S1 as (d1 & E1 & L1 & B1 & H1 & F1). cbn [mfold fold_left]. unfold write_export at 1. rewrite E1. cbn [bind].
    change (if has_name f then insert_by_name (e_name f) (u16 (e_ordinal f - base)) mp else mp) with (map_step base mp f).
    destruct (is_forwarded f).
    + rewrite zlen_app in *. change (zlen [0]) with 1 in *. rewrite Hv by lia.
      destruct (wr_step d1 (apos + 4 * gap) (le 4 (va + fpos))) as (d2 & W2 & L2 & H2 & F2 & B2); [lia|rewrite zlen_le; lia|]. rewrite zlen_le in F2.
      destruct (wr_step d2 fpos (e_fwd f ++ [0])) as (d3 & W3 & L3 & H3 & F3 & B3); [lia|rewrite zlen_app; change (zlen [0]) with 1; lia|]. rewrite zlen_app in F3. change (zlen [0]) with 1 in F3.
      rewrite W2. cbn [bind]. rewrite W3. cbn [bind]. pose proof (zlen_nonneg (e_fwd f)). rewrite (u32_small (zlen (e_fwd f) + 1)) by lia. rewrite !u32_small by lia.
      destruct (IH d3 (e_ordinal f) (e_ordinal f + 1) (apos + 4 * gap + 4) (fpos + (zlen (e_fwd f) + 1)) (map_step base mp f) A2 V' (or_introl eq_refl)) as (d' & la & ap & fp & E & L & Bt & Ht & Hw & Fr); try lia.
      exists d', la, ap, fp. split; [exact E|]. split; [lia|].
      split. { intros K. apply Bt, B3; [apply B2; [apply B1, K|apply bytes_le]|]. apply bytes_app. split; [exact Vw|]. repeat constructor; lia. }
      split; [|split].
      * rewrite addresses_app, addresses_gap, addresses_cons. cbn [fst]. rewrite holds_app. rewrite zlen_zeros by lia. split; [|rewrite holds_app, zlen_le; split; [|exact Ht]].
        -- apply Fr; rewrite ?zlen_zeros; try lia. apply F3; rewrite ?zlen_zeros; try lia. apply F2; rewrite ?zlen_zeros; try lia. exact H1.
        -- apply Fr; rewrite ?zlen_le; try lia. apply F3; rewrite ?zlen_le; try lia. exact H2.
      * rewrite holds_app. rewrite zlen_app. change (zlen [0]) with 1. split; [|exact Hw]. apply Fr; rewrite ?zlen_app; change (zlen [0]) with 1; try lia. exact H3.
      * intros o x H' K1 K2. apply Fr; try lia. apply F3; try lia. apply F2; try lia. apply F1; try lia. exact H'.
    + cbn [app] in *. change (@zlen Z []) with 0 in *.
      destruct (wr_step d1 (apos + 4 * gap) (le 4 (e_rva f))) as (d2 & W2 & L2 & H2 & F2 & B2); [lia|rewrite zlen_le; lia|]. rewrite zlen_le in F2.
      rewrite W2. cbn [bind]. rewrite !u32_small by lia.
      destruct (IH d2 (e_ordinal f) (e_ordinal f + 1) (apos + 4 * gap + 4) fpos (map_step base mp f) A2 V' (or_introl eq_refl)) as (d' & la & ap & fp & E & L & Bt & Ht & Hw & Fr); try lia.
      exists d', la, ap, fp. split; [exact E|]. split; [lia|].
      split. { intros K. apply Bt, B2; [apply B1, K|apply bytes_le]. }
      split; [|split].
      * rewrite addresses_app, addresses_gap, addresses_cons. cbn [fst]. rewrite holds_app. rewrite zlen_zeros by lia. split; [|rewrite holds_app, zlen_le; split; [|exact Ht]].
        -- apply Fr; rewrite ?zlen_zeros; try lia. apply F2; rewrite ?zlen_zeros; try lia. exact H1.
        -- apply Fr; rewrite ?zlen_le; try lia. exact H2.
      * exact Hw.
      * intros o x H K1 K2. apply Fr; try lia. apply F2; try lia. apply F1; try lia. exact H.
Qed.

(** ** Writing the names *)
Definition strs (mp : list named) : list Z := concat (map (fun x => fst x ++ [0]) mp).
Definition nords (mp : list named) : list Z := concat (map (fun x => le 2 (snd x)) mp).
Fixpoint nrvas (va np : Z) (mp : list named) : list Z := match mp with [] => [] | x :: t => (va + np) :: nrvas va (np + (zlen (fst x) + 1)) t end.
Definition words (l : list Z) : list Z := concat (map (le 4) l).
Lemma zlen_strs mp : zlen (strs mp) = stored_strings (map fst mp).
Proof.
  induction mp as [|x mp IH]; [reflexivity|]. change (strs (x :: mp)) with ((fst x ++ [0]) ++ strs mp). cbn [map stored_strings fold_right]. fold (stored_strings (map fst mp)).
  rewrite !zlen_app, IH. reflexivity.
Qed.
Lemma write_names_ok s1 va B : (forall x, 0 <= x <= B -> rva_from_section_offset s1 x = va + x) -> B < 2^32 -> forall mp d npos rpos opos,
  Forall (fun x => bytes (fst x)) mp -> 0 <= npos -> npos + zlen (strs mp) <= opos -> opos + 2 * zlen mp <= rpos -> rpos + 4 * zlen mp <= Z.min B (zlen d) ->
  exists d' np rp op, mfold (write_export_name s1) mp (d, npos, rpos, opos) = Ok (d', np, rp, op) /\
    zlen d' = zlen d /\ (bytes d -> bytes d') /\ holds d' npos (strs mp) /\ holds d' opos (nords mp) /\ holds d' rpos (words (nrvas va npos mp)) /\
    (forall o x, holds d o x -> o + zlen x <= npos \/ npos + zlen (strs mp) <= o -> o + zlen x <= opos \/ opos + 2 * zlen mp <= o ->
       o + zlen x <= rpos \/ rpos + 4 * zlen mp <= o -> holds d' o x).
Proof.
  intros Hv HB. induction mp as [|x mp IH]; intros d npos rpos opos V Hn Hs Ho Hr.
  - cbn [mfold strs nords nrvas words concat map] in *. change (@zlen Z []) with 0 in *. change (@zlen named []) with 0 in *. exists d, npos, rpos, opos. split; [reflexivity|]. split; [reflexivity|]. split; [tauto|].
    split; [apply holds_nil; lia|]. split; [apply holds_nil; lia|]. split; [apply holds_nil; lia|]. intros o y H _ _ _. exact H.
  - inversion V as [|? ? Vx V']; subst. change (strs (x :: mp)) with ((fst x ++ [0]) ++ strs mp) in *. change (nords (x :: mp)) with (le 2 (snd x) ++ nords mp).
    cbn [nrvas]. change (words (va + npos :: nrvas va (npos + (zlen (fst x) + 1)) mp)) with (le 4 (va + npos) ++ words (nrvas va (npos + (zlen (fst x) + 1)) mp)).
    assert (Lx : zlen (fst x ++ [0]) = zlen (fst x) + 1) by (rewrite zlen_app; reflexivity).
    rewrite (zlen_app (fst x ++ [0]) (strs mp)) in *. rewrite Lx in Hs. rewrite zlen_cons in *. pose proof (zlen_nonneg (strs mp)) as Z1. pose proof (zlen_nonneg mp) as Z2. pose proof (zlen_nonneg (fst x)) as Z3.
    cbn [mfold]. unfold write_export_name at 1. rewrite Hv by lia.
    destruct (wr_step d rpos (le 4 (va + npos))) as (d1 & W1 & L1 & H1 & F1 & B1); [lia|rewrite zlen_le; lia|]. rewrite zlen_le in F1.
    destruct (wr_step d1 npos (fst x ++ [0])) as (d2 & W2 & L2 & H2 & F2 & B2); [lia|rewrite Lx; lia|]. rewrite Lx in F2.
    destruct (wr_step d2 opos (le 2 (snd x))) as (d3 & W3 & L3 & H3 & F3 & B3); [lia|rewrite zlen_le; lia|]. rewrite zlen_le in F3.
    rewrite W1. cbn [bind]. rewrite W2. cbn [bind]. rewrite W3. cbn [bind]. rewrite (u32_small (zlen (fst x) + 1)) by lia. rewrite !u32_small by lia.
    destruct (IH d3 (npos + (zlen (fst x) + 1)) (rpos + 4) (opos + 2) V') as (d' & np & rp & op & E & L & Bt & Ha & Hb & Hc & Fr); try lia.
    exists d', np, rp, op. split; [exact E|]. split; [lia|].
    split. { intros K. apply Bt, B3; [apply B2; [apply B1; [exact K|apply bytes_le]|]|apply bytes_le]. apply bytes_app. split; [exact Vx|]. repeat constructor; lia. }
    rewrite (holds_app d' npos (fst x ++ [0])), (holds_app d' opos), (holds_app d' rpos), !zlen_le, Lx. change (Z.of_nat 2) with 2. change (Z.of_nat 4) with 4. split; [split; [|exact Ha]|split; [split; [|exact Hb]|split; [split; [|exact Hc]|]]].
    + apply Fr; rewrite ?Lx; try lia. apply F3; rewrite ?Lx; try lia. exact H2.
    + apply Fr; rewrite ?zlen_le; try lia. exact H3.
    + apply Fr; rewrite ?zlen_le; try lia. apply F3; rewrite ?zlen_le; try lia. apply F2; rewrite ?zlen_le; try lia. exact H1.
    + intros o y H' K1 K2 K3. apply Fr; try lia. apply F3; try lia. apply F2; try lia. apply F1; try lia. exact H'.
Qed.

(** ** What was written, element by element *)
Lemma holds_words v off l k a : holds v off (words l) -> nth_error l k = Some a -> holds v (off + 4 * Z.of_nat k) (le 4 a).
Proof.
  revert off k; induction l as [|b l IH]; intros off [|k] H E; cbn [nth_error] in E; try discriminate; change (words (b :: l)) with (le 4 b ++ words l) in H; apply holds_app in H as [H1 H2].
  - injection E as <-. rewrite Z.add_0_r. exact H1.
  - rewrite zlen_le in H2. replace (off + 4 * Z.of_nat (S k)) with (off + Z.of_nat 4 + 4 * Z.of_nat k) by lia. apply (IH _ _ H2 E).
Qed.
Lemma zlen_nords mp : zlen (nords mp) = 2 * zlen mp.
Proof. unfold nords. induction mp as [|x mp IH]; [reflexivity|]. cbn [map concat]. rewrite zlen_app, zlen_le, zlen_cons, IH. lia. Qed.
Lemma zlen_words l : zlen (words l) = 4 * zlen l.
Proof. unfold words. induction l as [|x l IH]; [reflexivity|]. cbn [map concat]. rewrite zlen_app, zlen_le, zlen_cons, IH. lia. Qed.
Lemma zlen_nrvas va mp : forall np, zlen (nrvas va np mp) = zlen mp.
Proof. induction mp as [|x mp IH]; intros np; [reflexivity|]. cbn [nrvas]. rewrite !zlen_cons, IH. reflexivity. Qed.
Lemma holds_nords v off (l : list named) k a : holds v off (nords l) -> nth_error l k = Some a -> holds v (off + 2 * Z.of_nat k) (le 2 (snd a)).
Proof.
  revert off k; induction l as [|b l IH]; intros off [|k] H E; cbn [nth_error] in E; try discriminate; change (nords (b :: l)) with (le 2 (snd b) ++ nords l) in H; apply holds_app in H as [H1 H2].
  - injection E as <-. rewrite Z.add_0_r. exact H1.
  - rewrite zlen_le in H2. replace (off + 2 * Z.of_nat (S k)) with (off + Z.of_nat 2 + 2 * Z.of_nat k) by lia. apply (IH _ _ H2 E).
Qed.
Lemma nrvas_nth va l : forall np v k x, holds v np (strs l) -> nth_error l k = Some x ->
  exists off, nth_error (nrvas va np l) k = Some (va + off) /\ np <= off /\ off + zlen (fst x) + 1 <= np + zlen (strs l) /\ holds v off (fst x ++ [0]).
Proof.
  induction l as [|y l IH]; intros np v [|k] x H E; cbn [nth_error nrvas] in *; try discriminate; change (strs (y :: l)) with ((fst y ++ [0]) ++ strs l) in *; apply holds_app in H as [H1 H2];
    pose proof (zlen_nonneg (strs l)); rewrite zlen_app; assert (Ly : zlen (fst y ++ [0]) = zlen (fst y) + 1) by (rewrite zlen_app; reflexivity); rewrite Ly in *.
  - injection E as <-. exists np. split; [reflexivity|]. split; [lia|]. split; [lia|exact H1].
  - destruct (IH _ _ _ _ H2 E) as (off & A & B & C & D). exists off. pose proof (zlen_nonneg (fst y)). split; [exact A|]. split; [lia|]. split; [lia|exact D].
Qed.
Definition slot_ok (v : list Z) (va lo hi : Z) (m : list exported) (e : slot) : Prop :=
  match snd e with
  | None => fst e = 0
  | Some f => In f m /\ (if is_forwarded f then exists off, fst e = va + off /\ lo <= off /\ off + zlen (e_fwd f) + 1 <= hi /\ holds v off (e_fwd f ++ [0]) else fst e = e_rva f)
  end.
Lemma table_slots v va m : forall cur fp, holds v fp (fwds m) -> Forall (slot_ok v va fp (fp + zlen (fwds m)) m) (exp_table va cur fp m).
Proof.
  induction m as [|f m IH]; intros cur fp H; cbn [exp_table]; [constructor|]. rewrite fwds_cons in *. apply holds_app in H as [H1 H2]. rewrite zlen_app. pose proof (zlen_nonneg (fwds m)).
  apply Forall_app. split; [apply Forall_forall; intros e He; apply repeat_spec in He; subst e; reflexivity|]. constructor.
  - unfold slot_ok. cbn [fst snd]. split; [left; reflexivity|]. destruct (is_forwarded f); [|reflexivity]. exists fp. rewrite zlen_app in *. change (zlen [0]) with 1 in *.
    split; [reflexivity|]. split; [lia|]. split; [lia|exact H1].
  - assert (Q : zlen (if is_forwarded f then e_fwd f ++ [0] else []) = if is_forwarded f then zlen (e_fwd f) + 1 else 0) by (destruct (is_forwarded f); [rewrite zlen_app|]; reflexivity).
    rewrite Q in *. pose proof (zlen_nonneg (e_fwd f)).
    replace (if is_forwarded f then fp + (zlen (e_fwd f) + 1) else fp) with (fp + (if is_forwarded f then zlen (e_fwd f) + 1 else 0)) by (destruct (is_forwarded f); lia).
    apply (Forall_impl _ (P := slot_ok v va (fp + (if is_forwarded f then zlen (e_fwd f) + 1 else 0)) (fp + (if is_forwarded f then zlen (e_fwd f) + 1 else 0) + zlen (fwds m)) m)); [|apply IH, H2].
    intros [a [g|]]; unfold slot_ok; cbn [fst snd]; [|tauto]. intros [A B]. split; [right; exact A|]. destruct (is_forwarded g); [|exact B].
    destruct B as (off & B1 & B2 & B3 & B4). exists off. split; [exact B1|]. split; [destruct (is_forwarded f); lia|]. split; [destruct (is_forwarded f); lia|exact B4].
Qed.
Definition somes (t : list slot) : list exported := concat (map (fun e => match snd e with Some f => [f] | None => [] end) t).
Lemma somes_table va m : forall cur fp, somes (exp_table va cur fp m) = m.
Proof.
  induction m as [|f m IH]; intros cur fp; cbn [exp_table]; [reflexivity|]. unfold somes. rewrite map_app, concat_app. cbn [map concat snd].
  fold (somes (exp_table va (e_ordinal f + 1) (if is_forwarded f then fp + (zlen (e_fwd f) + 1) else fp) m)). rewrite IH.
  generalize (Z.to_nat (e_ordinal f - cur)) as n. induction n as [|n IHn]; [reflexivity|]. exact IHn.
Qed.
(** Slot [k] belongs to ordinal [cur + k]. *)
Fixpoint slots_at (cur : Z) (t : list slot) : Prop :=
  match t with [] => True | e :: r => (match snd e with Some f => e_ordinal f = cur | None => True end) /\ slots_at (cur + 1) r end.
Lemma slots_gap n t : forall cur, slots_at (cur + Z.of_nat n) t -> slots_at cur (repeat (0, None) n ++ t).
Proof.
  induction n as [|n IH]; intros cur H; cbn [repeat app slots_at]; [rewrite Z.add_0_r in H; exact H|]. split; [exact I|]. apply IH. replace (cur + 1 + Z.of_nat n) with (cur + Z.of_nat (S n)) by lia. exact H.
Qed.
Lemma table_at va m : forall cur fp, ascending cur m -> slots_at cur (exp_table va cur fp m).
Proof.
  induction m as [|f m IH]; intros cur fp A; cbn [exp_table ascending slots_at] in *; [exact I|]. destruct A as [A B]. apply slots_gap.
  replace (cur + Z.of_nat (Z.to_nat (e_ordinal f - cur))) with (e_ordinal f) by lia. cbn [slots_at snd]. split; [reflexivity|]. apply IH, B.
Qed.

(** ** Reading back *)
Lemma export_string_ok p va v off name : block p va v -> holds v off (name ++ [0]) -> ~ In 0 name -> off + 2 <= zlen v -> export_string p (va + off) = Ok name.
Proof.
  intros B H N L. pose proof (holds_range _ _ _ H) as [R1 R2]. rewrite zlen_app in R2. change (zlen [0]) with 1 in R2. unfold export_string.
  rewrite (block_length _ _ _ _ _ B) by lia. cbn [bind]. replace (zlen v - off <? 2) with false by lia. cbn [throw_if bind].
  rewrite (block_ptr _ _ _ _ B) by lia. cbn [bind]. rewrite (c_string_ok _ _ _ _ H N) by lia. reflexivity.
Qed.
Lemma read_word p va v off w n : block p va v -> holds v off (le n w) -> (0 < n)%nat -> 0 <= w < 256 ^ Z.of_nat n -> exists b, read_rva p (va + off) (Z.of_nat n) VirtData true = Ok b /\ unle b = w.
Proof.
  intros B H N R. exists (le n w). split; [apply (block_holds _ _ _ _ _ _ B H); rewrite ?zlen_le; lia|]. apply unle_le_small, R.
Qed.
Definition scanned (mp : list named) (k : Z) (w : list Z) (f : exported) : exported :=
  match find (fun x : named => k =? snd x) mp with
  | Some x => mk_exported (e_ordinal f) (e_rva f) (fst x) (snd x) w
  | None => f
  end.
Lemma scan_names_ok p va v dir size npos opos rpos mp k w f :
  block p va v -> holds v npos (strs mp) -> holds v opos (nords mp) -> holds v rpos (words (nrvas va npos mp)) -> 0 <= npos -> npos + zlen (strs mp) <= zlen v ->
  Forall (fun x : named => ~ In 0 (fst x) /\ fst x <> [] /\ is_u16 (snd x)) mp -> 0 < va -> zlen mp <= 2^31 ->
  dir + size < 2^32 -> 0 <= dir + size ->
  (if (dir + 4 <=? e_rva f) && (e_rva f <? dir + size) then export_string p (e_rva f) = Ok w else w = []) ->
  export_name_scan p dir size (zlen mp) (va + rpos) (va + opos) k f = Ok (scanned mp k w f).
Proof.
  intros B Hs Ho Hr Hn Hl V Hva Hm Hd Hd0 Hw. pose proof B as (_ & _ & Bb & _). unfold export_name_scan.
  eapply mloop_exec with (n := S (length mp)); [|unfold zlen in Hm; unfold big_fuel; lia].
  enough (G : forall r i, (length r <= length mp)%nat -> i = zlen mp - zlen r -> r = skipn (Z.to_nat i) mp ->
    nloop (S (length r)) (fun i0 : Z =>
    if i0 <? zlen mp then
      o2 <- read_rva p (u32 (va + opos + i0 * 2)) 2 VirtData true ;;
      if k =? unle o2 then
        nrva <- read_rva p (u32 (va + rpos + i0 * 4)) 4 VirtData true ;;
        name <- export_string p (unle nrva) ;;
        if (dir + 4 <=? e_rva f) && (e_rva f <? u32 (dir + size)) then
          fwd <- export_string p (e_rva f) ;;
          Ok (inr (mk_exported (e_ordinal f) (e_rva f) name (unle o2) fwd))
        else Ok (inr (mk_exported (e_ordinal f) (e_rva f) name (unle o2) []))
      else Ok (inl (i0 + 1))
    else Ok (inr f)) i = Ok (inr (scanned r k w f))).
  { apply (G mp 0); [lia|lia|reflexivity]. }
  induction r as [|x r IH]; intros i Hlen Hi Hsk.
  - change (@zlen named []) with 0 in Hi. cbn [nloop length]. replace (i <? zlen mp) with false by lia. reflexivity.
  - rewrite zlen_cons in Hi. pose proof (zlen_nonneg r) as Zr. assert (Hlr : zlen (x :: r) <= zlen mp) by (unfold zlen; lia). rewrite zlen_cons in Hlr.
    assert (Hx : nth_error mp (Z.to_nat i) = Some x).
    { rewrite <- (firstn_skipn (Z.to_nat i) mp), <- Hsk. rewrite nth_error_app2 by (rewrite firstn_length; lia). rewrite firstn_length.
      replace (Z.to_nat i - Nat.min (Z.to_nat i) (length mp))%nat with O by (unfold zlen in *; cbn [length] in *; lia). reflexivity. }
    assert (Hr' : r = skipn (Z.to_nat (i + 1)) mp).
    { replace (Z.to_nat (i + 1)) with (1 + Z.to_nat i)%nat by lia. rewrite Nat.add_comm. clear -Hsk. revert Hsk. generalize (Z.to_nat i) as n. intros n. revert mp. induction n as [|n IHn]; intros [|y mp] H; cbn [skipn Nat.add] in *; try discriminate; [injection H as _ <-; reflexivity|apply IHn, H]. }
    pose proof (holds_nords _ _ _ _ _ Ho Hx) as Ho'. rewrite Z2Nat.id in Ho' by lia. pose proof (holds_range _ _ _ Ho') as [Q1 Q2]. rewrite zlen_le in Q2.
    rewrite Forall_forall in V. destruct (V x (nth_error_In _ _ Hx)) as (V1 & V2 & V3).
    destruct (read_word _ _ _ _ _ 2 B Ho' ltac:(lia) ltac:(unfold is_u16 in V3; change (256 ^ Z.of_nat 2) with 65536; lia)) as (b & Eb & Ub). change (Z.of_nat 2) with 2 in Eb.
    change (length (x :: r)) with (S (length r)). unfold scanned. cbn [find].
    destruct (Z.eqb_spec k (snd x)) as [C|C].
    + cbn [nloop]. replace (i <? zlen mp) with true by lia. rewrite u32_small by lia. replace (va + opos + i * 2) with (va + (opos + 2 * i)) by lia. rewrite Eb. cbn [bind]. rewrite Ub.
      replace (k =? snd x) with true by lia.
      destruct (nrvas_nth va mp npos v (Z.to_nat i) x Hs Hx) as (off & N1 & N2 & N3 & N4).
      pose proof (holds_words _ _ _ _ _ Hr N1) as Hw'. rewrite Z2Nat.id in Hw' by lia. pose proof (holds_range _ _ _ Hw') as [Q3 Q4]. rewrite zlen_le in Q4.
      pose proof (zlen_nonneg (fst x)). assert (0 < zlen (fst x)) by (destruct (fst x); [congruence|rewrite zlen_cons; pose proof (zlen_nonneg l); lia]).
      destruct (read_word _ _ _ _ _ 4 B Hw' ltac:(lia) ltac:(change (256 ^ Z.of_nat 4) with (2^32); lia)) as (b2 & Eb2 & Ub2). change (Z.of_nat 4) with 4 in Eb2.
      rewrite u32_small by lia. replace (va + rpos + i * 4) with (va + (rpos + 4 * i)) by lia. rewrite Eb2. cbn [bind]. rewrite Ub2.
      rewrite (export_string_ok _ _ _ _ _ B N4 V1) by lia. cbn [bind]. rewrite u32_small by lia.
      destruct ((dir + 4 <=? e_rva f) && (e_rva f <? dir + size)); [rewrite Hw; reflexivity|rewrite Hw; reflexivity].
    + erewrite nloop_next; cycle 1.
      { replace (i <? zlen mp) with true by lia. rewrite u32_small by lia. replace (va + opos + i * 2) with (va + (opos + 2 * i)) by lia. rewrite Eb. cbn [bind]. rewrite Ub.
        replace (k =? snd x) with false by lia. reflexivity. }
      apply IH; [cbn [length] in Hlen; lia|lia|exact Hr'].
Qed.
Lemma export_functions_ok p va v dir size base apos nn names ords t :
  block p va v -> holds v apos (addresses t) -> slots_at base t -> 0 <= base -> 0 < va -> zlen t <= 2^31 ->
  (forall a, In (a, None) t -> a = 0) ->
  (forall a f, In (a, Some f) t -> a <> 0 /\ is_u32 a /\ is_u16 (e_ordinal f) /\
     exists g, export_name_scan p dir size nn names ords (e_ordinal f - base) (mk_exported (e_ordinal f) a [] 0 []) = Ok g /\ same_export base f g) ->
  exists l', export_functions p dir size base (zlen t) nn (va + apos) names ords = Ok l' /\ Forall2 (same_export base) (somes t) l'.
Proof.
  intros B Ha Hat Hb0 Hva Ht HN HS. pose proof B as (_ & _ & Bb & _). unfold export_functions.
  enough (G : forall r k acc, k = zlen t - zlen r -> 0 <= k -> holds v (apos + 4 * k) (addresses r) -> slots_at (base + k) r -> (forall e, In e r -> In e t) ->
    exists l', nloop (S (length r)) (fun st : Z * list exported =>
    let '(ordinal, acc) := st in
    if ordinal <? zlen t then
      r <- read_rva p (u32 (va + apos + ordinal * 4)) 4 VirtData true ;;
      let rva := unle r in
      if rva =? 0 then Ok (inl (ordinal + 1, acc))
      else
        throw_if (negb (is_sum_safe base ordinal) || (0xFFFF <? base + ordinal)) incorrect_export_directory ;;;
        f <- export_name_scan p dir size nn names ords ordinal (mk_exported (u16 (ordinal + base)) rva [] 0 []) ;;
        Ok (inl (ordinal + 1, acc ++ [f]))
    else Ok (inr acc)) (k, acc) = Ok (inr (acc ++ l')) /\ Forall2 (same_export base) (somes r) l').
  { destruct (G t 0 [] ltac:(lia) ltac:(lia)) as (l' & E & F); [rewrite Z.mul_0_r, Z.add_0_r; exact Ha|rewrite Z.add_0_r; exact Hat|tauto|].
    exists l'. split; [|exact F]. eapply mloop_exec; [exact E|]. unfold zlen in Ht. unfold big_fuel. lia. }
  induction r as [|e r IH]; intros k acc Hk Hk0 Hh Hs Hin.
  - exists []. cbn [nloop length]. change (@zlen slot []) with 0 in Hk. replace (k <? zlen t) with false by lia. rewrite app_nil_r. split; [reflexivity|constructor].
  - rewrite zlen_cons in Hk. pose proof (zlen_nonneg r) as Zr. rewrite addresses_cons in Hh. apply holds_app in Hh as [H1 H2]. rewrite zlen_le in H2. pose proof (holds_range _ _ _ H1) as [Q1 Q2]. rewrite zlen_le in Q2.
    cbn [slots_at] in Hs. destruct Hs as [Hs1 Hs2]. change (length (e :: r)) with (S (length r)).
    assert (Hu : is_u32 (fst e)).
    { destruct e as [a [f|]]; cbn [fst]; [apply (HS a f), Hin; left; reflexivity|]. rewrite (HN a) by (apply Hin; left; reflexivity). unfold is_u32; lia. }
    destruct (read_word _ _ _ _ _ 4 B H1 ltac:(lia) ltac:(change (256 ^ Z.of_nat 4) with (2^32); exact Hu)) as (b & Eb & Ub). change (Z.of_nat 4) with 4 in *.
    assert (IH' : forall acc, exists l', nloop (S (length r)) (fun st : Z * list exported =>
    let '(ordinal, acc) := st in
    if ordinal <? zlen t then
      r <- read_rva p (u32 (va + apos + ordinal * 4)) 4 VirtData true ;;
      let rva := unle r in
      if rva =? 0 then Ok (inl (ordinal + 1, acc))
      else
        throw_if (negb (is_sum_safe base ordinal) || (0xFFFF <? base + ordinal)) incorrect_export_directory ;;;
        f <- export_name_scan p dir size nn names ords ordinal (mk_exported (u16 (ordinal + base)) rva [] 0 []) ;;
        Ok (inl (ordinal + 1, acc ++ [f]))
    else Ok (inr acc)) (k + 1, acc) = Ok (inr (acc ++ l')) /\ Forall2 (same_export base) (somes r) l').
    { intros acc'. apply IH; [lia|lia|replace (apos + 4 * (k + 1)) with (apos + 4 * k + 4) by lia; exact H2|replace (base + (k + 1)) with (base + k + 1) by lia; exact Hs2|intros x Hx; apply Hin; right; exact Hx]. }
    destruct e as [a [f|]]; cbn [fst snd] in *.
    + destruct (HS a f ltac:(apply Hin; left; reflexivity)) as (A1 & A2 & A3 & g & A4 & A5). unfold is_u16 in A3.
      destruct (IH' (acc ++ [g])) as (l' & E & F). exists (g :: l'). change (somes ((a, Some f) :: r)) with (f :: somes r). split; [|constructor; [exact A5|exact F]].
      erewrite nloop_next; cycle 1.
      { cbv beta iota zeta. replace (k <? zlen t) with true by lia. rewrite u32_small by lia. replace (va + apos + k * 4) with (va + (apos + 4 * k)) by lia. rewrite Eb. cbn [bind]. rewrite Ub.
        replace (a =? 0) with false by lia. replace (is_sum_safe base k) with true by (symmetry; apply is_sum_safe_spec; lia).
        replace (0xFFFF <? base + k) with false by lia. cbn [negb orb throw_if bind]. rewrite u16_small by lia. replace (k + base) with (e_ordinal f) by lia.
        replace k with (e_ordinal f - base) at 1 by lia. rewrite A4. cbn [bind]. reflexivity. }
      rewrite E. rewrite <- app_assoc. reflexivity.
    + destruct (IH' acc) as (l' & E & F). exists l'. split; [|exact F].
      erewrite nloop_next; cycle 1.
      { cbv beta iota zeta. replace (k <? zlen t) with true by lia. rewrite u32_small by lia. replace (va + apos + k * 4) with (va + (apos + 4 * k)) by lia. rewrite Eb. cbn [bind]. rewrite Ub.
        rewrite (HN a) by (apply Hin; left; reflexivity). reflexivity. }
      exact E.
Qed.

(** ** Invariance under sorting *)
Lemma filter_perm {A} (f : A -> bool) l l' : Permutation l l' -> Permutation (filter f l) (filter f l').
Proof.
  induction 1; cbn [filter]; [reflexivity| | |etransitivity; eassumption].
  - destruct (f x); [constructor; assumption|assumption].
  - destruct (f x), (f y); try reflexivity. apply perm_swap.
Qed.
Lemma fold_perm (f : Z -> Z -> Z) b l l' : (forall x y z, f x (f y z) = f y (f x z)) -> Permutation l l' -> fold_right f b l = fold_right f b l'.
Proof. intros H. induction 1; cbn [fold_right]; [reflexivity|congruence|apply H|congruence]. Qed.
Lemma lowest_perm l l' : Permutation l l' -> lowest l = lowest l'.
Proof. intros P. unfold lowest, export_ordinals. apply fold_perm; [intros; lia|apply Permutation_map, P]. Qed.
Lemma highest_perm l l' : Permutation l l' -> highest l = highest l'.
Proof. intros P. unfold highest, export_ordinals. apply fold_perm; [intros; lia|apply Permutation_map, P]. Qed.
Lemma stored_perm l l' : Permutation l l' -> stored_strings l = stored_strings l'.
Proof. induction 1; cbn [stored_strings fold_right] in *; unfold stored_strings in *; lia. Qed.
Lemma names_perm l l' : Permutation l l' -> Permutation (export_names l) (export_names l').
Proof. intros P. unfold export_names, given. apply filter_perm, Permutation_map, P. Qed.
Lemma forwards_perm l l' : Permutation l l' -> Permutation (export_forwards l) (export_forwards l').
Proof. intros P. unfold export_forwards, given. apply filter_perm, Permutation_map, P. Qed.
Lemma ascending_sorted m : forall cur, StronglySorted by_ordinal m -> Forall (fun f => cur <= e_ordinal f) m -> ascending cur m.
Proof.
  induction m as [|f m IH]; intros cur S F; cbn [ascending]; [exact I|]. inversion S; subst. inversion F; subst. split; [assumption|]. apply IH; [assumption|].
  apply (Forall_impl _ (P := by_ordinal f)); [|assumption]. unfold by_ordinal. intros; lia.
Qed.
Lemma min_ge x b l : x <= b -> Forall (fun y => x <= y) l -> x <= fold_right Z.min b l.
Proof. intros H. induction 1; cbn [fold_right]; lia. Qed.
Lemma lowest_first f m : StronglySorted by_ordinal (f :: m) -> valid_export f -> lowest (f :: m) = e_ordinal f.
Proof.
  intros S (_ & _ & V & _). unfold is_u16 in V. inversion S; subst. unfold lowest, export_ordinals. cbn [map fold_right].
  assert (e_ordinal f <= fold_right Z.min 65535 (map e_ordinal m)); [|lia]. apply min_ge; [lia|]. apply Forall_map. apply (Forall_impl _ (P := by_ordinal f)); [|assumption]. unfold by_ordinal. intros; lia.
Qed.
Lemma exp_end_highest m : forall cur, m <> [] -> StronglySorted by_ordinal m -> Forall valid_export m -> exp_end cur m = highest m + 1.
Proof.
  induction m as [|f m IH]; intros cur N S V; [congruence|]. inversion S as [|? ? S1 S2]; subst. inversion V as [|? ? (_ & _ & Vf & _) V']; subst. unfold is_u16 in Vf. cbn [exp_end].
  change (highest (f :: m)) with (Z.max (e_ordinal f) (highest m)). destruct m as [|g m]; [cbn [exp_end]; change (highest []) with 0; lia|].
  rewrite IH by (try assumption; discriminate). inversion S2 as [|? ? S3 S4]; subst. unfold by_ordinal in S3. change (highest (g :: m)) with (Z.max (e_ordinal g) (highest m)). lia.
Qed.
Lemma NoDup_inj {A B} (f : A -> B) l x y : NoDup (map f l) -> In x l -> In y l -> f x = f y -> x = y.
Proof.
  induction l as [|z l IH]; intros N Hx Hy E; [contradiction|]. cbn [map] in N. inversion N as [|? ? N1 N2]; subst. destruct Hx as [->|Hx], Hy as [->|Hy]; try reflexivity.
  - exfalso. apply N1. rewrite E. apply in_map, Hy.
  - exfalso. apply N1. rewrite <- E. apply in_map, Hx.
  - apply IH; assumption.
Qed.
Lemma find_named base m mp f : Permutation mp (name_pairs base m) -> NoDup (export_ordinals m) -> In f m -> (forall g, In g m -> is_u16 (e_ordinal g - base)) ->
  find (fun x : named => e_ordinal f - base =? snd x) mp = if has_name f then Some (e_name f, e_ordinal f - base) else None.
Proof.
  intros P N Hf Hu. destruct (find _ mp) as [x|] eqn:E.
  - apply find_some in E as [H1 H2]. rewrite P in H1. unfold name_pairs in H1. apply in_map_iff in H1 as (g & <- & Hg). apply filter_In in Hg as [Hg Hn]. cbn [snd] in H2.
    specialize (Hu g Hg). unfold is_u16 in Hu. rewrite u16_small in * by lia. assert (g = f) as -> by (apply (NoDup_inj e_ordinal m); [exact N|exact Hg|exact Hf|lia]). rewrite Hn. reflexivity.
  - destruct (has_name f) eqn:Hn; [|reflexivity]. exfalso. specialize (Hu f Hf). unfold is_u16 in Hu.
    assert (In (e_name f, u16 (e_ordinal f - base)) mp). { rewrite P. unfold name_pairs. apply in_map_iff. exists f. split; [reflexivity|]. apply filter_In. split; assumption. }
    pose proof (find_none _ _ E _ H) as K. cbn [snd] in K. rewrite u16_small in K by lia. lia.
Qed.
Lemma sorted_names (mp : list named) : StronglySorted name_before mp -> StronglySorted str_before (map fst mp).
Proof. induction 1 as [|x mp S IH F]; cbn [map]; constructor; [exact IH|]. apply Forall_map. exact F. Qed.
Lemma zlen_header vs : length vs = 11%nat -> zlen (enc_fields export_widths vs) = 40.
Proof. intros H. rewrite enc_fields_length by (rewrite H; reflexivity). reflexivity. Qed.

Lemma ascending_in m f : forall c, ascending c m -> In f m -> c <= e_ordinal f.
Proof. induction m as [|g t IH]; intros c A H; [contradiction|]. cbn [ascending] in A. destruct A as [A A']. destruct H as [->|H]; [exact A|]. specialize (IH _ A' H). lia. Qed.
Lemma highest_in f l : In f l -> e_ordinal f <= highest l.
Proof.
  intros H. unfold highest. induction l as [|g l IH]; [contradiction|]. cbn [export_ordinals map fold_right]. destruct H as [->|H]; [lia|]. specialize (IH H). unfold export_ordinals in IH. lia.
Qed.
Lemma NoDup_filter_map {A B} (f : A -> B) g l : NoDup (map f l) -> NoDup (map f (filter g l)).
Proof.
  induction l as [|x l IH]; cbn [filter map]; intros N; [constructor|]. inversion N as [|? ? N1 N2]; subst. destruct (g x); [|auto]. cbn [map]. constructor; [|auto].
  intros K. apply N1. apply in_map_iff in K as (y & E & K). apply filter_In in K as [K _]. rewrite <- E. apply in_map, K.
Qed.

(** ** The rebuilder *)
Lemma rebuild_exports_strong p start i info l off save strip :
  let pos := ceil_mult off 4 in let size := export_size (xi_name info) l in
  0 <= off -> l <> [] -> Forall valid_export l -> valid_info info -> distinct_exports l -> room p start i (pos + size) ->
  dirs_ok p -> dir_export < nrva p <= 16 ->
  exists p' s out, nth_error (p_sections p) i = Some s /\
    rebuild_exports p info l i off save strip = Ok (p', (s_va s + pos, size)) /\
    zlen out = size /\ only_section p p' i pos out /\ same_headers p p' /\ image_ok p' start /\
    (if save then only_directory p p' dir_export (s_va s + pos, size) else h_dirs (p_nt p') = h_dirs (p_nt p)) /\
    (exists v, block p' (s_va s) v /\ holds v pos out /\ (~ (salign p | pos + size) -> pos + size < zlen v)) /\ (save = true -> directory_at p' dir_export (s_va s + pos) size) /\
    (Forall (plain_export (s_va s + pos) size) l -> ~ In 0 (xi_name info) ->
     forall r v, block r (s_va s) v -> holds v pos out -> directory_at r dir_export (s_va s + pos) size -> export_names l <> [] \/ pos + size < zlen v ->
     exists x l' names, get_exports r true = Ok (Some x, l') /\ get_exports r false = Ok (None, l') /\ same_info l info x /\
       (exists m, Permutation l m /\ StronglySorted by_ordinal m /\ Forall2 (same_export (lowest l)) m l') /\
       Permutation (export_names l) names /\ StronglySorted str_before names /\ name_table r x l names).
Proof.
  intros pos size Ho Nl V Vi Di R D N. change dir_export with 0 in *.
  pose proof R as (IO & T & s & Hs & Hz0 & Hf & Hv & Hr & _).
  pose proof IO as ((Ps & Pf & L) & W & _). pose proof (nth_Forall _ _ _ _ W Hs) as Ws.
  pose proof (ceil_mult_least off 4 ltac:(lia)) as (Q1 & Q2 & Q3 & _). fold pos in Q1, Q2, Q3.
  destruct (sort_ok l (proj1 Di)) as [Pm Sm]. set (m := sort_by_ordinal l) in *.
  assert (Vm : Forall valid_export m) by (rewrite Pm; exact V).
  assert (Nm : m <> []) by (intros K; rewrite K in Pm; apply Permutation_nil in Pm; congruence).
  set (nn := zlen (export_names l)) in *. assert (Enn : nn = zlen (export_names l)) by reflexivity. pose proof (zlen_nonneg (export_names l)) as Z1. rewrite <- Enn in Z1.
  set (NS := stored_strings (export_names l)) in *. set (FS := stored_strings (export_forwards l)) in *.
  assert (Elow : lowest m = lowest l) by (apply lowest_perm, Pm). assert (Ehigh : highest m = highest l) by (apply highest_perm, Pm).
  set (lo := lowest l) in *. set (hi := highest l) in *.
  assert (Alm : ascending lo m /\ exp_end lo m = hi + 1 /\ 0 <= lo <= hi /\ hi < 65536 /\ exists f t, m = f :: t /\ e_ordinal f = lo).
  { destruct m as [|f t] eqn:Em; [congruence|]. inversion Vm as [|? ? Vf Vt]; subst. inversion Sm as [|? ? S1 S2]; subst.
    pose proof (lowest_first f t Sm Vf) as E. rewrite Elow in E. destruct Vf as (_ & _ & Vf & _). unfold is_u16 in Vf.
    split; [|split; [rewrite exp_end_highest by (try assumption; discriminate); lia|]].
    - apply ascending_sorted; [exact Sm|]. constructor; [lia|]. apply (Forall_impl _ (P := by_ordinal f)); [|exact S2]. unfold by_ordinal. intros; lia.
    - assert (lo <= hi). { rewrite E, <- Ehigh. change (highest (f :: t)) with (Z.max (e_ordinal f) (highest t)). lia. }
      assert (hi < 65536). { rewrite <- Ehigh. clear -Vm. induction Vm as [|g u (_ & _ & Vg & _) Vu IH]; [reflexivity|]. change (highest (g :: u)) with (Z.max (e_ordinal g) (highest u)). unfold is_u16 in Vg. lia. }
      split; [lia|]. split; [lia|]. exists f, t. split; [reflexivity|]. symmetry. exact E. }
  destruct Alm as (Am & Em & Hlo & Hhi & Hfirst).
  assert (ZN : 0 <= NS) by (unfold NS; rewrite <- (fst_name_pairs 0), <- zlen_strs; apply zlen_nonneg).
  assert (ZF : FS = zlen (fwds m)) by (unfold FS; rewrite zlen_fwds; apply stored_perm, forwards_perm; symmetry; exact Pm).
  pose proof (zlen_nonneg (fwds m)) as ZF0. rewrite <- ZF in ZF0.
  pose proof (zlen_nonneg (xi_name info)) as ZD. set (dl := zlen (xi_name info)) in *.
  assert (Sz : size = 40 + dl + 1 + 4 * (hi - lo + 1) + NS + FS + 6 * nn) by reflexivity.
  assert (Al : align_up off 4 = pos) by (apply align_up_small; [exact four_power|lia|unfold is_u32; lia|fold pos; lia]).
  destruct (open_room_ok p start i (pos + size) (pos + size) R ltac:(pose proof (ceil_mult_least (pos + size) (falign p) (pow2_pos _ Pf)); lia)) as (s' & d0 & Hs' & Eo & Pd & L1 & L2 & L3).
  rewrite Hs in Hs'. inversion Hs'; subst s'; clear Hs'.
  unfold rebuild_exports. assert (Sa : section_attached p i = true) by (unfold section_attached; apply Nat.ltb_lt; apply (nth_lt _ _ _ Hs)). rewrite Sa. cbn [negb throw_if bind].
  replace (is_empty l) with false by (symmetry; apply is_empty_not; exact Nl). rewrite (export_scan_ok l Nl V Di). cbn [bind].
  fold nn NS FS lo hi. fold m. fold dl. rewrite Al.
  rewrite (u32_small nn), (u32_small NS), (u32_small FS) by lia. rewrite (u32_small (dl + 1)) by lia. rewrite (u32_small (hi - lo + 1)) by lia.
  rewrite (u32_small (nn * 2)), (u32_small (nn * 4)), (u32_small ((hi - lo + 1) * 4)), (u32_small (dl + 1 + NS + FS)) by lia.
  replace (u32 (40 + nn * 2 + (hi - lo + 1) * 4 + (dl + 1 + NS + FS) + nn * 4)) with size by (rewrite u32_small; lia).
  rewrite (u32_small (size + pos)) by lia. rewrite (Z.add_comm size pos). rewrite Eo. cbn [bind]. change (s_data (opened s d0)) with d0.
  rewrite (u32_small (dl + 1 + pos + 40)) by lia. rewrite (u32_small (dl + 1 + pos + 40 + NS)) by lia. rewrite (u32_small (dl + 1 + pos + 40 + NS + nn * 2)) by lia.
  rewrite (u32_small (dl + 1 + pos + 40 + NS + nn * 2 + FS)) by lia. rewrite (u32_small (dl + 1 + pos + 40 + NS + nn * 2 + FS + (hi - lo + 1) * 4)) by lia. rewrite (u32_small (pos + 40)) by lia.
  set (total := pos + size) in *. assert (Et : total = pos + size) by reflexivity. clearbody total.
  set (npos := dl + 1 + pos + 40) in *. assert (Enp : npos = dl + 1 + pos + 40) by reflexivity. clearbody npos.
  set (opos := npos + NS) in *. assert (Eop : opos = npos + NS) by reflexivity. clearbody opos.
  set (fpos := opos + nn * 2) in *. assert (Efp : fpos = opos + nn * 2) by reflexivity. clearbody fpos.
  set (apos := fpos + FS) in *. assert (Eap : apos = fpos + FS) by reflexivity. clearbody apos.
  set (rpos := apos + (hi - lo + 1) * 4) in *. assert (Erp : rpos = apos + (hi - lo + 1) * 4) by reflexivity. clearbody rpos.
  (* addresses of the section *)
  assert (Bv : s_va s + total < 2^32).
  { destruct R as (_ & _ & s' & Hs' & _ & _ & _ & _ & Q). rewrite Hs in Hs'. injection Hs' as <-. pose proof IO as (_ & W' & _ & _ & Ch & Ce).
    pose proof (chain_upper _ _ _ (pow2_pos _ Ps) W' Ch) as Up. pose proof (nth_Forall _ _ _ _ Up Hs) as Us. cbn beta in Us. unfold send in Us.
    destruct (Nat.eqb (S i) (length (p_sections p))); [pose proof (ceil_mult_least total (salign p) (pow2_pos _ Ps)); lia|lia]. }
  assert (Rv : forall x, 0 <= x <= total -> rva_from_section_offset (opened s d0) x = s_va s + x).
  { intros x Hx. unfold rva_from_section_offset. destruct (opened_fields s d0) as (_ & _ & -> & _). apply u32_small. lia. }
  rewrite !Rv by lia.
  set (hdr := enc_fields export_widths [xi_chars info; xi_time info; xi_major info; xi_minor info; s_va s + (pos + 40); lo; hi - lo + 1; nn; s_va s + apos; s_va s + rpos; s_va s + opos]).
  assert (Lh : zlen hdr = 40) by (apply zlen_header; reflexivity).
  assert (Ln : zlen (xi_name info ++ [0]) = dl + 1) by (rewrite zlen_app; reflexivity).
  destruct (wr_step d0 pos hdr) as (d1 & W1 & E1 & H1 & F1 & B1); [lia|lia|]. rewrite W1. cbn [bind]. rewrite Lh in F1.
  destruct (wr_step d1 (pos + 40) (xi_name info ++ [0])) as (d2 & W2 & E2 & H2 & F2 & B2); [lia|lia|]. rewrite W2. cbn [bind]. rewrite Ln in F2.
  destruct (write_exports_ok (opened s d0) (s_va s) lo total Rv ltac:(lia) m d2 lo lo apos fpos [] Am Vm) as (d3 & la & ap & fp & W3 & E3 & B3 & H3a & H3f & F3); try lia.
  { right. split; [reflexivity|exact Hfirst]. }
  rewrite W3. cbn [bind]. rewrite Em in F3.
  destruct (map_ok lo m [] ltac:(apply (Permutation_NoDup (names_perm _ _ (Permutation_sym Pm))), Di) ltac:(constructor) ltac:(intros ? [])) as [Pp Sp]. cbn [app] in Pp.
  set (mp := fold_left (map_step lo) m []) in *.
  assert (Pn : Permutation (map fst mp) (export_names l)) by (rewrite Pp, fst_name_pairs; apply names_perm, Pm).
  assert (Lmp : zlen mp = nn) by (rewrite <- (zlen_map fst), Enn; unfold zlen; rewrite (Permutation_length Pn); reflexivity).
  assert (Lst : zlen (strs mp) = NS) by (rewrite zlen_strs; apply stored_perm, Pn).
  assert (Pin : forall x, In x mp -> exists f, In f l /\ e_name f <> [] /\ x = (e_name f, e_ordinal f - lo) /\ is_u16 (e_ordinal f - lo)).
  { intros x Hx. rewrite Pp in Hx. unfold name_pairs in Hx. apply in_map_iff in Hx as (f & <- & Hx). apply filter_In in Hx as [Hx Hn].
    assert (Hu : is_u16 (e_ordinal f - lo)).
    { pose proof Vm as Vm'. rewrite Forall_forall in Vm'. destruct (Vm' f Hx) as (_ & _ & Vf & _). pose proof (ascending_in _ _ _ Am Hx). unfold is_u16 in *; lia. }
    exists f. split; [rewrite <- Pm; exact Hx|]. split; [apply is_empty_not; unfold has_name in Hn; destruct (is_empty (e_name f)); [discriminate|reflexivity]|]. split; [|exact Hu].
    rewrite u16_small by exact Hu. reflexivity. }
  destruct (write_names_ok (opened s d0) (s_va s) total Rv ltac:(lia) mp d3 npos rpos opos) as (d4 & np & rp & op & W4 & E4 & B4 & H4s & H4o & H4r & F4); try lia.
  { rewrite Forall_forall. intros x Hx. destruct (Pin x Hx) as (f & Hf' & _ & -> & _). rewrite Forall_forall in V. apply (V f Hf'). }
  rewrite W4. cbn [bind]. rewrite Lst in F4. rewrite Lmp in F4.
  assert (Bd0 : bytes d0) by (apply (padded_bytes _ _ Pd), bytes_raw_view, Ws).
  assert (Bd4 : bytes d4).
  { apply B4, B3, B2; [apply B1; [exact Bd0|apply bytes_enc_fields]|]. apply bytes_app. split; [apply Vi|]. repeat constructor; lia. }
  assert (L4 : zlen d4 = zlen d0) by lia.
  assert (Wi : within d0 d4 pos total).
  { apply frame_within; try lia.
    - apply F4; rewrite ?zlen_ztake by lia; try lia. apply F3; rewrite ?zlen_ztake by lia; try lia. apply F2; rewrite ?zlen_ztake by lia; try lia. apply F1; rewrite ?zlen_ztake by lia; try lia. apply holds_front. lia.
    - apply F4; rewrite ?zlen_zdrop by lia; try lia. apply F3; rewrite ?zlen_zdrop by lia; try lia. apply F2; rewrite ?zlen_zdrop by lia; try lia. apply F1; rewrite ?zlen_zdrop by lia; try lia. apply holds_back. lia. }
  pose proof (within_splice _ _ _ _ Wi ltac:(lia) ltac:(lia)) as Ed. set (out := slice d4 pos (total - pos)) in *.
  assert (Lo : zlen out = size) by (unfold out; rewrite zlen_slice by lia; lia).
  assert (Bo : bytes out) by (apply bytes_slice, Bd4).
  rewrite Ed.
  destruct (finish_ok p start i total total s d0 pos out strip save 0 size R ltac:(pose proof (ceil_mult_least total (falign p) (pow2_pos _ Pf)); lia) Hs Eo ltac:(lia) ltac:(lia) ltac:(lia) Bo D ltac:(lia) ltac:(lia))
    as (p' & t & Ef & Os & Sh & IO' & Sd & Ht & St & Wt & Lt & Rw & Hf' & Ff & Bk).
  exists p', s, out. split; [exact Hs|]. split; [exact Ef|]. split; [exact Lo|]. split; [exact Os|]. split; [exact Sh|]. split; [exact IO'|].
  split; [destruct save; [apply Sd|exact Sd]|]. rewrite <- Ed in Bk.
  split.
  { exists (d4 ++ zeros (span (salign p) t - zlen d4)). split; [exact Bk|]. assert (Lv : zlen (d4 ++ zeros (span (salign p) t - zlen d4)) = span (salign p) t) by (rewrite zlen_app, zlen_zeros; lia).
    split; [apply holds_ext; rewrite Ed; apply holds_splice; lia|]. intros Hnn. rewrite Lv. pose proof (span_div (salign p) t (pow2_pos _ Ps)) as Dv.
    assert (total <> span (salign p) t) by (intros K; apply Hnn; rewrite K; exact Dv). lia. }
  split; [intros ->; apply Sd|]. intros Pl Nd. clear p' t Ef Os Sh IO' Sd Ht St Wt Lt Rw Hf' Ff Bk. intros p' v Bk Hv' (X1 & X2 & X3) Hnn.
  pose proof (holds_range _ _ _ Hv') as [_ Lv]. rewrite Lo in Lv.
  assert (Tr : forall o' y, holds d4 o' y -> pos <= o' -> o' + zlen y <= total -> holds v o' y) by (intros o' y Hy Y1 Y2; apply (holds_part v d4 pos (total - pos) o' y Hv'); try assumption; lia).
  pose proof Bk as (_ & _ & Bb & _).
  assert (La : zlen (addresses (exp_table (s_va s) lo fpos m)) = 4 * (hi + 1 - lo)) by (rewrite zlen_addresses, zlen_table, Em; [reflexivity|exact Am]).
  assert (G1 : holds v pos hdr) by (apply Tr; [apply F4; try lia; apply F3; try lia; apply F2; try lia; exact H1|lia|lia]).
  assert (G2 : holds v (pos + 40) (xi_name info ++ [0])) by (apply Tr; [apply F4; try lia; apply F3; try lia; exact H2|lia|lia]).
  assert (G3 : holds v apos (addresses (exp_table (s_va s) lo fpos m))) by (apply Tr; [apply F4; try lia; exact H3a|lia|lia]).
  assert (G4 : holds v fpos (fwds m)) by (apply Tr; [apply F4; try lia; exact H3f|lia|lia]).
  assert (G5 : holds v npos (strs mp)) by (apply Tr; [exact H4s|lia|lia]).
  assert (G6 : holds v opos (nords mp)) by (apply Tr; [exact H4o|lia|rewrite zlen_nords; lia]).
  assert (G7 : holds v rpos (words (nrvas (s_va s) npos mp))) by (apply Tr; [exact H4r|lia|rewrite zlen_words, zlen_nrvas; lia]).
  assert (Lt' : total < zlen v \/ 0 < nn).
  { destruct Hnn as [Hnn|Hnn]; [right|left; lia]. rewrite Enn. destruct (export_names l); [congruence|]. rewrite zlen_cons. pose proof (zlen_nonneg l1). lia. }
  assert (Dt : dec_fields export_widths hdr = [xi_chars info; xi_time info; xi_major info; xi_minor info; s_va s + (pos + 40); lo; hi - lo + 1; nn; s_va s + apos; s_va s + rpos; s_va s + opos]).
  { unfold hdr. rewrite <- (app_nil_r (enc_fields _ _)). apply dec_enc_fields. destruct Vi as (V1 & V2 & V3 & V4 & _). unfold is_u32, is_u16 in *.
    cbn [fits export_widths]. change (256 ^ Z.of_nat 4) with (2^32). change (256 ^ Z.of_nat 2) with (2^16). repeat (split; [lia|]). exact I. }
  assert (Ft : forall f, In f m -> In f l) by (intros f; rewrite Pm; tauto).
  assert (Fun : exists l', export_functions p' (s_va s + pos) size lo (hi - lo + 1) nn (s_va s + apos) (s_va s + rpos) (s_va s + opos) = Ok l' /\ Forall2 (same_export lo) m l').
  { destruct (export_functions_ok p' (s_va s) v (s_va s + pos) size lo apos nn (s_va s + rpos) (s_va s + opos) (exp_table (s_va s) lo fpos m) Bk G3 (table_at _ _ _ _ Am) ltac:(lia) Hz0) as (l' & A & B).
    - rewrite zlen_table, Em by exact Am. lia.
    - intros a Ha. pose proof (table_slots v (s_va s) m lo fpos G4) as Fs. rewrite Forall_forall in Fs. exact (Fs _ Ha).
    - intros a f Ha. pose proof (table_slots v (s_va s) m lo fpos G4) as Fs. rewrite Forall_forall in Fs. specialize (Fs _ Ha). unfold slot_ok in Fs. cbn [fst snd] in Fs. destruct Fs as [If Fs].
      rewrite Forall_forall in Vm, Pl. destruct (Vm f If) as (_ & _ & Vo & Vr). destruct (Pl f (Ft f If)) as (P1 & P2 & P3 & P4).
      pose proof (find_named lo m mp f Pp ltac:(unfold export_ordinals; rewrite Pm; apply Di) If) as Fn.
      assert (Hu : forall g, In g m -> is_u16 (e_ordinal g - lo)).
      { intros g Hg. destruct (Vm g Hg) as (_ & _ & Vg & _). pose proof (ascending_in _ _ _ Am Hg). unfold is_u16 in *; lia. }
      specialize (Fn Hu).
      assert (Names : forall w, (if (s_va s + pos + 4 <=? a) && (a <? s_va s + pos + size) then export_string p' a = Ok w else w = []) ->
        export_name_scan p' (s_va s + pos) size nn (s_va s + rpos) (s_va s + opos) (e_ordinal f - lo) (mk_exported (e_ordinal f) a [] 0 []) =
        Ok (if has_name f then mk_exported (e_ordinal f) a (e_name f) (e_ordinal f - lo) w else mk_exported (e_ordinal f) a [] 0 [])).
      { intros w Hw. rewrite <- Lmp. rewrite (scan_names_ok p' (s_va s) v (s_va s + pos) size npos opos rpos mp (e_ordinal f - lo) w); try assumption; try lia.
        - unfold scanned. rewrite Fn. destruct (has_name f); reflexivity.
        - rewrite Forall_forall. intros x Hx. destruct (Pin x Hx) as (g & Hg & Hn & -> & Hq). cbn [fst snd]. destruct (Pl g Hg) as (P1' & _). split; [exact P1'|]. split; [exact Hn|exact Hq]. }
      destruct (is_forwarded f) eqn:Fw.
      + destruct Fs as (o & -> & S1 & S2 & S3). pose proof (zlen_nonneg (e_fwd f)) as Zw. assert (We : e_fwd f <> []) by (apply is_empty_not; unfold is_forwarded in Fw; destruct (is_empty (e_fwd f)); [discriminate|reflexivity]).
        assert (0 < zlen (e_fwd f)) by (destruct (e_fwd f); [congruence|rewrite zlen_cons; pose proof (zlen_nonneg l0); lia]).
        split; [lia|]. split; [unfold is_u32; lia|]. split; [exact Vo|].
        exists (mk_exported (e_ordinal f) (s_va s + o) (e_name f) (e_ordinal f - lo) (e_fwd f)). split.
        * rewrite (Names (e_fwd f)).
          -- replace (has_name f) with true; [reflexivity|]. symmetry. unfold has_name. specialize (P3 We). apply is_empty_not in P3. rewrite P3. reflexivity.
          -- replace ((s_va s + pos + 4 <=? s_va s + o) && (s_va s + o <? s_va s + pos + size)) with true by lia. apply (export_string_ok _ _ _ _ _ Bk S3 P2). lia.
        * unfold same_export. cbn [e_ordinal e_name e_fwd e_rva e_nord]. split; [reflexivity|]. split; [reflexivity|]. split; [reflexivity|]. split; [intros K; congruence|]. intros _. reflexivity.
      + assert (We : e_fwd f = []) by (apply is_empty_nil; unfold is_forwarded in Fw; destruct (is_empty (e_fwd f)); [reflexivity|discriminate]). subst a.
        destruct (P4 We) as [P5 P6]. split; [exact P5|]. split; [exact Vr|]. split; [exact Vo|]. eexists. split.
        * apply (Names []). replace ((s_va s + pos + 4 <=? e_rva f) && (e_rva f <? s_va s + pos + size)) with false by lia. reflexivity.
        * unfold same_export, has_name. destruct (is_empty (e_name f)) eqn:Ee; cbn [negb e_ordinal e_name e_fwd e_rva e_nord].
          -- apply is_empty_nil in Ee. rewrite Ee, We. repeat split; congruence.
          -- rewrite We. repeat split.
    - rewrite somes_table in B. rewrite zlen_table, Em in A by exact Am. exists l'. split; [|exact B]. replace (hi - lo + 1) with (hi + 1 - lo) by lia. exact A. }
  destruct Fun as (l' & EFun & FFun).
  set (x := mk_info (xi_chars info) (xi_time info) (xi_major info) (xi_minor info) (xi_name info) lo (hi - lo + 1) nn (s_va s + apos) (s_va s + rpos) (s_va s + opos)).
  exists x, l', (map fst mp).
  assert (Get : forall want, get_exports p' want = Ok (if want then Some x else None, l')).
  { intros want. unfold get_exports. change dir_export with 0. rewrite X1. cbn [bind]. rewrite X2. cbn [bind].
    rewrite (block_length _ _ _ _ _ Bk) by lia. cbn [bind]. replace (zlen v - pos <? 40) with false by lia. cbn [throw_if bind].
    rewrite (block_holds _ _ _ _ _ 40 Bk G1) by lia. cbn [bind]. rewrite X3. cbn [bind]. rewrite Dt.
    assert (Ei : (if want then n <- export_string p' (s_va s + (pos + 40)) ;; Ok (Some (mk_info (xi_chars info) (xi_time info) (xi_major info) (xi_minor info) n lo (hi - lo + 1) nn (s_va s + apos) (s_va s + rpos) (s_va s + opos))) else Ok None)
      = Ok (if want then Some x else None)).
    { destruct want; [|reflexivity]. rewrite (export_string_ok _ _ _ _ _ Bk G2 Nd) by lia. reflexivity. }
    rewrite Ei. cbn [bind]. replace (hi - lo + 1 =? 0) with false by lia.
    replace (hi - lo + 1 <? nn) with false.
    2:{ symmetry. apply Z.ltb_ge. rewrite <- Lmp. assert (Hincl : incl (map (fun y : named => lo + snd y) mp) (map Z.of_nat (seq (Z.to_nat lo) (Z.to_nat (hi - lo + 1))))).
        { intros y Hy. apply in_map_iff in Hy as (z & <- & Hz). destruct (Pin z Hz) as (f & Hfl & _ & -> & Hu). cbn [snd]. unfold is_u16 in Hu. replace (lo + (e_ordinal f - lo)) with (e_ordinal f) by lia.
          assert (e_ordinal f <= hi) by (apply highest_in, Hfl).
          apply in_map_iff. exists (Z.to_nat (e_ordinal f)). split; [lia|]. apply in_seq. lia. }
        apply NoDup_incl_length in Hincl; [rewrite !map_length, seq_length in Hincl; unfold zlen; lia|].
        assert (NoDup (map (fun y : named => lo + snd y) (name_pairs lo m))).
        { unfold name_pairs. rewrite map_map. cbn [snd]. replace (map (fun f => lo + u16 (e_ordinal f - lo)) (filter has_name m)) with (map e_ordinal (filter has_name m)).
          - apply NoDup_filter_map. rewrite Pm. apply Di.
          - apply map_ext_in. intros f Hfm. apply filter_In in Hfm as [Hfm Hn]. assert (In (e_name f, u16 (e_ordinal f - lo)) mp) as K.
            { rewrite Pp. unfold name_pairs. apply in_map_iff. exists f. split; [reflexivity|]. apply filter_In. split; assumption. }
            destruct (Pin _ K) as (g & _ & _ & Eg & Hu). injection Eg as _ Eg. rewrite Forall_forall in Vm. destruct (Vm f Hfm) as (_ & _ & Vf & _).
            pose proof (ascending_in _ _ _ Am Hfm).
            unfold is_u16 in *. rewrite u16_small by lia. lia. }
        rewrite Pp. assumption. }
    cbn [throw_if bind].
    replace (s_va s + opos =? 0) with false by lia. replace (s_va s + rpos =? 0) with false by lia. replace (s_va s + apos =? 0) with false by lia.
    change (0xFFFFFFFF / 4) with 0x3FFFFFFF. replace (0x3FFFFFFF <=? hi - lo + 1) with false by lia. replace (0x3FFFFFFF <? nn) with false by lia.
    rewrite (u32_small ((hi - lo + 1) * 4)), (u32_small (nn * 4)) by lia.
    assert (S1 : is_sum_safe (s_va s + apos) ((hi - lo + 1) * 4) = true) by (apply is_sum_safe_spec; lia).
    assert (S2 : is_sum_safe (s_va s + rpos) (nn * 4) = true) by (apply is_sum_safe_spec; lia).
    assert (S3 : is_sum_safe (s_va s + opos) ((hi - lo + 1) * 4) = true) by (apply is_sum_safe_spec; lia).
    assert (S4 : is_sum_safe (s_va s + pos) size = true) by (apply is_sum_safe_spec; lia).
    rewrite S1, S2, S3, S4. cbn [andb negb orb throw_if bind].
    rewrite (block_length _ _ _ _ _ Bk) by lia. cbn [bind]. replace (zlen v - apos <? (hi - lo + 1) * 4) with false by lia. cbn [throw_if bind].
    rewrite (block_length _ _ _ opos _ Bk) by lia. cbn [bind]. replace (zlen v - opos <? nn * 2) with false by lia. cbn [throw_if bind].
    rewrite (block_length _ _ _ rpos _ Bk) by lia. cbn [bind]. replace (zlen v - rpos <? nn * 4) with false by lia. cbn [throw_if bind].
    rewrite EFun. reflexivity. }
  split; [exact (Get true)|]. split; [exact (Get false)|].
  split; [unfold same_info; cbn [x xi_chars xi_time xi_major xi_minor xi_name xi_base xi_nfunctions xi_nnames]; repeat split|].
  split; [exists m; split; [symmetry; exact Pm|split; [exact Sm|exact FFun]]|]. split; [symmetry; exact Pn|]. split; [apply sorted_names, Sp|].
  split; [cbn [x xi_nnames]; rewrite zlen_map; exact Lmp|]. intros k name Hk. cbn [x xi_names xi_ordinals xi_base].
  rewrite nth_error_map in Hk. destruct (nth_error mp k) as [y|] eqn:Ek; [|discriminate]. cbn [option_map] in Hk. injection Hk as <-.
  destruct (Pin y (nth_error_In _ _ Ek)) as (f & Hfl & Hne & Ey & Hu).
  assert (Hkn : Z.of_nat k < nn) by (rewrite <- Lmp; unfold zlen; apply inj_lt, nth_error_Some; congruence).
  destruct (nrvas_nth (s_va s) mp npos v k y G5 Ek) as (o & O1 & O2 & O3 & O4).
  rewrite Forall_forall in Pl. destruct (Pl f Hfl) as (P1 & _).
  pose proof (holds_words _ _ _ _ _ G7 O1) as Hw. pose proof (holds_nords _ _ _ _ _ G6 Ek) as Hnk.
  destruct (read_word _ _ _ _ _ 4 Bk Hw ltac:(lia) ltac:(change (256 ^ Z.of_nat 4) with (2^32); pose proof (zlen_nonneg (fst y)); lia)) as (a & Ea & Ua).
  destruct (read_word _ _ _ _ _ 2 Bk Hnk ltac:(lia) ltac:(rewrite Ey; cbn [snd]; change (256 ^ Z.of_nat 2) with (2^16); exact Hu)) as (b & Eb & Ub).
  exists a, b, f. replace (s_va s + rpos + 4 * Z.of_nat k) with (s_va s + (rpos + 4 * Z.of_nat k)) by lia. replace (s_va s + opos + 2 * Z.of_nat k) with (s_va s + (opos + 2 * Z.of_nat k)) by lia.
  split; [exact Ea|]. split; [rewrite Ua; apply (export_string_ok _ _ _ _ _ Bk O4)|].
  { rewrite Ey. exact P1. }
  { pose proof (zlen_nonneg (fst y)). lia. }
  split; [exact Eb|]. split; [exact Hfl|]. rewrite Ub, Ey. cbn [fst snd]. split; [reflexivity|]. lia.
Qed.
Lemma rebuild_exports_ok p start i info l off save strip :
  let pos := ceil_mult off 4 in let size := export_size (xi_name info) l in
  0 <= off -> l <> [] -> Forall valid_export l -> valid_info info -> distinct_exports l -> room p start i (pos + size) ->
  dirs_ok p -> dir_export < nrva p <= 16 ->
  exists p' s out, nth_error (p_sections p) i = Some s /\
    rebuild_exports p info l i off save strip = Ok (p', (s_va s + pos, size)) /\
    zlen out = size /\ only_section p p' i pos out /\ same_headers p p' /\ image_ok p' start /\
    (if save then only_directory p p' dir_export (s_va s + pos, size) else h_dirs (p_nt p') = h_dirs (p_nt p)) /\
    (save = true -> Forall (plain_export (s_va s + pos) size) l -> ~ In 0 (xi_name info) -> (export_names l <> [] \/ ~ (salign p | pos + size)) ->
     exists x l' names, get_exports p' true = Ok (Some x, l') /\ get_exports p' false = Ok (None, l') /\ same_info l info x /\
       (exists m, Permutation l m /\ StronglySorted by_ordinal m /\ Forall2 (same_export (lowest l)) m l') /\
       Permutation (export_names l) names /\ StronglySorted str_before names /\ name_table p' x l names).
Proof.
  intros pos size Ho Nl V Vi Di R D N. destruct (rebuild_exports_strong p start i info l off save strip Ho Nl V Vi Di R D N) as (p' & s & out & Hs & E & Lo & Os & Sh & IO & Sd & (v & Bk & Hv & Hl) & Da & Rd).
  fold pos size in E, Lo, Os, Sd, Hv, Hl, Da, Rd. exists p', s, out. split; [exact Hs|]. split; [exact E|]. split; [exact Lo|]. split; [exact Os|]. split; [exact Sh|]. split; [exact IO|]. split; [exact Sd|].
  intros Sv Pl Nd Hn. apply (Rd Pl Nd p' v Bk Hv (Da Sv)). destruct Hn as [Hn|Hn]; [left; exact Hn|right; apply Hl, Hn].
Qed.

(** ** Refusals *)
Lemma exports_detached p info l i off save strip : nth_error (p_sections p) i = None -> rebuild_exports p info l i off save strip = Throw section_is_not_attached.
Proof.
  intros H. unfold rebuild_exports, section_attached. apply nth_error_None in H.
  replace (Nat.ltb i (length (p_sections p))) with false by (symmetry; apply Nat.ltb_ge; exact H). reflexivity.
Qed.
Lemma exports_duplicates p info l i off save strip s : nth_error (p_sections p) i = Some s -> ~ distinct_exports l ->
  (rebuild_exports p info l i off save strip = Throw duplicate_exported_function_ordinal /\ ~ NoDup (export_ordinals l)) \/
  (rebuild_exports p info l i off save strip = Throw duplicate_exported_function_name /\ ~ NoDup (export_names l)).
Proof.
  intros Hs Nd. unfold rebuild_exports. assert (Sa : section_attached p i = true) by (unfold section_attached; apply Nat.ltb_lt; apply (nth_lt _ _ _ Hs)). rewrite Sa. cbn [negb throw_if bind].
  unfold export_scan. fold scan_step. set (st := (0, _, 0, 0, 0)). clearbody st. destruct (scan_dup l [] [] st) as [(o & n & st' & E & A1 & A2 & _)|[[E K]|[E K]]].
  - exfalso. apply Nd. split; assumption.
  - left. rewrite E. split; [reflexivity|]. intros Q. apply K. split; [exact Q|intros ? []].
  - right. rewrite E. split; [reflexivity|]. intros Q. apply K. split; [exact Q|intros ? []].
Qed.
Lemma stored_nonneg l : 0 <= stored_strings l.
Proof. induction l as [|y x IH]; cbn [stored_strings fold_right]; [lia|]. pose proof (zlen_nonneg y). unfold stored_strings in *. lia. Qed.
Lemma export_size_pos dll l : l <> [] -> 0 <= export_size dll l.
Proof.
  intros Nl. unfold export_size. pose proof (zlen_nonneg dll). pose proof (zlen_nonneg (export_names l)). pose proof (stored_nonneg (export_names l)). pose proof (stored_nonneg (export_forwards l)).
  assert (lowest l <= highest l); [|lia]. destruct l as [|f l]; [congruence|]. unfold lowest, highest, export_ordinals. cbn [map fold_right]. lia.
Qed.
Lemma exports_full p info l i off save strip : 
  0 <= off -> l <> [] -> Forall valid_export l -> distinct_exports l -> ceil_mult off 4 + export_size (xi_name info) l < 2^32 ->
  no_room p i (ceil_mult off 4 + export_size (xi_name info) l) -> rebuild_exports p info l i off save strip = Throw insufficient_space.
Proof.
  intros Ho Nl V Di He R. set (pos := ceil_mult off 4) in *. pose proof (ceil_mult_least off 4 ltac:(lia)) as (Q1 & Q2 & Q3 & _). fold pos in Q1, Q2, Q3.
  pose proof R as (_ & Ri & s & Hs & _). unfold rebuild_exports. assert (Sa : section_attached p i = true) by (unfold section_attached; apply Nat.ltb_lt; apply (nth_lt _ _ _ Hs)). rewrite Sa. cbn [negb throw_if bind].
  replace (is_empty l) with false by (symmetry; apply is_empty_not; exact Nl). rewrite (export_scan_ok l Nl V Di). cbn [bind].
  assert (Al : align_up off 4 = pos).
  { apply align_up_small; [exact four_power|lia|unfold is_u32; lia|fold pos].
    pose proof (export_size_pos (xi_name info) l Nl). lia. }
  rewrite Al. set (hi := highest l). set (lo := lowest l). set (nn := zlen (export_names l)). set (NS := stored_strings (export_names l)). set (FS := stored_strings (export_forwards l)).
  assert (Sz : u32 (u32 (40 + u32 (u32 nn * 2) + u32 (u32 (hi - lo + 1) * 4) + u32 (u32 (zlen (xi_name info) + 1) + u32 NS + u32 FS) + u32 (u32 nn * 4)) + pos) = pos + export_size (xi_name info) l).
  { pose proof (export_size_pos (xi_name info) l Nl). rewrite <- (u32_small (pos + export_size (xi_name info) l)) by lia.
    rewrite !u32_add, !u32_add_l.
    unfold export_size. fold hi lo nn NS FS. unfold u32. lia. }
  rewrite Sz. rewrite open_room_full by exact R. reflexivity.
Qed.

(** ** Safety of the reader *)
Lemma export_string_safe p rva : readable p -> viewable p -> is_u32 rva -> safe (export_string p rva).
Proof.
  intros R V Hr. unfold export_string. pose proof (length_rva_safe p rva rva VirtData true ltac:(apply R)) as S.
  destruct (length_rva p rva rva VirtData true) as [len| | |] eqn:E; cbn [bind]; try exact S. case_throw T; [exact I|].
  destruct (ptr_room p rva VirtData len R (or_intror V) Hr E) as (d & off & -> & Ho & Bd & L1 & L2). cbn [bind].
  destruct (c_string_safe d off len Ho L2) as (r & -> & _). cbn [bind]. destruct r; exact I.
Qed.
Lemma read_word_safe p rva n : readable p -> is_u32 rva -> 0 < n <= 4 ->
  match read_rva p rva n VirtData true with Ok b => is_u32 (unle b) | Throw _ => True | _ => False end.
Proof.
  intros R Hr Hn. pose proof (read_rva_safe p rva n VirtData true ltac:(apply R) Hr ltac:(lia)) as S.
  destruct (read_rva p rva n VirtData true) as [b| | |] eqn:E; try exact S. pose proof (read_rva_bytes _ _ _ _ _ _ R E) as B. pose proof (read_rva_len _ _ _ _ _ _ E) as L.
  pose proof (unle_bound b B) as U. unfold is_u32. rewrite L in U. assert (256 ^ n <= 256 ^ 4) by (apply Z.pow_le_mono_r; lia). change (256 ^ 4) with (2^32) in *. lia.
Qed.
Lemma export_scan_safe p dir size nn names ords k f : readable p -> viewable p -> is_u32 nn -> is_u32 (e_rva f) ->
  match export_name_scan p dir size nn names ords k f with Ok g => e_ordinal g = e_ordinal f /\ e_rva g = e_rva f | Throw _ => True | _ => False end.
Proof.
  intros R V Hn Hf. unfold export_name_scan. unfold is_u32 in Hn.
  apply (mloop_safe_post _ big_fuel (fun i => 0 <= i <= nn) (fun i => nn - i) (fun g => e_ordinal g = e_ordinal f /\ e_rva g = e_rva f)); [|lia|unfold big_fuel; lia].
  intros i Hi. split; [lia|]. destruct (Z.ltb_spec i nn); [|tauto].
  pose proof (read_word_safe p (u32 (ords + i * 2)) 2 R ltac:(apply u32_range) ltac:(lia)) as S1. destruct (read_rva p (u32 (ords + i * 2)) 2 VirtData true) as [o2| | |]; cbn [bind]; try exact S1.
  destruct (k =? unle o2); [|lia].
  pose proof (read_word_safe p (u32 (names + i * 4)) 4 R ltac:(apply u32_range) ltac:(lia)) as S2. destruct (read_rva p (u32 (names + i * 4)) 4 VirtData true) as [nr| | |]; cbn [bind]; try exact S2.
  pose proof (export_string_safe p (unle nr) R V S2) as S3. destruct (export_string p (unle nr)) as [name| | |]; cbn [bind]; try exact S3.
  destruct ((dir + 4 <=? e_rva f) && (e_rva f <? u32 (dir + size))); [|split; reflexivity].
  pose proof (export_string_safe p (e_rva f) R V Hf) as S4. destruct (export_string p (e_rva f)) as [w| | |]; cbn [bind]; try exact S4. split; reflexivity.
Qed.
Lemma sorted_snoc l f : StronglySorted by_ordinal l -> Forall (fun g => e_ordinal g < e_ordinal f) l -> StronglySorted by_ordinal (l ++ [f]).
Proof.
  induction 1 as [|g l S IH F]; intros H; cbn [app]; [repeat constructor|]. inversion H; subst. constructor; [apply IH; assumption|]. apply Forall_app. split; [exact F|]. repeat constructor. assumption.
Qed.
Definition good_list (l : list exported) : Prop := StronglySorted by_ordinal l /\ Forall (fun f => is_u16 (e_ordinal f) /\ is_u32 (e_rva f) /\ e_rva f <> 0) l.
Lemma export_functions_safe p dir size base nfuncs nn funcs names ords : readable p -> viewable p -> is_u32 nn -> is_u32 nfuncs -> is_u32 base ->
  match export_functions p dir size base nfuncs nn funcs names ords with Ok l => good_list l | Throw _ => True | _ => False end.
Proof.
  intros R V Hn Hf Hb. unfold export_functions. unfold is_u32 in Hf, Hb.
  apply (mloop_safe_post _ big_fuel (fun st => 0 <= fst st <= nfuncs /\ good_list (snd st) /\ Forall (fun f => e_ordinal f < base + fst st) (snd st)) (fun st => nfuncs - fst st) good_list);
    [|cbn [fst snd]; split; [lia|]; repeat constructor|cbn [fst]; unfold big_fuel; lia].
  intros [k acc]. cbn [fst snd]. intros (Hk & [G1 G2] & G3). split; [lia|]. destruct (Z.ltb_spec k nfuncs); [|split; assumption].
  pose proof (read_word_safe p (u32 (funcs + k * 4)) 4 R ltac:(apply u32_range) ltac:(lia)) as S1. destruct (read_rva p (u32 (funcs + k * 4)) 4 VirtData true) as [b| | |]; cbn [bind]; try exact S1. cbv zeta.
  assert (G3' : Forall (fun f => e_ordinal f < base + (k + 1)) acc) by (apply (Forall_impl _ (P := fun f => e_ordinal f < base + k)); [intros; lia|exact G3]).
  destruct (Z.eqb_spec (unle b) 0) as [C|C]; [cbn [fst snd]; split; [split; [lia|split; [split; assumption|exact G3']]|lia]|].
  case_throw T; [exact I|]. assert (base + k <= 0xFFFF) by lia.
  pose proof (export_scan_safe p dir size nn names ords k (mk_exported (u16 (k + base)) (unle b) [] 0 []) R V Hn S1) as S2.
  destruct (export_name_scan _ _ _ _ _ _ _ _) as [g| | |]; cbn [bind fst snd]; try exact S2. cbn [e_ordinal e_rva] in S2. destruct S2 as [S2 S3]. rewrite u16_small in S2 by lia.
  split; [|lia]. split; [lia|]. split; [split|].
  - apply sorted_snoc; [exact G1|]. apply (Forall_impl _ (P := fun f => e_ordinal f < base + k)); [intros; lia|exact G3].
  - apply Forall_app. split; [exact G2|]. repeat constructor; unfold is_u16, is_u32 in *; lia.
  - apply Forall_app. split; [exact G3'|]. repeat constructor. lia.
Qed.
Lemma exports_safe p want : readable p -> viewable p ->
  match get_exports p want with Ok (x, l) => good_list l | Throw _ => True | _ => False end.
Proof.
  intros R V. unfold get_exports. destruct (directory_exists_safe p dir_export R ltac:(unfold dir_export; lia)) as [b ->]. cbn [bind].
  destruct b; [|repeat constructor]. destruct (dir_get p dir_export R ltac:(unfold dir_export; lia)) as (rva & size & Hr & Hs & _ & Gr & Gs & _).
  rewrite Gr, Gs. destruct (nrva p <=? dir_export); cbn [bind]; [exact I|].
  pose proof (length_rva_safe p rva rva VirtData true ltac:(apply R)) as S. destruct (length_rva p rva rva VirtData true) as [len| | |]; cbn [bind]; try exact S.
  case_throw T; [exact I|]. pose proof (read_rva_safe p rva 40 VirtData true ltac:(apply R) Hr ltac:(lia)) as S2.
  destruct (read_rva p rva 40 VirtData true) as [h| | |] eqn:Eh; cbn [bind]; try exact S2.
  pose proof (dec_fields_fits export_widths h (read_rva_bytes _ _ _ _ _ _ R Eh)) as Ft. pose proof (dec_fields_length export_widths h) as Lf.
  destruct (dec_fields export_widths h) as [|chars [|time [|major [|minor [|name [|base [|nf [|nn [|fu [|na [|od [|]]]]]]]]]]]]; try exact I.
  cbn [fits export_widths] in Ft. change (256 ^ Z.of_nat 4) with (2^32) in Ft. change (256 ^ Z.of_nat 2) with (2^16) in Ft. destruct Ft as (_ & _ & _ & _ & F5 & F6 & F7 & F8 & F9 & F10 & F11 & _).
  assert (Si : safe (if want then n <- export_string p name ;; Ok (Some (mk_info chars time major minor n base nf nn fu na od)) else Ok None)).
  { destruct want; [|exact I]. apply safe_bind; [apply export_string_safe; [exact R|exact V|exact F5]|]. intros; exact I. }
  destruct (if want then _ else _) as [info| | |]; cbn [bind]; try exact Si.
  destruct (nf =? 0); [repeat constructor|]. case_throw T1; [exact I|]. case_throw T2; [exact I|].
  pose proof (length_rva_safe p fu fu VirtData true ltac:(apply R)) as S3. destruct (length_rva p fu fu VirtData true) as [l1| | |]; cbn [bind]; try exact S3. case_throw T3; [exact I|].
  assert (Sl : safe (if negb (na =? 0) then
             l2 <- length_rva p od od VirtData true ;;
             throw_if (l2 <? nn * 2) incorrect_export_directory ;;;
             l3 <- length_rva p na na VirtData true ;;
             throw_if (l3 <? nn * 4) incorrect_export_directory
           else Ok tt)).
  { destruct (negb (na =? 0)); [|exact I]. apply safe_bind; [apply length_rva_safe, R|]. intros l2 _. apply safe_bind; [apply safe_throw_if|]. intros _ _.
    apply safe_bind; [apply length_rva_safe, R|]. intros l3 _. apply safe_throw_if. }
  destruct (if negb (na =? 0) then _ else _) as [[]| | |]; cbn [bind]; try exact Sl.
  pose proof (export_functions_safe p rva size base nf nn fu na od R V F8 F7 F6) as Sf. destruct (export_functions _ _ _ _ _ _ _ _ _) as [l| | |]; cbn [bind]; exact Sf.
Qed.

(** ** Lookups *)
Lemma name_exists_iff name l : exported_name_exists name l = true <-> In name (export_names l).
Proof.
  unfold exported_name_exists, export_names, given. rewrite existsb_exists, filter_In, in_map_iff. split.
  - intros (f & Hf & H). apply andb_prop in H as [H1 H2]. apply str_eqb_eq in H2. subst name. split; [exists f; tauto|exact H1].
  - intros [(f & <- & Hf) H]. exists f. split; [exact Hf|]. apply andb_true_intro. split; [exact H|apply str_eqb_eq; reflexivity].
Qed.
Lemma ordinal_exists_iff o l : exported_ordinal_exists o l = true <-> In o (export_ordinals l).
Proof.
  unfold exported_ordinal_exists, export_ordinals. rewrite existsb_exists, in_map_iff. split; intros (f & H1 & H2); exists f; split; try tauto; lia.
Qed.
Lemma fold_left_map {A B C} (g : A -> B -> A) (h : C -> B) l : forall a, fold_left (fun a x => g a (h x)) l a = fold_left g (map h l) a.
Proof. induction l as [|x l IH]; intros a; cbn [fold_left map]; [reflexivity|apply IH]. Qed.
Lemma limits_ok l lo hi : l <> [] -> Forall valid_export l -> export_ordinal_limits l = (lo, hi) ->
  In lo (export_ordinals l) /\ In hi (export_ordinals l) /\ Forall (fun o => lo <= o <= hi) (export_ordinals l).
Proof.
  intros Nl V. unfold export_ordinal_limits. replace (is_empty l) with false by (symmetry; apply is_empty_not; exact Nl).
  rewrite (fold_left_map Z.min e_ordinal), (fold_left_map Z.max e_ordinal), fold_min, fold_max. fold (export_ordinals l). intros E. injection E as <- <-.
  assert (Vo : Forall is_u16 (export_ordinals l)) by (unfold export_ordinals; apply Forall_map; apply (Forall_impl _ (P := valid_export)); [|exact V]; intros f H; apply H).
  assert (No : export_ordinals l <> []) by (destruct l; [congruence|discriminate]). clear -Vo No. revert No. induction Vo as [|o r H F IH]; intros N; [congruence|].
  cbn [fold_right]. unfold is_u16 in H. destruct r as [|o2 r].
  - cbn [fold_right]. rewrite Z.min_l, Z.max_l by lia. split; [left; reflexivity|]. split; [left; reflexivity|]. repeat constructor; lia.
  - destruct (IH ltac:(discriminate)) as (A & B & C). set (mn := fold_right Z.min 65535 (o2 :: r)) in *. set (mx := fold_right Z.max 0 (o2 :: r)) in *. clearbody mn mx.
    split; [destruct (Z.min_spec o mn) as [[_ ->]|[_ ->]]; [left; reflexivity|right; exact A]|].
    split; [destruct (Z.max_spec o mx) as [[_ ->]|[_ ->]]; [right; exact B|left; reflexivity]|].
    constructor; [lia|]. apply (Forall_impl _ (P := fun x => mn <= x <= mx)); [|exact C]. intros; lia.
Qed.
