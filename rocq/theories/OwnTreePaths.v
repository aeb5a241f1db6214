(** Finding and replacing an entry inside the trees of a program (C71). *)
From Verif Require Export OwnTreeFacts.
Require Import Permutation.

Section Replace.
Context {A : Type}.
Implicit Types l : list A.
Lemma replace_length l k x : length (replace_nth l k x) = length l.
Proof. revert k. induction l as [|y l IH]; intros [|k]; cbn; try reflexivity. f_equal. apply IH. Qed.
Lemma replace_same l k x y : nth_error l k = Some y -> nth_error (replace_nth l k x) k = Some x.
Proof. revert k. induction l as [|z l IH]; intros [|k]; cbn; try discriminate; [reflexivity|apply IH]. Qed.
Lemma replace_other l k x j : j <> k -> nth_error (replace_nth l k x) j = nth_error l j.
Proof. revert k j. induction l as [|z l IH]; intros [|k] [|j] N; cbn; try reflexivity; try congruence. apply IH. congruence. Qed.
Lemma replace_self l k x : nth_error l k = Some x -> replace_nth l k x = l.
Proof. revert k. induction l as [|z l IH]; intros [|k]; cbn; try discriminate; [congruence|]. intros H. f_equal. apply IH, H. Qed.
Lemma replace_twice l k x y : replace_nth (replace_nth l k x) k y = replace_nth l k y.
Proof. revert k. induction l as [|z l IH]; intros [|k]; cbn; try reflexivity. f_equal. apply IH. Qed.
End Replace.

Lemma ownl_nth h l vs fp : ownl h l vs fp -> forall i,
  match nth_error vs i with
  | None => nth_error l i = None
  | Some v => exists e f r, nth_error l i = Some e /\ owns h e v f /\ Permutation fp (r ++ f) /\
      (forall h1 e1 v1 f1, agree h h1 r -> owns h1 e1 v1 f1 -> exists fp', ownl h1 (replace_nth l i e1) (replace_nth vs i v1) fp' /\ Permutation fp' (r ++ f1)) /\
      (forall j e', j <> i -> nth_error l j = Some e' -> exists v' f', owns h e' v' f' /\ incl f' r)
  end.
Proof.
  induction 1 as [|e v f l vs fp O Ol IH]; intros i; [destruct i; reflexivity|]. destruct i as [|i]; cbn [nth_error].
  - exists e, f, fp. split; [reflexivity|]. split; [exact O|]. split; [apply Permutation_app_comm|]. split.
    + intros h1 e1 v1 f1 K O1. exists (f1 ++ fp). split; [|apply Permutation_app_comm]. cbn [replace_nth]. constructor; [exact O1|]. apply (ownl_agree h); assumption.
    + intros [|j] e' N E; [congruence|]. cbn [nth_error] in E. clear - Ol E. revert j E. induction Ol as [|x w g l vs fp O Ol IH]; intros j E; [destruct j; discriminate|]. destruct j as [|j]; cbn [nth_error] in E.
      * injection E as <-. exists w, g. split; [exact O|]. apply incl_appl, incl_refl.
      * destruct (IH j E) as (v' & f' & O' & I'). exists v', f'. split; [exact O'|]. apply incl_appr, I'.
  - specialize (IH i). destruct (nth_error vs i) as [w|]; [|exact IH]. destruct IH as (e0 & f0 & r & E & O0 & P & Rp & Ot). exists e0, f0, (f ++ r). split; [exact E|]. split; [exact O0|]. split; [rewrite <- app_assoc; apply Permutation_app_head, P|]. split.
    + intros h1 e1 v1 f1 K O1. apply agree_app in K as [K1 K2]. destruct (Rp h1 e1 v1 f1 K2 O1) as (fp' & O' & P'). exists (f ++ fp'). split; [|rewrite <- app_assoc; apply Permutation_app_head, P']. cbn [replace_nth]. constructor; [apply (owns_agree h); assumption|exact O'].
    + intros [|j] e' N E'; cbn [nth_error] in E'.
      * injection E' as <-. exists v, f. split; [exact O|]. apply incl_appl, incl_refl.
      * destruct (Ot j e' ltac:(congruence) E') as (v' & f' & O' & I'). exists v', f'. split; [exact O'|]. apply incl_appr, I'.
Qed.
Lemma ownl_each h l vs fp j e : ownl h l vs fp -> nth_error l j = Some e -> exists v f, nth_error vs j = Some v /\ owns h e v f /\ incl f fp.
Proof.
  intros O E. pose proof (ownl_nth _ _ _ _ O j) as K. destruct (nth_error vs j) as [v|]; [|congruence]. destruct K as (e0 & f & r & E0 & O0 & P & _). assert (e0 = e) by congruence. subst e0. exists v, f. split; [reflexivity|]. split; [exact O0|].
  intros x Ix. apply (Permutation_in _ (Permutation_sym P)), in_or_app. right. exact Ix.
Qed.
(** What is found depends on the memory that is owned only, and is found there. *)
Lemma lookup_local h q : forall h1 b j l vs fp, block h b = Some (CBuf l) -> block h1 b = block h b -> ownl h l vs fp -> agree h h1 fp -> lookup h1 b j q = lookup h b j q.
Proof.
  induction q as [|k q IH]; intros h1 b j l vs fp E E1 O K; cbn [lookup]; rewrite E1, E; destruct (nth_error l j) as [e|] eqn:Ej; try reflexivity.
  destruct (ownl_each _ _ _ _ _ _ O Ej) as (v & f & _ & Oe & If). destruct ((e_ptr e =? 0) || e_incl e) eqn:C; [reflexivity|].
  inversion Oe; subst; cbn [e_ptr e_incl] in *; try (rewrite ?Z.eqb_refl, ?Bool.orb_true_r in C; discriminate).
  - rewrite (K a) by (apply If; left; reflexivity). rewrite H0. reflexivity.
  - rewrite (K a) by (apply If; left; reflexivity). rewrite H1. replace (b0 =? 0) with false by lia. apply (IH h1 b0 k l0 vs0 fp0); try assumption.
    + apply K, If. right. left. reflexivity.
    + intros x Ix. apply K, If. right. right. exact Ix.
Qed.
Lemma lookup_inside h q : forall b j l vs fp c k e, block h b = Some (CBuf l) -> ownl h l vs fp -> lookup h b j q = Found (c, k) e -> In c (b :: fp).
Proof.
  induction q as [|k' q IH]; intros b j l vs fp c k e E O F; cbn [lookup] in F; rewrite E in F; destruct (nth_error l j) as [e0|] eqn:Ej; try discriminate.
  - injection F as <- _ _. left. reflexivity.
  - destruct (ownl_each _ _ _ _ _ _ O Ej) as (v & f & _ & Oe & If). destruct ((e_ptr e0 =? 0) || e_incl e0) eqn:C; [discriminate|].
    inversion Oe; subst; cbn [e_ptr e_incl] in *; try (rewrite ?Z.eqb_refl, ?Bool.orb_true_r in C; discriminate).
    + rewrite H0 in F. discriminate.
    + rewrite H1 in F. replace (b0 =? 0) with false in F by lia. right. apply If. right. apply (IH b0 k' l0 vs0 fp0 c k e); assumption.
Qed.
Lemma apart_tail i q p : apart (i, q) (i, p) -> forall j q' k p', q = j :: q' -> p = k :: p' -> apart (j, q') (k, p').
Proof.
  intros (N & B1 & B2) j q' k p' -> ->. split; [|split].
  - intros E. injection E as -> ->. apply N. reflexivity.
  - intros (x & y & E1 & E2). cbn in E1, E2. subst. apply B1. exists x, y. split; reflexivity.
  - intros (x & y & E1 & E2). cbn in E1, E2. subst. apply B2. exists x, y. split; reflexivity.
Qed.
Lemma below_tail i j q k p : below (j, q) (k, p) -> below (i, j :: q) (i, k :: p).
Proof. intros (x & y & E1 & E2). cbn in E1, E2. subst. exists x, y. split; reflexivity. Qed.

Lemma perm_pull {A} (b : A) r a c s : Permutation (b :: r ++ a :: c :: s) (c :: b :: r ++ a :: s).
Proof. change (b :: r ++ a :: c :: s) with ((b :: r) ++ a :: c :: s). etransitivity; [apply Permutation_app_head, perm_swap|]. symmetry. exact (Permutation_middle (b :: r) (a :: s) c). Qed.
Lemma focus h p : forall b i l vs fp, block h b = Some (CBuf l) -> ownl h l vs fp -> NoDup (b :: fp) ->
  match value_at vs i p with
  | VAbsent => lookup h b i p = Absent
  | VNotDir => lookup h b i p = NotDir
  | VFound v0 => exists c k lc e0 fp0 ctx, lookup h b i p = Found (c, k) e0 /\ block h c = Some (CBuf lc) /\ nth_error lc k = Some e0 /\ owns h e0 v0 fp0 /\
      Permutation (b :: fp) (c :: ctx ++ fp0) /\
      (forall h1 e1 v1 fp1, agree h h1 ctx -> block h1 c = Some (CBuf (replace_nth lc k e1)) -> owns h1 e1 v1 fp1 ->
         (exists l1 fp', block h1 b = Some (CBuf l1) /\ ownl h1 l1 (value_put vs i p v1) fp' /\ Permutation (b :: fp') (c :: ctx ++ fp1)) /\
         lookup h1 b i p = Found (c, k) e1 /\
         (forall j q, apart (j, q) (i, p) -> lookup h1 b j q = lookup h b j q)) /\
      (forall j q, ~ below (j, q) (i, p) -> forall cs ks e, lookup h b j q = Found (cs, ks) e -> In cs (c :: ctx))
  end.
Proof.
  induction p as [|j p IH]; intros b i l vs fp E O D.
  - cbn [value_at lookup]. rewrite E. pose proof (ownl_nth _ _ _ _ O i) as K. destruct (nth_error vs i) as [v|] eqn:Ev; [|rewrite K; reflexivity]. destruct K as (e & f & r & Ee & Oe & P & Rp & Ot).
    rewrite Ee. exists b, i, l, e, f, r. split; [reflexivity|]. split; [exact E|]. split; [exact Ee|]. split; [exact Oe|]. split; [constructor; exact P|]. split.
    + intros h1 e1 v1 fp1 K Eb O1. destruct (Rp h1 e1 v1 fp1 K O1) as (fp' & O' & P'). split; [|split].
      * exists (replace_nth l i e1), fp'. split; [exact Eb|]. split; [|constructor; exact P']. cbn [value_put]. rewrite Ev. destruct v. exact O'.
      * rewrite Eb. rewrite (replace_same _ _ _ _ Ee). reflexivity.
      * intros j q Ap. assert (N : j <> i). { intros ->. destruct Ap as (N & B & _). destruct q as [|k q]; [apply N; reflexivity|]. apply B. exists k, q. split; reflexivity. }
        destruct q as [|k q]; cbn [lookup]; rewrite Eb, E, (replace_other _ _ _ _ N); destruct (nth_error l j) as [e'|] eqn:Ej; try reflexivity. destruct (Ot j e' N Ej) as (v' & f' & Oe' & If).
        destruct ((e_ptr e' =? 0) || e_incl e') eqn:C; [reflexivity|]. inversion Oe'; subst; cbn [e_ptr e_incl] in *; try (rewrite ?Z.eqb_refl, ?Bool.orb_true_r in C; discriminate).
        -- rewrite (K a) by (apply If; left; reflexivity). rewrite H0. reflexivity.
        -- rewrite (K a) by (apply If; left; reflexivity). rewrite H1. replace (b0 =? 0) with false by lia. apply (lookup_local h q h1 b0 k l0 vs0 fp0); try assumption.
           ++ apply K, If. right. left. reflexivity.
           ++ intros x Ix. apply K, If. right. right. exact Ix.
    + intros j q Nb cs ks e' F. destruct q as [|k q]; cbn [lookup] in F; rewrite E in F; destruct (nth_error l j) as [e''|] eqn:Ej; try discriminate; [injection F as <- _ _; left; reflexivity|].
      assert (N : j <> i) by (intros ->; apply Nb; exists k, q; split; reflexivity). destruct (Ot j e'' N Ej) as (v' & f' & Oe' & If).
      destruct ((e_ptr e'' =? 0) || e_incl e'') eqn:C; [discriminate|]. inversion Oe'; subst; cbn [e_ptr e_incl] in *; try (rewrite ?Z.eqb_refl, ?Bool.orb_true_r in C; discriminate).
      * rewrite H0 in F. discriminate.
      * rewrite H1 in F. replace (b0 =? 0) with false in F by lia. right. apply If. right. apply (lookup_inside h q b0 k l0 vs0 fp0 cs ks e'); assumption.
  - cbn [value_at lookup]. rewrite E. pose proof (ownl_nth _ _ _ _ O i) as K. destruct (nth_error vs i) as [v|] eqn:Ev; [|rewrite K; reflexivity]. destruct K as (e & f & r & Ee & Oe & P & Rp & Ot). rewrite Ee.
    inversion Oe; subst; cbn [content_of e_ptr e_incl].
    + rewrite Z.eqb_refl. reflexivity.
    + rewrite Bool.orb_true_r. reflexivity.
    + replace (a =? 0) with false by lia. cbn [orb]. rewrite H0. destruct p; destruct j; reflexivity.
    + rename H into Na, H0 into Nb, H1 into Ea, H2 into Eb, H3 into Ol, l0 into l', vs0 into vs', fp0 into f', b0 into b'. replace (a =? 0) with false by lia. cbn [orb]. rewrite Ea. replace (b' =? 0) with false by lia.
      assert (D' : NoDup (b' :: f')). { apply NoDup_cons_iff in D as [_ D]. apply (Permutation_NoDup P) in D. apply nodup_app in D as (_ & D & _). apply NoDup_cons_iff in D as [_ D]. exact D. }
      pose proof (IH b' j l' vs' f' Eb Ol D') as Q. destruct (value_at vs' j p) as [v0| |]; try exact Q. destruct Q as (c & k & lc & e0 & fp0 & ctx & L & Ec & Ek & O0 & P0 & R0 & I0).
      assert (PP : Permutation (b :: fp) (c :: (b :: r ++ a :: ctx) ++ fp0)).
      { etransitivity; [apply perm_skip, P|]. cbn [app]. rewrite <- app_assoc. cbn [app]. etransitivity; [apply perm_skip, Permutation_app_head, perm_skip, P0|].
        apply perm_pull. }
      exists c, k, lc, e0, fp0, (b :: r ++ a :: ctx). split; [exact L|]. split; [exact Ec|]. split; [exact Ek|]. split; [exact O0|]. split; [exact PP|].
      assert (Bc : b <> c). { intros ->. pose proof (Permutation_NoDup PP D) as X. apply NoDup_cons_iff in X as [X _]. apply X. left. reflexivity. } split.
      * intros h1 e1 v1 fp1 K Ec1 O1. assert (K0 : agree h h1 ctx) by (intros x Ix; apply K; right; apply in_or_app; right; right; exact Ix).
        destruct (R0 h1 e1 v1 fp1 K0 Ec1 O1) as ((l1 & fp' & Eb1 & Ol1 & P1) & L1 & A1).
        assert (Eb0 : block h1 b = Some (CBuf l)) by (rewrite (K b) by (left; reflexivity); exact E). assert (Ea1 : block h1 a = Some (CDir info nn ni b')) by (rewrite (K a) by (right; apply in_or_app; right; left; reflexivity); exact Ea).
        assert (Kr : agree h h1 r) by (intros x Ix; apply K; right; apply in_or_app; left; exact Ix). split; [|split].
        -- destruct (Rp h1 (mk_rent id name false named a) (RV id name false named (DirOf info nn ni (value_put vs' j p v1))) (a :: b' :: fp') Kr) as (fq & Oq & Pq); [apply own_dir with (l := l1); assumption|].
           rewrite (replace_self _ _ _ Ee) in Oq. exists l, fq. split; [exact Eb0|]. split; [cbn [value_put]; rewrite Ev; exact Oq|].
           etransitivity; [apply perm_skip, Pq|]. cbn [app]. rewrite <- app_assoc. cbn [app]. etransitivity; [apply perm_skip, Permutation_app_head, perm_skip, P1|].
           apply perm_pull.
        -- rewrite Eb0, Ee. cbn [e_ptr e_incl]. replace (a =? 0) with false by lia. cbn [orb]. rewrite Ea1. replace (b' =? 0) with false by lia. exact L1.
        -- intros j0 q Ap. destruct (Nat.eq_dec j0 i) as [->|N].
           ++ destruct q as [|k0 q]; [exfalso; destruct Ap as (_ & _ & B2); apply B2; exists j, p; split; reflexivity|]. cbn [lookup]. rewrite Eb0, E, Ee. cbn [e_ptr e_incl]. replace (a =? 0) with false by lia. cbn [orb]. rewrite Ea1, Ea. replace (b' =? 0) with false by lia.
              apply A1. eapply apart_tail; [exact Ap|reflexivity|reflexivity].
           ++ destruct q as [|k0 q]; cbn [lookup]; rewrite Eb0, E; destruct (nth_error l j0) as [e'|] eqn:Ej; try reflexivity. destruct (Ot j0 e' N Ej) as (v' & g' & Oe' & If).
              destruct ((e_ptr e' =? 0) || e_incl e') eqn:C; [reflexivity|]. inversion Oe'; subst; cbn [e_ptr e_incl] in *; try (rewrite ?Z.eqb_refl, ?Bool.orb_true_r in C; discriminate).
              ** rewrite (Kr a0) by (apply If; left; reflexivity). rewrite H0. reflexivity.
              ** rewrite (Kr a0) by (apply If; left; reflexivity). rewrite H1. replace (b0 =? 0) with false by lia. apply (lookup_local h q h1 b0 k0 l0 vs0 fp2); try assumption.
                 --- apply Kr, If. right. left. reflexivity.
                 --- intros x Ix. apply Kr, If. right. right. exact Ix.
      * intros j0 q Nb0 cs ks e' F. destruct (Nat.eq_dec j0 i) as [->|N].
        -- destruct q as [|k0 q]; cbn [lookup] in F; rewrite E, Ee in F; [injection F as <- _ _; right; left; reflexivity|]. cbn [e_ptr e_incl] in F. replace (a =? 0) with false in F by lia. cbn [orb] in F. rewrite Ea in F. replace (b' =? 0) with false in F by lia.
           destruct (I0 k0 q) with (cs := cs) (ks := ks) (e := e') as [X|X]; [intros B; apply Nb0, below_tail, B|exact F|left; exact X|right; right; apply in_or_app; right; right; exact X].
        -- destruct q as [|k0 q]; cbn [lookup] in F; rewrite E in F; destruct (nth_error l j0) as [e''|] eqn:Ej; try discriminate; [injection F as <- _ _; right; left; reflexivity|]. destruct (Ot j0 e'' N Ej) as (v' & g' & Oe' & If).
           destruct ((e_ptr e'' =? 0) || e_incl e'') eqn:C; [discriminate|]. inversion Oe'; subst; cbn [e_ptr e_incl] in *; try (rewrite ?Z.eqb_refl, ?Bool.orb_true_r in C; discriminate).
           ++ rewrite H0 in F. discriminate.
           ++ rewrite H1 in F. replace (b0 =? 0) with false in F by lia. right. right. apply in_or_app. left. apply If. right. apply (lookup_inside h q b0 k0 l0 vs0 fp1 cs ks e'); assumption.
Qed.
