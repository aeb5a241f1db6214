(** Every step of a program with resource directory entries does what it does on values (C71). *)
From Verif Require Export OwnTreePaths.
Require Import Permutation.

(** ** Values *)
Lemma at_put_same p : forall vs i v x, value_at vs i p = VFound v -> value_at (value_put vs i p x) i p = VFound x.
Proof.
  induction p as [|j p IH]; intros vs i v x E; cbn [value_at value_put] in *; destruct (nth_error vs i) as [[id name incl named c]|] eqn:Ei; try discriminate; rewrite (replace_same _ _ _ _ Ei); [reflexivity|].
  cbn [content_of] in *. destruct c as [|cp d|info nn ni l]; try discriminate. cbn [content_of]. apply (IH l j v x E).
Qed.
Lemma at_put_apart p : forall vs i x j q, apart (j, q) (i, p) -> value_at (value_put vs i p x) j q = value_at vs j q.
Proof.
  induction p as [|k p IH]; intros vs i x j q Ap; cbn [value_put]; destruct (nth_error vs i) as [[id name incl named c]|] eqn:Ei; try reflexivity.
  - assert (N : j <> i). { intros ->. destruct Ap as (N & B & _). destruct q as [|k q]; [apply N; reflexivity|]. apply B. exists k, q. split; reflexivity. }
    destruct q; cbn [value_at]; rewrite (replace_other _ _ _ _ N); reflexivity.
  - destruct (Nat.eq_dec j i) as [->|N]; [|destruct q; cbn [value_at]; rewrite (replace_other _ _ _ _ N); reflexivity].
    destruct q as [|k0 q]; [exfalso; destruct Ap as (_ & _ & B2); apply B2; exists k, p; split; reflexivity|]. cbn [value_at]. rewrite (replace_same _ _ _ _ Ei), Ei. destruct c as [|cp d|info nn ni l]; try reflexivity. cbn [content_of].
    apply IH. eapply apart_tail; [exact Ap|reflexivity|reflexivity].
Qed.
Lemma put_twice p : forall vs i x y v, value_at vs i p = VFound v -> value_put (value_put vs i p x) i p y = value_put vs i p y.
Proof.
  induction p as [|k p IH]; intros vs i x y v E; cbn [value_put value_at] in *; destruct (nth_error vs i) as [[id name incl named c]|] eqn:Ei; try discriminate; rewrite (replace_same _ _ _ _ Ei).
  - destruct x. rewrite replace_twice. reflexivity.
  - cbn [content_of] in E. destruct c as [|cp d|info nn ni l]; try discriminate. rewrite (IH _ _ _ _ _ E), replace_twice. reflexivity.
Qed.
Definition emptied (v : rvalue) : rvalue := match v with RV id name incl named _ => RV id name incl named NoContent end.

(** ** The state of a program *)
Definition inv (h : heap cell) (vs : list rvalue) : Prop :=
  exists l fp, block h vars_at = Some (CBuf l) /\ ownl h l vs fp /\ NoDup (keys h) /\ Permutation (keys h) (vars_at :: fp).
Definition focused (h : heap cell) (vs : list rvalue) (t : rpath) (v0 : rvalue) (c : Z) (k : nat) (lc : list rent) (e0 : rent) (fp0 ctx : list Z) : Prop :=
  entry_at h t = Found (c, k) e0 /\ block h c = Some (CBuf lc) /\ nth_error lc k = Some e0 /\ owns h e0 v0 fp0 /\ Permutation (keys h) (c :: ctx ++ fp0) /\
  (forall h1 e1 v1 fp1, agree h h1 ctx -> block h1 c = Some (CBuf (replace_nth lc k e1)) -> owns h1 e1 v1 fp1 -> NoDup (keys h1) -> Permutation (keys h1) (c :: ctx ++ fp1) ->
     inv h1 (put vs t v1) /\ entry_at h1 t = Found (c, k) e1 /\ forall s, apart s t -> entry_at h1 s = entry_at h s) /\
  (forall s, ~ below s t -> forall cs ks e, entry_at h s = Found (cs, ks) e -> In cs (c :: ctx)).
Lemma top h vs t : inv h vs ->
  match value_at vs (fst t) (snd t) with
  | VAbsent => entry_at h t = Absent
  | VNotDir => entry_at h t = NotDir
  | VFound v0 => exists c k lc e0 fp0 ctx, focused h vs t v0 c k lc e0 fp0 ctx
  end.
Proof.
  intros (l & fp & E & O & D & P). assert (D' : NoDup (vars_at :: fp)) by (apply (Permutation_NoDup P), D). pose proof (focus h (snd t) vars_at (fst t) l vs fp E O D') as F.
  destruct (value_at vs (fst t) (snd t)) as [v0| |]; try exact F. destruct F as (c & k & lc & e0 & fp0 & ctx & L & Ec & Ek & O0 & P0 & R0 & I0). exists c, k, lc, e0, fp0, ctx.
  split; [exact L|]. split; [exact Ec|]. split; [exact Ek|]. split; [exact O0|]. split; [etransitivity; eassumption|]. split.
  - intros h1 e1 v1 fp1 K Eb O1 D1 P1. destruct (R0 h1 e1 v1 fp1 K Eb O1) as ((l1 & fp' & E1 & Ol1 & P1') & L1 & A1). split; [|split].
    + exists l1, fp'. split; [exact E1|]. split; [exact Ol1|]. split; [exact D1|]. etransitivity; [exact P1|]. symmetry. exact P1'.
    + exact L1.
    + intros s Ap. unfold entry_at. apply A1. destruct s, t. exact Ap.
  - intros s B cs ks e Fs. apply (I0 (fst s) (snd s)) with (ks := ks) (e := e); [destruct s, t; exact B|exact Fs].
Qed.
Lemma top_get h vs t v0 c k lc e0 fp0 ctx : focused h vs t v0 c k lc e0 fp0 ctx -> get_loc h (c, k) = Some e0.
Proof. intros (_ & E & Ek & _). unfold get_loc. cbn [fst snd]. rewrite E. exact Ek. Qed.
(** The entry itself is the same in every description. *)
Lemma nodup_keys h vs : inv h vs -> NoDup (keys h). Proof. intros (l & fp & _ & _ & D & _). exact D. Qed.
Lemma focused_nodup h vs t v0 c k lc e0 fp0 ctx : inv h vs -> focused h vs t v0 c k lc e0 fp0 ctx -> NoDup fp0 /\ ~ In c fp0 /\ ~ In c ctx /\ (forall x, In x ctx -> ~ In x fp0).
Proof.
  intros I (_ & _ & _ & _ & P & _). pose proof (Permutation_NoDup P (nodup_keys _ _ I)) as D. apply NoDup_cons_iff in D as [N D]. apply nodup_app in D as (D1 & D2 & D3). rewrite in_app_iff in N. tauto.
Qed.
Lemma put_loc_some h c k lc e0 e1 : block h c = Some (CBuf lc) -> nth_error lc k = Some e0 -> put_loc h (c, k) e1 = Some (set_block h c (CBuf (replace_nth lc k e1))).
Proof. intros E Ek. unfold put_loc. cbn [fst snd]. rewrite E, Ek. reflexivity. Qed.
Lemma owns_fields h e v f h' e' f' : owns h e v f -> owns h' e' v f' -> with_ptr e (e_ptr e') = e'.
Proof. intros O O'. inversion O; subst; inversion O'; subst; reflexivity. Qed.
Lemma owns_with0 h e v f h' : owns h e v f -> owns h' (with_ptr e 0) (emptied v) [].
Proof. intros O. inversion O; subst; constructor. Qed.
Lemma owns_refield h e v f id name named : owns h e v f -> match v with RV _ _ incl _ c => owns h (mk_rent id name incl named (e_ptr e)) (RV id name incl named c) f /\ e_incl e = incl end.
Proof.
  intros O. inversion O; subst; cbn [e_ptr e_incl]; (split; [|reflexivity]).
  - constructor.
  - constructor; assumption.
  - apply own_dir0; assumption.
  - eapply own_dir; eassumption.
Qed.
Lemma owns_null h e v f : owns h e v f -> e_ptr e = 0 -> f = [] /\ content_of v = NoContent.
Proof. intros O E. inversion O; subst; cbn [e_ptr] in E; try contradiction. split; reflexivity. Qed.
Lemma owns_value h e v f : owns h e v f -> match v with RV id name incl named _ => e_id e = id /\ e_name e = name /\ e_incl e = incl /\ e_named e = named end.
Proof. intros O. inversion O; subst; repeat split. Qed.

(** Changing the fields of an entry. *)
Lemma fields_step h vs t v0 c k lc e0 fp0 ctx e1 v1 : inv h vs -> focused h vs t v0 c k lc e0 fp0 ctx -> owns h e1 v1 fp0 ->
  exists h1, put_loc h (c, k) e1 = Some h1 /\ inv h1 (put vs t v1) /\ entry_at h1 t = Found (c, k) e1 /\ forall s, apart s t -> entry_at h1 s = entry_at h s.
Proof.
  intros I F O1. destruct (focused_nodup _ _ _ _ _ _ _ _ _ _ I F) as (D0 & N0 & Nc & Nx). destruct F as (L & Ec & Ek & O0 & P & R & _). eexists. split; [apply (put_loc_some _ _ _ _ _ _ Ec Ek)|]. apply R with (fp1 := fp0).
  - intros x Ix. apply block_set_other. intros ->. contradiction.
  - eapply block_set_same. exact Ec.
  - apply (owns_agree h); [exact O1|]. intros x Ix. apply block_set_other. intros ->. contradiction.
  - rewrite keys_set. apply (nodup_keys _ _ I).
  - rewrite keys_set. exact P.
Qed.
(** release() *)
Lemma release_step h vs t v0 c k lc e0 fp0 ctx : inv h vs -> focused h vs t v0 c k lc e0 fp0 ctx ->
  exists h1, release_at h (c, k) = Some h1 /\ inv h1 (put vs t (emptied v0)) /\ entry_at h1 t = Found (c, k) (with_ptr e0 0) /\ forall s, apart s t -> entry_at h1 s = entry_at h s.
Proof.
  intros I F. destruct (focused_nodup _ _ _ _ _ _ _ _ _ _ I F) as (D0 & N0 & Nc & Nx). unfold release_at. rewrite (top_get _ _ _ _ _ _ _ _ _ _ F). destruct F as (L & Ec & Ek & O0 & P & R & _). rewrite (release_owns _ _ _ _ O0 D0).
  assert (Ec' : block (without fp0 h) c = Some (CBuf lc)) by (rewrite block_without by exact N0; exact Ec). rewrite (put_loc_some _ _ _ _ _ (with_ptr e0 0) Ec' Ek). eexists. split; [reflexivity|]. apply R with (fp1 := []).
  - intros x Ix. rewrite block_set_other by (intros ->; contradiction). apply block_without, Nx, Ix.
  - eapply block_set_same. exact Ec'.
  - eapply owns_with0. exact O0.
  - rewrite keys_set. apply nodup_without, (nodup_keys _ _ I).
  - rewrite keys_set, app_nil_r. apply (perm_without fp0 (c :: ctx)); [apply (nodup_keys _ _ I)|exact P].
Qed.
(** A pointer is set in an entry that has none. *)
Lemma fill_step h vs t v0 c k e0 hn fp1 e1 v1 : inv h vs -> value_at vs (fst t) (snd t) = VFound v0 -> entry_at h t = Found (c, k) e0 -> e_ptr e0 = 0 -> added h hn fp1 -> owns hn e1 v1 fp1 ->
  get_loc (hn ++ h) (c, k) = Some e0 /\ exists h1, put_loc (hn ++ h) (c, k) e1 = Some h1 /\ inv h1 (put vs t v1) /\ entry_at h1 t = Found (c, k) e1 /\ forall s, apart s t -> entry_at h1 s = entry_at h s.
Proof.
  intros I Ev Et Ep A O1. pose proof (top h vs t I) as T. rewrite Ev in T. destruct T as (c' & k' & lc & e0' & fp0 & ctx & F). assert (c' = c /\ k' = k /\ e0' = e0) as (-> & -> & ->) by (destruct F as (L & _); rewrite Et in L; injection L as <- <- <-; auto).
  destruct (focused_nodup _ _ _ _ _ _ _ _ _ _ I F) as (D0 & N0 & Nc & Nx). pose proof (top_get _ _ _ _ _ _ _ _ _ _ F) as G. destruct F as (L & Ec & Ek & O0 & P & R & _). destruct (owns_null _ _ _ _ O0 Ep) as [-> _]. rewrite app_nil_r in P.
  assert (Lc : forall x, In x (c :: ctx) -> In x (keys h)) by (intros x Ix; apply (Permutation_in _ (Permutation_sym P)), Ix). pose proof (added_agree _ _ _ (c :: ctx) A Lc) as K.
  assert (Ec' : block (hn ++ h) c = Some (CBuf lc)) by (rewrite (K c) by (left; reflexivity); exact Ec). split; [unfold get_loc; cbn [fst snd]; rewrite Ec'; exact Ek|].
  eexists. split; [apply (put_loc_some _ _ _ _ _ _ Ec' Ek)|]. destruct A as (Pn & Dn & Fn). apply R with (fp1 := fp1).
  - intros x Ix. rewrite block_set_other by (intros ->; contradiction). apply K. right. exact Ix.
  - eapply block_set_same. exact Ec'.
  - apply (owns_agree hn); [exact O1|]. intros x Ix. assert (In x (keys hn)) as Kx by (apply (Permutation_in _ Pn), Ix). rewrite block_set_other by (intros ->; apply (Fn c Kx), Lc; left; reflexivity).
    rewrite block_app. destruct (block hn x) as [y|] eqn:Ey; [reflexivity|]. apply block_none in Ey. contradiction.
  - rewrite keys_set, keys_app. apply nodup_app. split; [exact Dn|]. split; [apply (nodup_keys _ _ I)|]. intros x Kx. apply Fn, Kx.
  - rewrite keys_set, keys_app. etransitivity; [apply Permutation_app; [symmetry; exact Pn|exact P]|]. etransitivity; [apply Permutation_app_comm|]. reflexivity.
Qed.
(** The entry at a path that is apart from the one that was changed. *)
Lemma source h vs s r e : inv h vs -> entry_at h s = Found r e -> exists v f, value_at vs (fst s) (snd s) = VFound v /\ owns h e v f /\ NoDup f /\ get_loc h r = Some e.
Proof.
  intros I E. pose proof (top h vs s I) as T. destruct (value_at vs (fst s) (snd s)) as [v| |]; try congruence. destruct T as (c & k & lc & e0 & fp0 & ctx & F). pose proof (top_get _ _ _ _ _ _ _ _ _ _ F) as G. destruct (focused_nodup _ _ _ _ _ _ _ _ _ _ I F) as (D0 & _).
  destruct F as (L & _ & _ & O & _). rewrite E in L. injection L as -> ->. exists v, fp0. auto.
Qed.
Lemma put_put vs t x y v : value_at vs (fst t) (snd t) = VFound v -> put (put vs t x) t y = put vs t y. Proof. apply put_twice. Qed.
Lemma at_put vs t x v : value_at vs (fst t) (snd t) = VFound v -> value_at (put vs t x) (fst t) (snd t) = VFound x. Proof. apply at_put_same. Qed.
Lemma at_apart vs t x s : apart s t -> value_at (put vs t x) (fst s) (snd s) = value_at vs (fst s) (snd s). Proof. intros A. apply at_put_apart. destruct s, t. exact A. Qed.

(** What a step must be. *)
Definition correct (vs : list rvalue) (op : rop) (r : outcome (heap cell) rseen) : Prop :=
  match r with Done h' o => exists full vs', rvstep vs op full = Some (vs', o) /\ inv h' vs' | Bug => False | Outside => True end.

Lemma assign_correct h vs t s news : inv h vs -> apart s t -> correct vs (OAssign t s news) (with_entry h t (fun rt _ => with_entry h s (fun rs _ => assign h rt rs news))).
Proof.
  intros I Ap. unfold with_entry. pose proof (top h vs t I) as T. unfold correct, rvstep, on_value. destruct (value_at vs (fst t) (snd t)) as [v0| |] eqn:Ev; [|rewrite T; exists false, vs; auto|rewrite T; exact Logic.I].
  destruct T as (c & k & lc & e0 & fp0 & ctx & F). pose proof F as (L & _). rewrite L. pose proof (top h vs s I) as Ts. destruct (value_at vs (fst s) (snd s)) as [w| |] eqn:Ew; [|rewrite Ts; exists false, vs; auto|rewrite Ts; exact Logic.I].
  destruct Ts as (cs & ks & ls & es & fps & ctxs & Fs). pose proof Fs as (Ls & _ & _ & Os & _). rewrite Ls. clear Fs. unfold assign.
  destruct (release_step _ _ _ _ _ _ _ _ _ _ I F) as (h1 & E1 & I1 & T1 & A1). rewrite E1. pose proof (A1 s Ap) as S1. rewrite Ls in S1. destruct (source _ _ _ _ _ I1 S1) as (w1 & f1 & W1 & O1 & D1 & G1). rewrite G1.
  rewrite (at_apart vs t (emptied v0) s Ap), Ew in W1. injection W1 as <-. pose proof (at_put vs t (emptied v0) v0 Ev) as V1.
  destruct (fill_step h1 (put vs t (emptied v0)) t (emptied v0) c k (with_ptr e0 0) [] [] (with_ptr es 0) (emptied w) I1 V1 T1 eq_refl (added_none _) (owns_with0 _ _ _ _ _ O1)) as (_ & h2 & E2 & I2 & T2 & A2). cbn [app] in E2. rewrite E2.
  rewrite (put_put _ _ _ _ _ Ev) in I2. pose proof (A2 s Ap) as S2. rewrite S1 in S2. destruct (source _ _ _ _ _ I2 S2) as (w2 & f2 & W2 & O2 & D2 & G2). rewrite G2. rewrite (at_apart vs t (emptied w) s Ap), Ew in W2. injection W2 as <-.
  pose proof (copy_owns h2 es w f2 news O2 D2) as C. destruct (copy_entry (levels h2) h2 news es) as [h3 news' e'|h3| |]; try exact C.
  - destruct C as (hn & fp & -> & An & On). pose proof (at_put vs t (emptied w) v0 Ev) as V2.
    destruct (fill_step h2 (put vs t (emptied w)) t (emptied w) c k (with_ptr es 0) hn fp e' w I2 V2 T2 eq_refl An On) as (_ & h4 & E4 & I4 & _). rewrite (owns_fields _ _ _ _ _ _ _ O1 On), E4. cbn [finish].
    rewrite (put_put _ _ _ _ _ Ev) in I4. exists false, (put vs t w). split; [destruct w; reflexivity|exact I4].
  - cbn [copied] in C. subst h3. exists true, (put vs t (emptied w)). split; [destruct w; reflexivity|exact I2].
Qed.
Lemma add_object_correct h vs t s v0 w rt et rs es (incl : bool) news : inv h vs -> apart s t -> value_at vs (fst t) (snd t) = VFound v0 -> value_at vs (fst s) (snd s) = VFound w ->
  entry_at h t = Found rt et -> entry_at h s = Found rs es -> e_incl es = incl -> e_ptr es <> 0 ->
  match add_object h rt (e_ptr es) incl news with
  | Done h' o => exists full vs', fill vs t v0 incl (content_of w) full = Some (vs', o) /\ inv h' vs'
  | Bug => False
  | Outside => True
  end.
Proof.
  intros I Ap Ev Ew Et Es Ei Ne. pose proof (top h vs t I) as T. rewrite Ev in T. destruct T as (c & k & lc & e0 & fp0 & ctx & F). assert (rt = (c, k) /\ e0 = et) as (-> & ->) by (destruct F as (L & _); rewrite Et in L; injection L as <- <-; auto).
  unfold add_object. destruct (release_step _ _ _ _ _ _ _ _ _ _ I F) as (h1 & E1 & I1 & T1 & A1). rewrite E1. pose proof (A1 s Ap) as S1. rewrite Es in S1. destruct (source _ _ _ _ _ I1 S1) as (w1 & f1 & W1 & O1 & D1 & G1).
  rewrite (at_apart vs t (emptied v0) s Ap), Ew in W1. injection W1 as <-. pose proof (at_put vs t (emptied v0) v0 Ev) as V1. pose proof (owns_refield _ _ _ _ 0 [] false O1) as O2. destruct w as [wid wname wincl wnamed wc]. destruct O2 as [O2 Ei']. rewrite Ei in Ei'. subst wincl.
  pose proof (copy_owns h1 _ _ f1 news O2 D1) as C. destruct (copy_entry (levels h1) h1 news (mk_rent 0 [] incl false (e_ptr es))) as [h3 news' e'|h3| |]; try exact C.
  - destruct C as (hn & fp & -> & An & On). pose proof (owns_value h et v0 fp0 ltac:(apply F)) as Fv. destruct v0 as [id name inc named c0]. destruct Fv as (F1 & F2 & F3 & F4).
    pose proof (owns_refield _ _ _ _ (e_id (with_ptr et 0)) (e_name (with_ptr et 0)) (e_named (with_ptr et 0)) On) as [O3 _].
    destruct (fill_step h1 (put vs t (emptied (RV id name inc named c0))) t (emptied (RV id name inc named c0)) c k (with_ptr et 0) hn fp _ _ I1 V1 T1 eq_refl An O3) as (G4 & h4 & E4 & I4 & _). rewrite G4, E4. cbn [finish].
    rewrite (put_put _ _ _ _ _ Ev) in I4. cbn [with_ptr e_id e_name e_named] in I4. rewrite F1, F2, F4 in I4. exists false. eexists. split; [reflexivity|exact I4].
  - cbn [copied] in C. subst h3. exists true, (put vs t (emptied v0)). split; [destruct v0; reflexivity|exact I1].
Qed.
Lemma add_new_correct h vs t v0 rt et cl c0 (incl : bool) news : inv h vs -> value_at vs (fst t) (snd t) = VFound v0 -> entry_at h t = Found rt et ->
  (forall a id name named, a <> 0 -> owns [(a, cl)] (mk_rent id name incl named a) (RV id name incl named c0) [a]) ->
  match add_new h rt cl incl news with
  | Done h' o => exists full vs', fill vs t v0 incl c0 full = Some (vs', o) /\ inv h' vs'
  | Bug => False
  | Outside => True
  end.
Proof.
  intros I Ev Et Oc. pose proof (top h vs t I) as T. rewrite Ev in T. destruct T as (c & k & lc & e0 & fp0 & ctx & F). assert (rt = (c, k) /\ e0 = et) as (-> & ->) by (destruct F as (L & _); rewrite Et in L; injection L as <- <-; auto).
  unfold add_new. destruct (release_step _ _ _ _ _ _ _ _ _ _ I F) as (h1 & E1 & I1 & T1 & A1). rewrite E1. pose proof (at_put vs t (emptied v0) v0 Ev) as V1.
  pose proof (new_spec h1 news cl) as C. destruct (new_cell h1 news cl) as [h3 news' a|h3| |]; try exact C.
  - destruct C as (-> & Na & Nf). pose proof (owns_value h et v0 fp0 ltac:(apply F)) as Fv. destruct v0 as [id name inc named cc]. destruct Fv as (F1 & F2 & F3 & F4).
    assert (An : added h1 [(a, cl)] [a]). { split; [constructor; constructor|]. split; [constructor; [intros []|constructor]|]. intros x [<-|[]]. split; assumption. }
    destruct (fill_step h1 (put vs t (emptied (RV id name inc named cc))) t (emptied (RV id name inc named cc)) c k (with_ptr et 0) [(a, cl)] [a] _ _ I1 V1 T1 eq_refl An (Oc a (e_id (with_ptr et 0)) (e_name (with_ptr et 0)) (e_named (with_ptr et 0)) Na)) as (G4 & h4 & E4 & I4 & _).
    cbn [app] in G4, E4. rewrite G4, E4. cbn [finish]. rewrite (put_put _ _ _ _ _ Ev) in I4. cbn [with_ptr e_id e_name e_named] in I4. rewrite F1, F2, F4 in I4. exists false. eexists. split; [reflexivity|exact I4].
  - subst h3. exists true, (put vs t (emptied v0)). split; [destruct v0; reflexivity|exact I1].
Qed.
