(** Programs with images refine programs over values (C72). *)
From Verif Require Export OwnDebug.
Require Import Permutation.
Section Images.
Context {V P : Type}.
Notation istate := (list (Z * iobj V) * heap P)%type.
Notation itriple := (Z * (iobj V * (V * P)))%type.
Definition iown (t : itriple) : Z * P := (i_props (fst (snd t)), snd (snd (snd t))).
Definition igood (t : itriple) : Prop := i_value (fst (snd t)) = fst (snd (snd t)).
(** [junk]: the blocks that no image owns. *)
Definition irep (s : istate) (ts : list itriple) (junk : list (Z * P)) : Prop :=
  fst s = mapv fst ts /\ Permutation (snd s) (map iown ts ++ junk) /\ NoDup (keys ts) /\ NoDup (keys (snd s)) /\ ~ In 0 (keys (snd s)) /\ Forall igood ts.
Lemma irep_split s ts junk x o : irep s ts junk -> block (fst s) x = Some o -> exists t1 t2 v, ts = t1 ++ (x, (o, v)) :: t2.
Proof.
  intros (E & _). rewrite E. rewrite block_mapv. destruct (block ts x) as [[o' v]|] eqn:B; [|discriminate]. cbn. intros H. injection H as ->.
  apply block_split in B as (t1 & t2 & -> & _). exists t1, t2, v. reflexivity.
Qed.
Lemma irep_props s ts junk x o v : irep s ts junk -> In (x, (o, v)) ts -> i_props o <> 0 /\ block (snd s) (i_props o) = Some (snd v) /\ i_value o = fst v /\ value_of (mapv snd ts) x = Some v.
Proof.
  intros (E & Pm & D & Dh & Z0 & G) I. assert (Ib : In (i_props o, snd v) (snd s)).
  { apply (Permutation_in _ (Permutation_sym Pm)). apply in_app_iff. left. apply in_map_iff. exists (x, (o, v)). split; [reflexivity|exact I]. }
  split; [intros E0; apply Z0; rewrite <- E0; apply (in_map fst) in Ib; exact Ib|]. split; [exact (block_some _ _ _ Dh Ib)|].
  rewrite Forall_forall in G. split; [exact (G _ I)|]. rewrite value_block, block_mapv, (block_some _ _ _ D I). reflexivity.
Qed.
Lemma irep_new s ts junk x v p new : irep s ts junk -> block (fst s) x = None -> fresh (snd s) new = true ->
  irep ((x, mk_iobj v new) :: fst s, (new, p) :: snd s) ((x, (mk_iobj v new, (v, p))) :: ts) junk.
Proof.
  intros (E & Pm & D & Dh & Z0 & G) B F. apply fresh_spec in F as [N0 Nf]. split; [|split; [|split; [|split; [|split]]]]; cbn [fst snd].
  - rewrite E. reflexivity.
  - cbn [map app]. apply perm_skip. exact Pm.
  - cbn. constructor; [|exact D]. rewrite E in B. apply block_none in B. rewrite keys_mapv in B. exact B.
  - cbn. constructor; assumption.
  - cbn. intros [|]; [congruence|tauto].
  - constructor; [reflexivity|exact G].
Qed.
Lemma irep_vals_set t1 t2 x (a b : iobj V * (V * P)) : NoDup (keys (t1 ++ (x, a) :: t2)) -> update (mapv snd (t1 ++ (x, a) :: t2)) x (snd b) = mapv snd (t1 ++ (x, b) :: t2).
Proof. intros D. rewrite update_set, set_mapv, split_set by exact D. reflexivity. Qed.
Lemma iperm t1 t2 x o v junk : Permutation (map iown (t1 ++ (x, (o, v)) :: t2) ++ junk) ((i_props o, snd v) :: map iown (t1 ++ t2) ++ junk).
Proof. rewrite !map_app. cbn [map]. rewrite <- app_assoc. cbn [app]. eapply Permutation_trans; [apply Permutation_sym, Permutation_middle|]. apply perm_skip. rewrite <- app_assoc. apply Permutation_refl. Qed.
Lemma istep_rep s ts junk (op : iop V P) : irep s ts junk -> other op ->
  match istep s op with
  | Done s' o => exists ts' junk', irep s' ts' junk' /\ ivstep (mapv snd ts) op = (mapv snd ts', o) /\ zlen junk' = zlen junk + failures [op]
  | Bug => False | Outside => True end.
Proof.
  intros R Ot. destruct s as [objs h]. pose proof R as (E & Pm & D & Dh & Z0 & G). cbn [fst snd] in *. destruct op as [x v p new|p new|x y new|x y new|x v p|x|x]; cbn [istep].
  - destruct (block objs x) eqn:B; [exact I|]. destruct (fresh h new) eqn:F; [|exact I]. do 2 eexists. split; [exact (irep_new _ _ _ _ _ p _ R B F)|]. split; [reflexivity|unfold failures, zlen; cbn; lia].
  - destruct (fresh h new) eqn:F; [|exact I]. apply fresh_spec in F as [N0 Nf]. exists ts, ((new, p) :: junk). split; [|split; [reflexivity|unfold failures, zlen; cbn [filter length]; lia]].
    split; [exact E|]. cbn [fst snd]. split; [apply Permutation_cons_app; exact Pm|]. split; [exact D|]. split; [cbn; constructor; assumption|]. split; [cbn; intros [|]; [congruence|tauto]|exact G].
  - destruct (block objs x) eqn:B; [exact I|]. destruct (block objs y) as [o|] eqn:By; [|exact I]. destruct (irep_split _ _ _ _ _ R By) as (t1 & t2 & v & ->).
    destruct (irep_props _ _ _ _ _ _ R (in_elt _ _ _)) as (_ & Bp & Ev & Vy). cbn [snd] in Bp. rewrite Bp. destruct (fresh h new) eqn:F; [|exact I].
    do 2 eexists. split; [exact (irep_new _ _ _ _ (i_value o) (snd v) _ R B F)|]. split; [|unfold failures, zlen; cbn; lia]. cbn [ivstep]. rewrite Vy, Ev. destruct v. reflexivity.
  - cbn [other] in Ot. destruct (block objs x) as [o|] eqn:B; [|exact I]. destruct (block objs y) as [oy|] eqn:By; [|exact I]. destruct (irep_split _ _ _ _ _ R B) as (t1 & t2 & v & ->).
    destruct (irep_props _ _ _ _ _ _ R (in_elt _ _ _)) as (N0 & Bp & _ & _). cbn [snd] in Bp. destruct (Z.eqb_spec (i_props o) 0); [contradiction|]. rewrite Bp.
    assert (exists vy, In (y, (oy, vy)) (t1 ++ t2)) as [vy Iy].
    { destruct (irep_split _ _ _ _ _ R By) as (u1 & u2 & vy & Eu). exists vy. assert (In (y, (oy, vy)) (t1 ++ (x, (o, v)) :: t2)) as Iy by (rewrite Eu; apply in_elt). apply in_app_iff in Iy as [|[|]]; [apply in_app_iff; tauto|congruence|apply in_app_iff; tauto]. }
    assert (Iy' : forall a, In (y, (oy, vy)) (t1 ++ (x, a) :: t2)) by (intros a; apply in_app_iff in Iy; apply in_app_iff; cbn; tauto).
    cbn [i_value]. assert (By1 : block (set_block objs x (mk_iobj (i_value oy) 0)) y = Some oy).
    { rewrite E. change (mk_iobj (i_value oy) 0) with (fst (mk_iobj (i_value oy) 0, (fst vy, snd vy))). rewrite set_mapv, split_set by exact D. rewrite block_mapv. rewrite (block_some _ y (oy, vy)); [reflexivity|eapply nodup_replace, D|apply Iy']. }
    rewrite By1. destruct (irep_props _ _ _ _ _ _ R (Iy' _)) as (Ny & Bpy & Ey & Vy). cbn [snd] in Bpy.
    assert (P1 : Permutation (unblock h (i_props o)) (map iown (t1 ++ t2) ++ junk)) by (apply (perm_unblock h _ (i_props o) (snd v) Dh); eapply Permutation_trans; [exact Pm|apply iperm]).
    assert (Dh1 : NoDup (keys (unblock h (i_props o)))) by (apply nodup_unblock, Dh).
    assert (block (unblock h (i_props o)) (i_props oy) = Some (snd vy)) as ->.
    { apply block_some; [exact Dh1|]. apply (Permutation_in _ (Permutation_sym P1)). apply in_app_iff. left. apply in_map_iff. exists (y, (oy, vy)). split; [reflexivity|exact Iy]. }
    destruct (fresh (unblock h (i_props o)) new) eqn:F; [|exact I]. apply fresh_spec in F as [Nn Nf].
    exists (t1 ++ (x, (mk_iobj (i_value oy) new, vy)) :: t2), junk. split; [|split; [|unfold failures, zlen; cbn; lia]].
    + split; [|split; [|split; [|split; [|split]]]]; cbn [fst snd].
      * rewrite set_twice, E. change (mk_iobj (i_value oy) new) with (fst (mk_iobj (i_value oy) new, vy)) at 1. rewrite set_mapv, split_set by exact D. reflexivity.
      * eapply Permutation_trans; [apply perm_skip, P1|]. apply Permutation_sym. apply iperm.
      * eapply nodup_replace, D.
      * cbn. constructor; assumption.
      * cbn. intros [|I0]; [congruence|]. apply Z0. unfold unblock, keys in I0. apply in_map_iff in I0 as (b & Eb & I0). apply filter_In in I0 as [I0 _]. apply in_map_iff. exists b. split; assumption.
      * rewrite Forall_app in G |- *. destruct G as [Ga Gb]. split; [exact Ga|]. inversion Gb; subst. constructor; [exact Ey|assumption].
    + cbn [ivstep]. rewrite Vy. f_equal. exact (irep_vals_set _ _ _ _ (mk_iobj (i_value oy) new, vy) D).
  - destruct (block objs x) as [o|] eqn:B; [|exact I]. destruct (irep_split _ _ _ _ _ R B) as (t1 & t2 & w & ->). destruct (irep_props _ _ _ _ _ _ R (in_elt _ _ _)) as (N0 & Bp & _ & _). cbn [snd] in Bp. rewrite Bp.
    assert (P0 : Permutation h ((i_props o, snd w) :: map iown (t1 ++ t2) ++ junk)) by (eapply Permutation_trans; [exact Pm|apply iperm]).
    apply block_split in Bp as (h1 & h2 & Eh & _). assert (Dh' := Dh). rewrite Eh in Dh'.
    assert (Sh : set_block h (i_props o) p = h1 ++ (i_props o, p) :: h2) by (rewrite Eh; apply split_set, Dh').
    assert (Ph : Permutation (h1 ++ h2) (map iown (t1 ++ t2) ++ junk)). { apply (Permutation_cons_inv (a := (i_props o, snd w))). eapply Permutation_trans; [apply Permutation_middle|]. rewrite <- Eh. exact P0. }
    exists (t1 ++ (x, (mk_iobj v (i_props o), (v, p))) :: t2), junk. split; [|split; [|unfold failures, zlen; cbn; lia]].
    + split; [|split; [|split; [|split; [|split]]]]; cbn [fst snd].
      * rewrite E. change (mk_iobj v (i_props o)) with (fst (mk_iobj v (i_props o), (v, p))) at 1. rewrite set_mapv, split_set by exact D. reflexivity.
      * rewrite Sh. eapply Permutation_trans; [apply Permutation_sym, Permutation_middle|]. eapply Permutation_trans; [apply perm_skip, Ph|]. apply Permutation_sym. exact (iperm t1 t2 x (mk_iobj v (i_props o)) (v, p) junk).
      * eapply nodup_replace, D.
      * rewrite Sh. eapply nodup_replace, Dh'.
      * rewrite Sh. rewrite Eh in Z0. rewrite keys_app in *. exact Z0.
      * rewrite Forall_app in G |- *. destruct G as [Ga Gb]. split; [exact Ga|]. inversion Gb; subst. constructor; [reflexivity|assumption].
    + cbn [ivstep]. f_equal. exact (irep_vals_set _ _ _ _ (mk_iobj v (i_props o), (v, p)) D).
  - destruct (block objs x) as [o|] eqn:B; [|exact I]. destruct (irep_split _ _ _ _ _ R B) as (t1 & t2 & v & ->). destruct (irep_props _ _ _ _ _ _ R (in_elt _ _ _)) as (N0 & Bp & Ev & Vx). cbn [snd] in Bp. rewrite Bp.
    do 2 eexists. split; [exact R|]. split; [|unfold failures, zlen; cbn; lia]. cbn [ivstep]. rewrite Vx, Ev. destruct v. reflexivity.
  - destruct (block objs x) as [o|] eqn:B; [|exact I]. destruct (irep_split _ _ _ _ _ R B) as (t1 & t2 & v & ->). destruct (irep_props _ _ _ _ _ _ R (in_elt _ _ _)) as (N0 & Bp & _ & _). cbn [snd] in Bp. destruct (Z.eqb_spec (i_props o) 0); [contradiction|]. rewrite Bp.
    exists (t1 ++ t2), junk. split; [|split; [|unfold failures, zlen; cbn; lia]].
    + split; [|split; [|split; [|split; [|split]]]]; cbn [fst snd].
      * fold (unblock objs x). rewrite E, unblock_mapv, split_unblock by exact D. reflexivity.
      * apply (perm_unblock h _ (i_props o) (snd v) Dh). eapply Permutation_trans; [exact Pm|apply iperm].
      * eapply nodup_remove, D.
      * apply nodup_unblock, Dh.
      * intros I0. apply Z0. unfold unblock, keys in I0. apply in_map_iff in I0 as (b & Eb & I0). apply filter_In in I0 as [I0 _]. apply in_map_iff. exists b. split; assumption.
      * rewrite Forall_app in *. destruct G as [Ga Gb]. inversion Gb; subst. split; assumption.
    + cbn [ivstep]. f_equal. rewrite removed_unblock, unblock_mapv, split_unblock by exact D. reflexivity.
Qed.
Lemma irun_rep (ops : list (iop V P)) : Forall other ops -> forall s ts junk, irep s ts junk ->
  match irun ops s with
  | Done s' os => exists ts' junk', irep s' ts' junk' /\ ivrun ops (mapv snd ts) = (mapv snd ts', os) /\ zlen junk' = zlen junk + failures ops
  | Bug => False | Outside => True end.
Proof.
  induction 1 as [|op ops Ho Hs IH]; intros s ts junk R; cbn [irun].
  - exists ts, junk. split; [exact R|]. split; [reflexivity|]. unfold failures, zlen; cbn; lia.
  - pose proof (istep_rep _ _ _ op R Ho) as K. destruct (istep s op) as [s1 o| |]; [|exact K|exact I]. destruct K as (ts1 & j1 & R1 & V1 & L1).
    pose proof (IH _ _ _ R1) as K. destruct (irun ops s1) as [s2 os| |]; [|exact K|exact I]. destruct K as (ts2 & j2 & R2 & V2 & L2).
    exists ts2, j2. split; [exact R2|]. cbn [ivrun]. rewrite V1, V2. split; [reflexivity|]. rewrite L2, L1. unfold failures, zlen in *. cbn [filter]. destruct op; cbn [length]; lia.
Qed.
Lemma image_memory (ops : list (iop V P)) : Forall other ops ->
  irun ops ([], []) <> Bug /\ forall objs h os, irun ops ([], []) = Done (objs, h) os -> zlen h = zlen objs + failures ops /\ snd (ivrun ops []) = os.
Proof.
  intros H. assert (R0 : irep ([], []) [] []) by (split; [reflexivity|]; split; [constructor|]; split; [constructor|]; split; [constructor|]; split; [intros []|constructor]).
  pose proof (irun_rep ops H _ _ _ R0) as K. destruct (irun ops ([], [])) as [[objs' h'] os'| |] eqn:E; [|contradiction|split; discriminate]. split; [discriminate|].
  intros objs h os Eq. injection Eq as <- <- <-. destruct K as (ts & j & R & Ev & L). change (mapv snd []) with (@nil (Z * (V * P))) in Ev. rewrite Ev. split; [|reflexivity].
  destruct R as (Eo & Pm & _). cbn [fst snd] in *. subst objs'. unfold zlen in *. rewrite (Permutation_length Pm), app_length, map_length. unfold mapv. rewrite map_length. cbn in L. lia.
Qed.
End Images.
Lemma self_assignment (V P : Type) (v : V) (p : P) a new : a <> 0 -> irun [INew 1 v p a; IAssign 1 1 new] ([], []) = Bug.
Proof.
  intros N. assert (E : a =? 0 = false) by lia. assert (F : fresh (@nil (Z * P)) a = true) by (unfold fresh; rewrite E; reflexivity).
  unfold irun. unfold istep at 1. unfold block at 1. cbn [find option_map]. rewrite F. unfold istep.
  change (block [(1, mk_iobj v a)] 1) with (Some (mk_iobj v a)). cbn [i_props i_value]. rewrite E.
  unfold block at 1. cbn [find fst]. rewrite Z.eqb_refl. cbn [option_map snd]. unfold unblock. cbn [filter fst]. rewrite Z.eqb_refl. reflexivity.
Qed.
Lemma failed_image (V P : Type) (p : P) a : a <> 0 -> irun (V := V) [IFail p a] ([], []) = Done ([], [(a, p)]) [None].
Proof. intros N. assert (F : fresh (@nil (Z * P)) a = true) by (unfold fresh; assert (a =? 0 = false) as -> by lia; reflexivity). unfold irun, istep. rewrite F. reflexivity. Qed.
