(** Programs with debug_info objects refine programs over values (C69). *)
From Verif Require Export OwnFacts.
Require Import Permutation.

Notation triple := (Z * (dobj * dvalue))%type.
Definition mapv {A B} (f : A -> B) (l : list (Z * A)) : list (Z * B) := map (fun b => (fst b, f (snd b))) l.
Lemma keys_mapv {A B} (f : A -> B) l : keys (mapv f l) = keys l.
Proof. unfold keys, mapv. rewrite map_map. apply map_ext. reflexivity. Qed.
Lemma block_mapv {A B} (f : A -> B) l x : block (mapv f l) x = option_map f (block l x).
Proof. unfold block, mapv. induction l as [|[y b] l IH]; cbn; [reflexivity|]. destruct (y =? x); [reflexivity|exact IH]. Qed.
Lemma mapv_app {A B} (f : A -> B) l1 l2 : mapv f (l1 ++ l2) = mapv f l1 ++ mapv f l2. Proof. apply map_app. Qed.
Lemma unblock_mapv {A B} (f : A -> B) l x : unblock (mapv f l) x = mapv f (unblock l x).
Proof. unfold unblock, mapv. induction l as [|[y b] l IH]; cbn; [reflexivity|]. destruct (y =? x); cbn; [exact IH|f_equal; exact IH]. Qed.
Lemma set_mapv {A B} (f : A -> B) l x b : set_block (mapv f l) x (f b) = mapv f (set_block l x b).
Proof. unfold set_block, mapv. induction l as [|[y c] l IH]; cbn; [reflexivity|]. destruct (y =? x); cbn; f_equal; exact IH. Qed.
Definition objs_of (ts : list triple) := mapv fst ts.
Definition vals_of (ts : list triple) := mapv snd ts.
Definition own (t : triple) : list (Z * advanced) := if detailed (snd (snd (snd t))) then [(o_ptr (fst (snd t)), snd (snd (snd t)))] else [].
Definition good (t : triple) : Prop :=
  let '(_, (o, v)) := t in o_fields o = fst v /\ o_type o = advanced_type (snd v) /\ structured (o_type o) = detailed (snd v) /\
  (detailed (snd v) = true -> o_ptr o <> 0) /\ (detailed (snd v) = false -> o_ptr o = 0).
Definition rep (s : dstate) (ts : list triple) : Prop :=
  fst s = objs_of ts /\ Permutation (snd s) (flat_map own ts) /\ NoDup (keys ts) /\ NoDup (keys (snd s)) /\ ~ In 0 (keys (snd s)) /\ Forall good ts.
Lemma flat_split t1 t2 t : flat_map own (t1 ++ t :: t2) = flat_map own t1 ++ own t ++ flat_map own t2.
Proof. rewrite flat_map_app. reflexivity. Qed.
Lemma rep_split s ts x o : rep s ts -> block (fst s) x = Some o -> exists t1 t2 v, ts = t1 ++ (x, (o, v)) :: t2.
Proof.
  intros (E & _). rewrite E. unfold objs_of. rewrite block_mapv. destruct (block ts x) as [[o' v]|] eqn:B; [|discriminate]. cbn. intros H. injection H as ->.
  apply block_split in B as (t1 & t2 & -> & _). exists t1, t2, v. reflexivity.
Qed.
Lemma rep_nodup_objs s ts : rep s ts -> NoDup (keys (fst s)).
Proof. intros (E & _ & D & _). rewrite E. unfold objs_of. rewrite keys_mapv. exact D. Qed.
Lemma struct_detailed a : has_structure a = true -> structured (advanced_type a) = true /\ detailed a = true.
Proof. destruct a; cbn; try discriminate; split; reflexivity. Qed.
(** Releasing what an object owns. *)
Lemma free_rep s t1 t2 x o v : rep s (t1 ++ (x, (o, v)) :: t2) ->
  exists h', free_present (snd s) o = Some (h', mk_dobj (o_fields o) 0 0) /\
    rep (set_block (fst s) x (mk_dobj (o_fields o) 0 0), h') (t1 ++ (x, (mk_dobj (o_fields o) 0 0, (fst v, AdvNone))) :: t2).
Proof.
  intros (E & P & D & Dh & Z0 & G). destruct s as [objs h]. cbn [fst snd] in *.
  assert (Gt : good (x, (o, v))) by (rewrite Forall_app in G; destruct G as [_ G]; inversion G; assumption). destruct Gt as (G1 & G2 & G3 & G4 & G5).
  assert (RESULT : forall h', Permutation h' (flat_map own t1 ++ flat_map own t2) -> NoDup (keys h') -> ~ In 0 (keys h') ->
    rep (set_block objs x (mk_dobj (o_fields o) 0 0), h') (t1 ++ (x, (mk_dobj (o_fields o) 0 0, (fst v, AdvNone))) :: t2)).
  { intros h' P' D' Z'. split; [|split; [|split; [|split; [|split]]]]; cbn [fst snd]; try assumption.
    - rewrite E. unfold objs_of. change (mk_dobj (o_fields o) 0 0) with (fst (mk_dobj (o_fields o) 0 0, (fst v, AdvNone))) at 1. rewrite set_mapv. rewrite split_set by exact D. reflexivity.
    - rewrite flat_split. cbn [own snd detailed app]. exact P'.
    - eapply nodup_replace, D.
    - rewrite Forall_app in G |- *. destruct G as [Ga Gb]. split; [exact Ga|]. inversion Gb; subst. constructor; [|assumption]. cbn. repeat split; congruence. }
  unfold free_present. rewrite G3. destruct (detailed (snd v)) eqn:Dv.
  - rewrite flat_split in P. unfold own in P at 2. cbn [snd fst] in P. rewrite Dv in P. cbn [app] in P.
    assert (P' : Permutation h ((o_ptr o, snd v) :: flat_map own t1 ++ flat_map own t2)) by (eapply Permutation_trans; [exact P|apply Permutation_sym, Permutation_middle]).
    unfold delete. specialize (G4 eq_refl). destruct (Z.eqb_spec (o_ptr o) 0); [contradiction|]. rewrite (perm_block _ _ _ _ Dh P'). rewrite G2, Z.eqb_refl.
    eexists. split; [reflexivity|]. apply RESULT; [exact (perm_unblock _ _ _ _ Dh P')|apply nodup_unblock, Dh|].
    intros I. apply Z0. unfold unblock, keys in I. apply in_map_iff in I as (b & Eb & I). apply filter_In in I as [I _]. apply in_map_iff. exists b. split; assumption.
  - eexists. split; [reflexivity|]. apply RESULT; [|exact Dh|exact Z0]. rewrite flat_split in P. unfold own in P at 2. cbn [snd fst] in P. rewrite Dv in P. exact P.
Qed.
(** Storing details in an object that has none. *)
Lemma store_rep s t1 t2 x o f f' a adv : rep s (t1 ++ (x, (o, (f, AdvNone))) :: t2) -> fresh (snd s) a = true -> has_structure adv = true ->
  rep (set_block (fst s) x (mk_dobj f' a (advanced_type adv)), (a, adv) :: snd s) (t1 ++ (x, (mk_dobj f' a (advanced_type adv), (f', adv))) :: t2).
Proof.
  intros (E & P & D & Dh & Z0 & G) F H. apply fresh_spec in F as [Na Fa]. destruct (struct_detailed adv H) as [H1 H2].
  split; [|split; [|split; [|split; [|split]]]]; cbn [fst snd].
  - rewrite E. unfold objs_of. change (mk_dobj f' a (advanced_type adv)) with (fst (mk_dobj f' a (advanced_type adv), (f', adv))) at 1. rewrite set_mapv, split_set by exact D. reflexivity.
  - rewrite flat_split. unfold own at 2. cbn [snd fst o_ptr]. rewrite H2. cbn [app]. rewrite flat_split in P. cbn [own snd detailed app] in P. apply Permutation_cons_app. exact P.
  - eapply nodup_replace, D.
  - cbn. constructor; assumption.
  - cbn. intros [|]; [congruence|tauto].
  - rewrite Forall_app in G |- *. destruct G as [Ga Gb]. split; [exact Ga|]. inversion Gb; subst. constructor; [|assumption]. cbn. rewrite H1, H2. repeat split; congruence.
Qed.
(** Replacing the numbers and the type of an object that has no details. *)
Lemma plain_rep s t1 t2 x o f f' adv : rep s (t1 ++ (x, (o, (f, AdvNone))) :: t2) -> detailed adv = false -> structured (advanced_type adv) = false ->
  rep (set_block (fst s) x (mk_dobj f' 0 (advanced_type adv)), snd s) (t1 ++ (x, (mk_dobj f' 0 (advanced_type adv), (f', adv))) :: t2).
Proof.
  intros (E & P & D & Dh & Z0 & G) H1 H2. split; [|split; [|split; [|split; [|split]]]]; cbn [fst snd]; try assumption.
  - rewrite E. unfold objs_of. change (mk_dobj f' 0 (advanced_type adv)) with (fst (mk_dobj f' 0 (advanced_type adv), (f', adv))) at 1. rewrite set_mapv, split_set by exact D. reflexivity.
  - rewrite flat_split. unfold own at 2. cbn [snd fst]. rewrite H1. rewrite flat_split in P. cbn [own snd detailed app] in P. exact P.
  - eapply nodup_replace, D.
  - rewrite Forall_app in G |- *. destruct G as [Ga Gb]. split; [exact Ga|]. inversion Gb; subst. constructor; [|assumption]. cbn. rewrite H1, H2. repeat split; congruence.
Qed.
Lemma deref_rep s ts y o f adv : rep s ts -> In (y, (o, (f, adv))) ts -> detailed adv = true -> deref (snd s) (o_ptr o) (o_type o) = Some adv.
Proof.
  intros (E & P & D & Dh & Z0 & G) I H. rewrite Forall_forall in G. destruct (G _ I) as (G1 & G2 & G3 & G4 & G5). cbn [fst snd] in *.
  unfold deref. destruct (Z.eqb_spec (o_ptr o) 0) as [E0|_]; [specialize (G4 H); contradiction|].
  assert (Ib : In (o_ptr o, adv) (snd s)). { apply (Permutation_in _ (Permutation_sym P)). apply in_flat_map. exists (y, (o, (f, adv))). split; [exact I|]. unfold own. cbn [fst snd]. rewrite H. left. reflexivity. }
  rewrite (block_some _ _ _ Dh Ib). rewrite G2, Z.eqb_refl. reflexivity.
Qed.
Lemma detailed_has a : detailed a = has_structure a. Proof. destruct a; reflexivity. Qed.
Lemma rep_good s ts x o v : rep s ts -> In (x, (o, v)) ts -> good (x, (o, v)).
Proof. intros (_ & _ & _ & _ & _ & G) I. rewrite Forall_forall in G. apply G, I. Qed.
Lemma vals_set t1 t2 x a b : NoDup (keys (t1 ++ (x, a) :: t2)) -> update (vals_of (t1 ++ (x, a) :: t2)) x (snd b) = vals_of (t1 ++ (x, b) :: t2).
Proof. intros D. rewrite update_set. unfold vals_of. rewrite set_mapv, split_set by exact D. reflexivity. Qed.
Lemma vals_block t1 t2 x a : NoDup (keys (t1 ++ (x, a) :: t2)) -> value_of (vals_of (t1 ++ (x, a) :: t2)) x = Some (snd a).
Proof. intros D. rewrite value_block. unfold vals_of. rewrite block_mapv, split_block by exact D. reflexivity. Qed.
(** copy_advanced_info between different objects. *)
Lemma copy_rep s t1 t2 x y o v src vy new : x <> y -> rep s (t1 ++ (x, (o, v)) :: t2) -> In (y, (src, vy)) (t1 ++ (x, (o, v)) :: t2) ->
  match copy_advanced s x y new with
  | Done s' SNothing => (detailed (snd vy) = true -> new <> None) /\ exists p, rep s' (t1 ++ (x, (mk_dobj (fst v) p (o_type src), (fst v, snd vy))) :: t2)
  | Done s' SNoMemory => detailed (snd vy) = true /\ new = None /\ exists o', rep s' (t1 ++ (x, (o', (fst v, AdvNone))) :: t2)
  | Done _ _ => False | Bug => False | Outside => True end.
Proof.
  intros N R I. pose proof (rep_good _ _ _ _ _ R (in_elt _ _ _)) as (F1 & _).
  assert (B : block (fst s) x = Some o) by (destruct R as (E & _ & D & _); rewrite E; unfold objs_of; rewrite block_mapv, split_block by exact D; reflexivity).
  unfold copy_advanced. rewrite B. destruct (free_rep _ _ _ _ _ _ R) as (h' & -> & R1). rewrite F1 in *. 
  set (ts1 := t1 ++ (x, (mk_dobj (fst v) 0 0, (fst v, AdvNone))) :: t2) in *.
  assert (I1 : In (y, (src, vy)) ts1). { unfold ts1. apply in_app_iff in I as [I|[I|I]]; [|congruence|]; apply in_app_iff; [left; exact I|right; right; exact I]. }
  assert (B1 : block (set_block (fst s) x (mk_dobj (fst v) 0 0)) y = Some src).
  { pose proof R1 as (E & _ & D & _). cbn [fst] in E. rewrite E. unfold objs_of. rewrite block_mapv. rewrite (block_some _ _ _ D I1). reflexivity. }
  rewrite B1. pose proof (rep_good _ _ _ _ _ R1 I1) as (H1 & H2 & H3 & H4 & H5). rewrite H3. destruct (detailed (snd vy)) eqn:Dy.
  - destruct new as [a|].
    + destruct (fresh h' a) eqn:Fr; [|exact Logic.I]. destruct vy as [fy ay]. cbn [fst snd] in *. pose proof (deref_rep _ _ _ _ _ _ R1 I1 Dy) as De. cbn [snd] in De. rewrite De.
      split; [congruence|]. exists a. rewrite H2. rewrite detailed_has in Dy.
      pose proof (store_rep _ _ _ _ _ _ (fst v) a ay R1 Fr Dy) as R2. cbn [fst snd] in R2. unfold o_fields at 1. exact R2.
    + split; [reflexivity|]. split; [reflexivity|]. eexists. exact R1.
  - split; [congruence|]. exists 0. rewrite H2 in *. exact (plain_rep _ _ _ _ _ _ (fst v) (snd vy) R1 Dy H3).
Qed.
Lemma copy_self s t1 t2 x o v new : rep s (t1 ++ (x, (o, v)) :: t2) ->
  exists s' o', copy_advanced s x x new = Done s' SNothing /\ rep s' (t1 ++ (x, (o', (fst v, AdvNone))) :: t2).
Proof.
  intros R. assert (B : block (fst s) x = Some o) by (destruct R as (E & _ & D & _); rewrite E; unfold objs_of; rewrite block_mapv, split_block by exact D; reflexivity).
  unfold copy_advanced. rewrite B. destruct (free_rep _ _ _ _ _ _ R) as (h' & -> & R1).
  assert (B1 : block (set_block (fst s) x (mk_dobj (o_fields o) 0 0)) x = Some (mk_dobj (o_fields o) 0 0)).
  { pose proof R1 as (E & _ & D & _). cbn [fst] in E. rewrite E. unfold objs_of. rewrite block_mapv. rewrite (split_block _ _ _ _ D). reflexivity. }
  rewrite B1. cbn [o_type structured Z.leb andb]. do 2 eexists. split; [reflexivity|].
  assert (SAME : set_block (set_block (fst s) x (mk_dobj (o_fields o) 0 0)) x (mk_dobj (o_fields o) 0 0) = set_block (fst s) x (mk_dobj (o_fields o) 0 0)).
  { unfold set_block. rewrite map_map. apply map_ext. intros [k b]. cbn. destruct (k =? x) eqn:K; cbn; [rewrite Z.eqb_refl; reflexivity|rewrite K; reflexivity]. }
  cbn [o_fields o_ptr]. change (structured 0) with false. cbn iota. rewrite SAME. exact R1.
Qed.
(** Changing the numbers of an object. *)
Lemma fields_rep s t1 t2 x o v f : rep s (t1 ++ (x, (o, v)) :: t2) ->
  rep (set_block (fst s) x (mk_dobj f (o_ptr o) (o_type o)), snd s) (t1 ++ (x, (mk_dobj f (o_ptr o) (o_type o), (f, snd v))) :: t2).
Proof.
  intros (E & P & D & Dh & Z0 & G). split; [|split; [|split; [|split; [|split]]]]; cbn [fst snd]; try assumption.
  - rewrite E. unfold objs_of. change (mk_dobj f (o_ptr o) (o_type o)) with (fst (mk_dobj f (o_ptr o) (o_type o), (f, snd v))) at 1. rewrite set_mapv, split_set by exact D. reflexivity.
  - rewrite flat_split in *. exact P.
  - eapply nodup_replace, D.
  - rewrite Forall_app in G |- *. destruct G as [Ga Gb]. split; [exact Ga|]. inversion Gb as [|? ? Hg ?]; subst. constructor; [|assumption]. destruct Hg as (_ & H2 & H3 & H4 & H5). cbn. repeat split; assumption.
Qed.
Lemma rep_block s t1 t2 x o v : rep s (t1 ++ (x, (o, v)) :: t2) -> block (fst s) x = Some o.
Proof. intros (E & _ & D & _). rewrite E. unfold objs_of. rewrite block_mapv, split_block by exact D. reflexivity. Qed.
Lemma rep_in s ts x o : rep s ts -> block (fst s) x = Some o -> exists v, In (x, (o, v)) ts.
Proof. intros R B. destruct (rep_split _ _ _ _ R B) as (t1 & t2 & v & ->). exists v. apply in_elt. Qed.
Lemma rep_value s ts x o v : rep s ts -> In (x, (o, v)) ts -> value_of (vals_of ts) x = Some v.
Proof. intros (_ & _ & D & _) I. rewrite value_block. unfold vals_of. rewrite block_mapv, (block_some _ _ _ D I). reflexivity. Qed.
Lemma rep_new s ts x o v : rep s ts -> block (fst s) x = None -> detailed (snd v) = false -> good (x, (o, v)) -> rep ((x, o) :: fst s, snd s) ((x, (o, v)) :: ts).
Proof.
  intros (E & P & D & Dh & Z0 & G) B H Gx. split; [|split; [|split; [|split; [|split]]]]; cbn [fst snd]; try assumption.
  - rewrite E. reflexivity.
  - cbn [flat_map]. unfold own at 1. cbn [snd]. rewrite H. exact P.
  - cbn. constructor; [|exact D]. rewrite E in B. apply block_none in B. unfold objs_of in B. rewrite keys_mapv in B. exact B.
  - constructor; assumption.
Qed.
Lemma rep_remove s t1 t2 x o v : rep s (t1 ++ (x, (o, v)) :: t2) -> detailed (snd v) = false -> rep (filter (fun b => negb (fst b =? x)) (fst s), snd s) (t1 ++ t2).
Proof.
  intros (E & P & D & Dh & Z0 & G) H. split; [|split; [|split; [|split; [|split]]]]; cbn [fst snd]; try assumption.
  - rewrite E. fold (unblock (objs_of (t1 ++ (x, (o, v)) :: t2)) x). unfold objs_of. rewrite unblock_mapv, split_unblock by exact D. reflexivity.
  - rewrite flat_split in P. unfold own in P at 2. cbn [snd] in P. rewrite H in P. rewrite flat_map_app. exact P.
  - eapply nodup_remove, D.
  - rewrite Forall_app in *. destruct G as [Ga Gb]. inversion Gb; subst. split; assumption.
Qed.
Lemma vals_removed t1 t2 x a : NoDup (keys (t1 ++ (x, a) :: t2)) -> removed (vals_of (t1 ++ (x, a) :: t2)) x = vals_of (t1 ++ t2).
Proof. intros D. rewrite removed_unblock. unfold vals_of. rewrite unblock_mapv, split_unblock by exact D. reflexivity. Qed.
Lemma set_twice {A} (l : list (Z * A)) x a b : set_block (set_block l x a) x b = set_block l x b.
Proof. unfold set_block. rewrite map_map. apply map_ext. intros [k c]. cbn. destruct (k =? x) eqn:K; cbn; [rewrite Z.eqb_refl; reflexivity|rewrite K; reflexivity]. Qed.
Lemma remove_set {A} (l : list (Z * A)) x a : filter (fun b => negb (fst b =? x)) (set_block l x a) = filter (fun b => negb (fst b =? x)) l.
Proof. unfold set_block. induction l as [|[k c] l IH]; cbn; [reflexivity|]. destruct (k =? x) eqn:K; cbn; [rewrite Z.eqb_refl|rewrite K]; cbn; [exact IH|f_equal; exact IH]. Qed.
Lemma step_rep s ts op : rep s ts ->
  match dstep s op with
  | Done s' o => exists ts', rep s' ts' /\ (plain op -> vstep (vals_of ts) op = (vals_of ts', o))
  | Bug => False | Outside => True end.
Proof.
  intros R. pose proof R as (_ & _ & D & _). destruct s as [objs h]. destruct op as [x f|x y new|x y new|x a new|x t|x|x t|x]; cbn [dstep].
  - destruct (block objs x) eqn:B; [exact I|]. exists ((x, (mk_dobj f 0 0, (f, AdvNone))) :: ts). split; [|reflexivity].
    apply (rep_new (objs, h)); [exact R|exact B|reflexivity|]. cbn. repeat split; congruence.
  - destruct (block objs x) eqn:B; [exact I|]. destruct (block objs y) as [src|] eqn:By; [|exact I].
    destruct (rep_in _ _ _ _ R By) as (vy & Iy). pose proof (rep_good _ _ _ _ _ R Iy) as (H1 & H2 & H3 & H4 & H5).
    assert (N : x <> y). { intros ->. congruence. }
    (* the object under construction has the type of the source and no pointer *)
    assert (C : copy_advanced ((x, mk_dobj (o_fields src) 0 (o_type src)) :: objs, h) x y new = copy_advanced ((x, mk_dobj (o_fields src) 0 0) :: objs, h) x y new).
    { assert (BX : forall o0, block ((x, o0) :: objs) x = Some o0) by (intros o0; unfold block; cbn [find fst]; rewrite Z.eqb_refl; reflexivity).
      assert (SX : forall o0 b, set_block ((x, o0) :: objs) x b = (x, b) :: set_block objs x b) by (intros o0 b; unfold set_block; cbn [map fst]; rewrite Z.eqb_refl; reflexivity).
      unfold copy_advanced. cbn [fst snd]. rewrite !BX. unfold free_present. cbn [o_type o_ptr o_fields].
      replace (if structured (o_type src) then delete h 0 (o_type src) else Some h) with (Some h) by (destruct (structured (o_type src)); reflexivity).
      change (structured 0) with false. cbn iota. rewrite !SX. reflexivity. }
    rewrite C. pose proof (rep_new _ _ x (mk_dobj (o_fields src) 0 0) (fst vy, AdvNone) R B eq_refl ltac:(cbn; repeat split; congruence)) as R0. cbn [fst snd] in R0.
    pose proof (copy_rep _ [] ts x y _ _ src vy new N R0 (or_intror Iy)) as K. cbn [app fst snd] in K.
    clear C. match type of K with match ?c with _ => _ end => destruct c as [[objs' h'] [| | | |]| |] end; try contradiction; [| |exact I].
    + destruct K as (K1 & p & K2). eexists. split; [exact K2|]. intros _. cbn [vstep]. rewrite (rep_value _ _ _ _ _ R Iy). destruct vy as [fy ay]. cbn [fst snd] in *.
      destruct (detailed ay); [destruct new; [|exfalso; apply K1; reflexivity]|]; reflexivity.
    + destruct K as (K1 & -> & o' & K2). exists ts. split.
      * exact (rep_remove _ [] ts x o' (fst vy, AdvNone) K2 eq_refl).
      * intros _. cbn [vstep]. rewrite (rep_value _ _ _ _ _ R Iy). destruct vy as [fy ay]. cbn [snd] in K1. rewrite K1. reflexivity.
  - destruct (block objs x) as [o|] eqn:B; [|unfold copy_advanced; cbn [fst]; rewrite B; exact I].
    destruct (rep_split _ _ _ _ R B) as (t1 & t2 & v & ->). destruct (Z.eq_dec x y) as [<-|N].
    + destruct (copy_self _ _ _ _ _ _ new R) as ([objs' h'] & o' & -> & R1). pose proof (rep_block _ _ _ _ _ _ R1) as B1. cbn [fst] in B1. rewrite B1.
      eexists. split; [exact (fields_rep _ _ _ _ _ _ (o_fields o') R1)|]. intros Pl. exfalso. apply Pl. reflexivity.
    + destruct (block objs y) as [src|] eqn:By.
      2: { unfold copy_advanced. cbn [fst snd]. rewrite B. destruct (free_rep _ _ _ _ _ _ R) as (h' & Ef & R1). cbn [snd fst] in Ef, R1. rewrite Ef.
           assert (block (set_block objs x (mk_dobj (o_fields o) 0 0)) y = None) as ->.
           { apply block_none in By. apply block_none. unfold keys, set_block in *. rewrite map_map. intros Iy. apply By. apply in_map_iff in Iy as ([k c] & Ek & Ik). cbn in Ek. destruct (Z.eqb_spec k x) as [->|]; cbn in Ek; [congruence|]. apply in_map_iff. exists (k, c). split; [exact Ek|exact Ik]. }
           exact I. }
      destruct (rep_in _ _ _ _ R By) as (vy & Iy). pose proof (rep_good _ _ _ _ _ R Iy) as (H1 & H2 & H3 & H4 & H5).
      pose proof (rep_value _ _ _ _ _ R Iy) as Vy. pose proof (vals_block _ _ _ _ D) as Vx. cbn [snd] in Vx.
      pose proof (copy_rep _ _ _ _ _ _ _ _ _ new N R Iy) as K. destruct (copy_advanced (objs, h) x y new) as [[objs' h'] [| | | |]| |]; try contradiction; [| |exact I].
      * destruct K as (K1 & p & K2). pose proof (rep_block _ _ _ _ _ _ K2) as Bx. cbn [fst] in Bx. rewrite Bx.
        assert (By' : block objs' y = Some src).
        { pose proof K2 as (E2 & _ & D2 & _). cbn [fst] in E2. rewrite E2. unfold objs_of. rewrite block_mapv. rewrite (block_some _ y (src, vy)); [reflexivity|exact D2|].
          apply in_app_iff in Iy as [Iy|[Iy|Iy]]; [|congruence|]; apply in_app_iff; [left; exact Iy|right; right; exact Iy]. }
        rewrite By'. cbn [o_ptr]. eexists. split; [exact (fields_rep _ _ _ _ _ _ (o_fields src) K2)|]. intros _. cbn [vstep fst snd]. rewrite Vx, Vy. destruct v as [fx ax], vy as [fy ay]. cbn [fst snd] in *.
        assert (U : update (vals_of (t1 ++ (x, (o, (fx, ax))) :: t2)) x (fy, ay) = vals_of (t1 ++ (x, (mk_dobj fy p (o_type src), (fy, ay))) :: t2)) by (exact (vals_set _ _ _ _ (mk_dobj fy p (o_type src), (fy, ay)) D)).
        rewrite H1. destruct (detailed ay); [destruct new; [|exfalso; apply K1; reflexivity]|]; rewrite U; reflexivity.
      * destruct K as (K1 & -> & o' & K2). eexists. split; [exact K2|]. intros _. cbn [vstep]. rewrite Vx, Vy. destruct v as [fx ax], vy as [fy ay]. cbn [fst snd] in *. rewrite K1.
        f_equal. exact (vals_set _ _ _ _ (o', (fx, AdvNone)) D).
  - destruct (block objs x) as [o|] eqn:B; [|exact I]. destruct (has_structure a) eqn:S; [|exact I]. destruct (rep_split _ _ _ _ R B) as (t1 & t2 & v & ->).
    pose proof (rep_good _ _ _ _ _ R (in_elt _ _ _)) as (F1 & _). destruct (free_rep _ _ _ _ _ _ R) as (h' & Ef & R1). cbn [fst snd] in Ef, R1. rewrite Ef.
    pose proof (vals_block _ _ _ _ D) as Vx. cbn [snd] in Vx. destruct v as [fx ax]. cbn [fst snd] in *. destruct new as [p|].
    + destruct (fresh h' p) eqn:Fr; [|exact I]. eexists. pose proof (store_rep _ _ _ _ _ _ (o_fields o) p a R1 Fr S) as R2. cbn [fst snd] in R2. rewrite set_twice in R2. split; [exact R2|].
      intros _. cbn [vstep]. rewrite Vx. f_equal. rewrite F1. exact (vals_set _ _ _ _ (mk_dobj fx p (advanced_type a), (fx, a)) D).
    + eexists. split; [exact R1|]. intros _. cbn [vstep]. rewrite Vx. f_equal. exact (vals_set _ _ _ _ (mk_dobj (o_fields o) 0 0, (fx, AdvNone)) D).
  - destruct (block objs x) as [o|] eqn:B; [|exact I]. destruct (rep_split _ _ _ _ R B) as (t1 & t2 & v & ->). destruct (free_rep _ _ _ _ _ _ R) as (h' & Ef & R1). cbn [fst snd] in Ef, R1. rewrite Ef.
    cbn [o_type]. change (5 <=? 0) with false. cbn iota. eexists. split; [exact R1|]. intros Pl. cbn [plain] in Pl. cbn [vstep]. rewrite (vals_block _ _ _ _ D). cbn [snd]. destruct v as [fx ax]. cbn [fst snd] in *.
    destruct (Z.leb_spec 5 t); [lia|]. f_equal. exact (vals_set _ _ _ _ (mk_dobj (o_fields o) 0 0, (fx, AdvNone)) D).
  - destruct (block objs x) as [o|] eqn:B; [|exact I]. exists ts. split; [exact R|]. intros _. destruct (rep_in _ _ _ _ R B) as (v & Iv). pose proof (rep_good _ _ _ _ _ R Iv) as (_ & H2 & _). cbn [vstep]. rewrite (rep_value _ _ _ _ _ R Iv). destruct v as [fx ax]. cbn [snd] in H2. rewrite H2. reflexivity.
  - destruct (block objs x) as [o|] eqn:B; [|exact I]. destruct (structured t) eqn:St; [|exact I]. destruct (rep_in _ _ _ _ R B) as (v & Iv). pose proof (rep_good _ _ _ _ _ R Iv) as (_ & H2 & H3 & _). destruct v as [fx ax]. cbn [snd] in *.
    destruct (Z.eqb_spec (o_type o) t) as [<-|Nt]; cbn [negb].
    + rewrite H3 in St. pose proof (deref_rep _ _ _ _ _ _ R Iv St) as De. cbn [snd] in De. rewrite De. exists ts. split; [exact R|]. intros _. cbn [vstep]. rewrite (rep_value _ _ _ _ _ R Iv). rewrite H2, Z.eqb_refl. reflexivity.
    + exists ts. split; [exact R|]. intros _. cbn [vstep]. rewrite (rep_value _ _ _ _ _ R Iv). destruct (Z.eqb_spec (advanced_type ax) t); [congruence|reflexivity].
  - destruct (block objs x) as [o|] eqn:B; [|exact I]. destruct (rep_split _ _ _ _ R B) as (t1 & t2 & v & ->). destruct (free_rep _ _ _ _ _ _ R) as (h' & Ef & R1). cbn [fst snd] in Ef, R1. rewrite Ef.
    exists (t1 ++ t2). split; [|intros _; cbn [vstep]; f_equal; apply (vals_removed _ _ _ _ D)]. pose proof (rep_remove _ _ _ _ _ _ R1 eq_refl) as R2. cbn [fst snd] in R2. rewrite remove_set in R2. exact R2.
Qed.
Lemma run_rep ops : forall s ts, rep s ts ->
  match drun ops s with
  | Done s' os => exists ts', rep s' ts' /\ (Forall plain ops -> vrun ops (vals_of ts) = (vals_of ts', os))
  | Bug => False | Outside => True end.
Proof.
  induction ops as [|op ops IH]; intros s ts R; cbn [drun].
  - exists ts. split; [exact R|]. reflexivity.
  - pose proof (step_rep _ _ op R) as K. destruct (dstep s op) as [s1 o| |]; [|exact K|exact I]. destruct K as (ts1 & R1 & V1).
    pose proof (IH _ _ R1) as K. destruct (drun ops s1) as [s2 os| |]; [|exact K|exact I]. destruct K as (ts2 & R2 & V2).
    exists ts2. split; [exact R2|]. intros P. inversion P; subst. cbn [vrun]. rewrite V1 by assumption. rewrite V2 by assumption. reflexivity.
Qed.
Lemma rep_start : rep ([], []) [].
Proof. split; [reflexivity|]. split; [constructor|]. split; [constructor|]. split; [constructor|]. split; [intros []|constructor]. Qed.
Lemma rep_owners s ts : rep s ts -> zlen (snd s) = owners (fst s).
Proof.
  intros (E & P & _ & _ & _ & G). unfold owners, zlen. rewrite (Permutation_length P), E. f_equal. clear E P. unfold objs_of, mapv. induction G as [|[x [o v]] ts Hg G IH]; [reflexivity|].
  cbn [flat_map map filter fst snd]. destruct Hg as (_ & _ & H3 & _). rewrite H3. unfold own at 1. cbn [fst snd]. destruct (detailed (snd v)); cbn [app length]; rewrite ?IH; reflexivity.
Qed.
Lemma rep_holds s ts : rep s ts -> Forall2 (fun b v => fst b = fst v /\ holds_value (snd s) (snd b) (snd v)) (fst s) (vals_of ts).
Proof.
  intros R. pose proof R as (E & P & _ & Dh & _ & G). rewrite E. assert (K : forall l, incl l ts -> Forall2 (fun b v => fst b = fst v /\ holds_value (snd s) (snd b) (snd v)) (objs_of l) (vals_of l)).
  { induction l as [|[x [o [f a]]] l IH]; intros IN; [constructor|]. constructor; [|apply IH; intros b Ib; apply IN; right; exact Ib]. split; [reflexivity|]. cbn [fst snd].
    pose proof (IN _ (or_introl eq_refl)) as I1. pose proof (rep_good _ _ _ _ _ R I1) as (G1 & G2 & _). split; [exact G1|]. split; [exact G2|]. cbn [snd]. intros Da.
    apply block_some; [exact Dh|]. apply (Permutation_in _ (Permutation_sym P)). apply in_flat_map. exists (x, (o, (f, a))). split; [exact I1|]. unfold own. cbn [fst snd]. rewrite Da. left. reflexivity. }
  apply K, incl_refl.
Qed.
Lemma debug_memory ops : drun ops ([], []) <> Bug /\ forall objs h os, drun ops ([], []) = Done (objs, h) os -> zlen h = owners objs /\ (objs = [] -> h = []).
Proof.
  pose proof (run_rep ops _ _ rep_start) as K. destruct (drun ops ([], [])) as [[objs' h'] os'| |] eqn:E; [|contradiction|split; discriminate]. split; [discriminate|].
  intros objs h os H. injection H as <- <- <-. destruct K as (ts & R & _). pose proof (rep_owners _ _ R) as L. cbn [fst snd] in L. split; [exact L|]. intros ->. unfold owners, zlen in L. cbn in L. destruct h'; [reflexivity|cbn in L; lia].
Qed.
Lemma debug_values ops objs h os : Forall plain ops -> drun ops ([], []) = Done (objs, h) os ->
  snd (vrun ops []) = os /\ Forall2 (fun b v => fst b = fst v /\ holds_value h (snd b) (snd v)) objs (fst (vrun ops [])).
Proof.
  intros P E. pose proof (run_rep ops _ _ rep_start) as K. rewrite E in K. destruct K as (ts & R & V). specialize (V P). change (vals_of []) with (@nil (Z * dvalue)) in V. rewrite V. split; [reflexivity|]. exact (rep_holds _ _ R).
Qed.
