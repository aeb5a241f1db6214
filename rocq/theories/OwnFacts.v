(** Facts about programs with debug_info objects and images. *)
From Verif Require Export SpecOwn BaseFacts.
Require Import Permutation.

(** ** Association lists *)
Section Assoc.
Context {A : Type}.
Implicit Types l : list (Z * A).
Definition keys l : list Z := map fst l.
Lemma block_in l x a : block l x = Some a -> In (x, a) l.
Proof.
  unfold block. destruct (find _ l) as [[y b]|] eqn:E; [|discriminate]. cbn. intros H. injection H as <-. apply find_some in E as [I E]. cbn [fst] in E. apply Z.eqb_eq in E as ->. exact I.
Qed.
Lemma block_none l x : block l x = None <-> ~ In x (keys l).
Proof.
  unfold block, keys. induction l as [|[y b] l IH]; cbn; [tauto|]. destruct (Z.eqb_spec y x) as [->|N]; cbn; [split; [discriminate|tauto]|]. rewrite IH. tauto.
Qed.
Lemma block_some l x a : NoDup (keys l) -> In (x, a) l -> block l x = Some a.
Proof.
  unfold block, keys. induction l as [|[y b] l IH]; cbn; [tauto|]. intros D [H|H].
  - injection H as -> ->. rewrite Z.eqb_refl. reflexivity.
  - inversion D; subst. destruct (Z.eqb_spec y x) as [->|N]; [exfalso; apply (in_map fst) in H; contradiction|]. apply IH; assumption.
Qed.
Lemma block_split l x a : block l x = Some a -> exists l1 l2, l = l1 ++ (x, a) :: l2 /\ ~ In x (keys l1).
Proof.
  unfold block, keys. induction l as [|[y b] l IH]; cbn; [discriminate|]. destruct (Z.eqb_spec y x) as [->|N]; cbn.
  - intros H. injection H as ->. exists [], l. split; [reflexivity|intros []].
  - intros H. destruct (IH H) as (l1 & l2 & -> & NI). exists ((y, b) :: l1), l2. split; [reflexivity|]. cbn. tauto.
Qed.
Lemma set_out l x a : ~ In x (keys l) -> set_block l x a = l.
Proof.
  unfold set_block, keys. induction l as [|[y b] l IH]; cbn; [reflexivity|]. intros H. destruct (Z.eqb_spec y x) as [->|N]; [tauto|]. rewrite IH by tauto. reflexivity.
Qed.
Lemma unblock_out l x : ~ In x (keys l) -> unblock l x = l.
Proof.
  unfold unblock, keys. induction l as [|[y b] l IH]; cbn; [reflexivity|]. intros H. destruct (Z.eqb_spec y x) as [->|N]; [tauto|]. cbn. rewrite IH by tauto. reflexivity.
Qed.
Lemma set_app l1 l2 x a : set_block (l1 ++ l2) x a = set_block l1 x a ++ set_block l2 x a. Proof. apply map_app. Qed.
Lemma keys_app l1 l2 : keys (l1 ++ l2) = keys l1 ++ keys l2. Proof. apply map_app. Qed.
Lemma unblock_app l1 l2 x : unblock (l1 ++ l2) x = unblock l1 x ++ unblock l2 x. Proof. apply filter_app. Qed.
Lemma split_set l1 l2 x a b : NoDup (keys (l1 ++ (x, a) :: l2)) -> set_block (l1 ++ (x, a) :: l2) x b = l1 ++ (x, b) :: l2.
Proof.
  rewrite keys_app. cbn. intros D. pose proof (NoDup_remove_2 _ _ _ D) as N. rewrite in_app_iff in N. rewrite set_app, set_out by tauto. cbn. rewrite Z.eqb_refl. fold (set_block l2 x b). rewrite set_out by tauto. reflexivity.
Qed.
Lemma split_unblock l1 l2 x a : NoDup (keys (l1 ++ (x, a) :: l2)) -> unblock (l1 ++ (x, a) :: l2) x = l1 ++ l2.
Proof.
  rewrite keys_app. cbn. intros D. pose proof (NoDup_remove_2 _ _ _ D) as N. rewrite in_app_iff in N. rewrite unblock_app, unblock_out by tauto. cbn. rewrite Z.eqb_refl. cbn. fold (unblock l2 x). rewrite unblock_out by tauto. reflexivity.
Qed.
Lemma split_block l1 l2 x a : NoDup (keys (l1 ++ (x, a) :: l2)) -> block (l1 ++ (x, a) :: l2) x = Some a.
Proof. intros D. apply block_some; [exact D|]. apply in_elt. Qed.
Lemma nodup_replace l1 l2 x a b : NoDup (keys (l1 ++ (x, a) :: l2)) -> NoDup (keys (l1 ++ (x, b) :: l2)).
Proof. rewrite !keys_app. cbn. tauto. Qed.
Lemma nodup_remove l1 l2 x a : NoDup (keys (l1 ++ (x, a) :: l2)) -> NoDup (keys (l1 ++ l2)).
Proof. rewrite !keys_app. cbn. apply NoDup_remove_1. Qed.
Lemma nodup_perm l l' : Permutation l l' -> NoDup (keys l) -> NoDup (keys l').
Proof. intros P. apply Permutation_NoDup, Permutation_map, P. Qed.
Lemma perm_block l l' x a : NoDup (keys l) -> Permutation l ((x, a) :: l') -> block l x = Some a.
Proof. intros D P. apply block_some; [exact D|]. apply (Permutation_in _ (Permutation_sym P)). left. reflexivity. Qed.
Lemma perm_unblock l l' x a : NoDup (keys l) -> Permutation l ((x, a) :: l') -> Permutation (unblock l x) l'.
Proof.
  intros D P. assert (NoDup (keys ((x, a) :: l'))) as D' by (eapply nodup_perm; eassumption).
  assert (Permutation (unblock l x) (unblock ((x, a) :: l') x)) as P'.
  { clear D D'. unfold unblock. induction P; cbn; [constructor|destruct (fst x0 =? x); cbn; [assumption|constructor; assumption]| |eapply Permutation_trans; eassumption].
    destruct (fst y =? x), (fst x0 =? x); cbn; try apply Permutation_refl; constructor. }
  pose proof (split_unblock [] l' x a D') as E. cbn [app] in E. rewrite E in P'. exact P'.
Qed.
Lemma nodup_unblock l x : NoDup (keys l) -> NoDup (keys (unblock l x)).
Proof.
  unfold unblock, keys. induction l as [|[y b] l IH]; cbn; [constructor|]. intros D. inversion D; subst. destruct (y =? x); cbn; [apply IH; assumption|]. constructor; [|apply IH; assumption].
  intros I. apply H1. apply in_map_iff in I as (z & E & I). apply filter_In in I as [I _]. apply in_map_iff. exists z. split; assumption.
Qed.
Lemma fresh_spec (h : heap A) a : fresh h a = true <-> a <> 0 /\ ~ In a (keys h).
Proof.
  unfold fresh. pose proof (block_none h a) as B. destruct (Z.eqb_spec a 0) as [->|N]; cbn; [split; [discriminate|tauto]|].
  destruct (block h a); [split; [discriminate|]|tauto]. intros [_ H]. apply B in H. discriminate.
Qed.
Lemma value_block l x : value_of l x = block l x. Proof. reflexivity. Qed.
Lemma update_set l x a : update l x a = set_block l x a. Proof. reflexivity. Qed.
Lemma removed_unblock l x : removed l x = unblock l x. Proof. reflexivity. Qed.
End Assoc.
