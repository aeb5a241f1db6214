(** Facts about the memory of resource directory entries (C71). *)
From Verif Require Export SpecOwnTree OwnFacts.
Require Import Permutation.

(** ** Blocks *)
Lemma nodup_app {A} (l m : list A) : NoDup (l ++ m) <-> NoDup l /\ NoDup m /\ (forall x, In x l -> ~ In x m).
Proof.
  induction l as [|y l IH]; cbn [app].
  - split; [intros D; split; [constructor|]; split; [exact D|]; intros x []|tauto].
  - split.
    + intros D. inversion D as [|? ? N D']; subst. apply IH in D' as (D1 & D2 & D3). rewrite in_app_iff in N. split; [constructor; tauto|]. split; [exact D2|]. intros x [<-|K]; [tauto|apply D3, K].
    + intros (D & E & N). inversion D as [|? ? N' D']; subst. constructor; [|apply IH; split; [exact D'|]; split; [exact E|]; intros x K; apply N; right; exact K]. rewrite in_app_iff. intros [K|K]; [contradiction|]. apply (N y); [left; reflexivity|exact K].
Qed.
Section Blocks.
Context {A : Type}.
Implicit Types h : heap A.
Lemma block_cons a c h x : block ((a, c) :: h) x = if a =? x then Some c else block h x.
Proof. unfold block. cbn [find fst]. destruct (a =? x); reflexivity. Qed.
Lemma block_set h a c x : block (set_block h a c) x = if a =? x then (if in_dec Z.eq_dec a (keys h) then Some c else None) else block h x.
Proof.
  induction h as [|[y d] h IH]; [destruct (a =? x); reflexivity|]. unfold set_block in *. cbn [map fst keys]. destruct (Z.eqb_spec y a) as [->|N].
  - rewrite !block_cons. destruct (Z.eqb_spec a x) as [->|N']; [destruct (in_dec Z.eq_dec x (x :: map fst h)) as [|K]; [reflexivity|]; exfalso; apply K; left; reflexivity|]. rewrite IH. replace (a =? x) with false by lia. reflexivity.
  - rewrite !block_cons. rewrite IH. destruct (Z.eqb_spec y x) as [->|N']; [replace (a =? x) with false by lia; reflexivity|].
    destruct (a =? x); [|reflexivity]. destruct (in_dec Z.eq_dec a (keys h)) as [K|K], (in_dec Z.eq_dec a (y :: map fst h)) as [K'|K']; try reflexivity; exfalso; cbn in K'; unfold keys in *; intuition congruence.
Qed.
Lemma block_set_same h a c d : block h a = Some d -> block (set_block h a c) a = Some c.
Proof.
  intros H. rewrite block_set, Z.eqb_refl. destruct (in_dec Z.eq_dec a (keys h)) as [|K]; [reflexivity|]. apply block_none in K. congruence.
Qed.
Lemma block_set_other h a c x : x <> a -> block (set_block h a c) x = block h x.
Proof. intros H. rewrite block_set. replace (a =? x) with false by lia. reflexivity. Qed.
Lemma keys_set h a c : keys (set_block h a c) = keys h.
Proof. unfold keys, set_block. rewrite map_map. apply map_ext. intros [y d]. cbn. destruct (Z.eqb_spec y a) as [->|]; reflexivity. Qed.
Lemma block_app l h x : block (l ++ h) x = match block l x with Some c => Some c | None => block h x end.
Proof. induction l as [|[y d] l IH]; [reflexivity|]. cbn [app]. rewrite !block_cons. destruct (y =? x); [reflexivity|apply IH]. Qed.
Lemma block_key h x c : block h x = Some c -> In x (keys h).
Proof. intros H. destruct (in_dec Z.eq_dec x (keys h)) as [|K]; [assumption|]. apply block_none in K. congruence. Qed.
(** All blocks with these addresses are gone. *)
Definition without (fp : list Z) h : heap A := filter (fun b => if in_dec Z.eq_dec (fst b) fp then false else true) h.
Lemma without_nil h : without [] h = h.
Proof. unfold without. induction h as [|b h IH]; [reflexivity|]. cbn. f_equal. exact IH. Qed.
Lemma without_app f g h : without (f ++ g) h = without g (without f h).
Proof.
  unfold without. induction h as [|b h IH]; [reflexivity|]. cbn [filter]. destruct (in_dec Z.eq_dec (fst b) (f ++ g)) as [K|K], (in_dec Z.eq_dec (fst b) f) as [L|L]; cbn [filter];
    try (exfalso; apply K; apply in_or_app; tauto); try exact IH; destruct (in_dec Z.eq_dec (fst b) g) as [M|M]; try exact IH; try (exfalso; apply in_app_or in K; tauto); try (exfalso; apply K; apply in_or_app; tauto).
  f_equal. exact IH.
Qed.
Lemma without_one a h : without [a] h = unblock h a.
Proof.
  unfold without, unblock. apply filter_ext. intros [y d]. cbn [fst]. destruct (in_dec Z.eq_dec y [a]) as [K|K]; cbn in K; destruct (Z.eqb_spec y a); try reflexivity; exfalso; intuition congruence.
Qed.
Lemma without_perm f g h : Permutation f g -> without f h = without g h.
Proof.
  intros P. apply filter_ext. intros [y d]. cbn [fst]. destruct (in_dec Z.eq_dec y f) as [K|K], (in_dec Z.eq_dec y g) as [L|L]; try reflexivity; exfalso.
  - apply L, (Permutation_in _ P K).
  - apply K, (Permutation_in _ (Permutation_sym P) L).
Qed.
Lemma block_without fp h x : ~ In x fp -> block (without fp h) x = block h x.
Proof.
  intros N. unfold without. induction h as [|[y d] h IH]; [reflexivity|]. cbn [filter fst]. rewrite block_cons. destruct (in_dec Z.eq_dec y fp) as [K|K]; [|rewrite block_cons, IH; reflexivity].
  destruct (Z.eqb_spec y x) as [->|]; [contradiction|exact IH].
Qed.
Lemma keys_without fp h : keys (without fp h) = filter (fun x => if in_dec Z.eq_dec x fp then false else true) (keys h).
Proof. unfold without, keys. induction h as [|[y d] h IH]; [reflexivity|]. cbn [filter map fst]. destruct (in_dec Z.eq_dec y fp); cbn [map fst]; rewrite IH; reflexivity. Qed.
Lemma nodup_without fp h : NoDup (keys h) -> NoDup (keys (without fp h)).
Proof. rewrite keys_without. apply NoDup_filter. Qed.
Lemma in_without fp h x : In x (keys (without fp h)) <-> In x (keys h) /\ ~ In x fp.
Proof. rewrite keys_without, filter_In. destruct (in_dec Z.eq_dec x fp); intuition congruence. Qed.
Lemma perm_without fp r h : NoDup (keys h) -> Permutation (keys h) (r ++ fp) -> Permutation (keys (without fp h)) r.
Proof.
  intros D P. pose proof (Permutation_NoDup P D) as D'. apply NoDup_Permutation; [apply nodup_without, D|apply nodup_app in D'; apply D'|]. intros x. rewrite in_without. apply nodup_app in D' as (_ & _ & D'). split.
  - intros [K N]. apply (Permutation_in _ P) in K. apply in_app_or in K. tauto.
  - intros K. split; [apply (Permutation_in _ (Permutation_sym P)), in_or_app; left; exact K|apply D', K].
Qed.
Lemma without_new l h fp : Permutation fp (keys l) -> (forall a, In a (keys l) -> ~ In a (keys h)) -> without fp (l ++ h) = h.
Proof.
  intros P F. rewrite (without_perm _ _ _ P). unfold without. rewrite filter_app. assert (E1 : forall m, (forall a, In a (keys m) -> In a (keys l)) -> filter (fun b : Z * A => if in_dec Z.eq_dec (fst b) (keys l) then false else true) m = []).
  { induction m as [|[y d] m IH]; [reflexivity|]. intros K. cbn [filter fst]. destruct (in_dec Z.eq_dec y (keys l)) as [_|N]; [apply IH; intros a Ia; apply K; right; exact Ia|]. exfalso. apply N, K. left. reflexivity. }
  rewrite E1 by (intros a Ia; exact Ia). cbn [app]. clear E1 P. induction h as [|[y d] h IH]; [reflexivity|]. cbn [filter fst]. destruct (in_dec Z.eq_dec y (keys l)) as [K|_]; [exfalso; apply (F y K); left; reflexivity|].
  f_equal. apply IH. intros a Ia L. apply (F a Ia). right. exact L.
Qed.
End Blocks.

(** ** What an entry owns *)
Section Trees.
Implicit Types h : heap cell.
Inductive owns h : rent -> rvalue -> list Z -> Prop :=
| own_none id name incl named : owns h (mk_rent id name incl named 0) (RV id name incl named NoContent) []
| own_data id name named a cp d : a <> 0 -> block h a = Some (CData cp d) -> owns h (mk_rent id name true named a) (RV id name true named (DataOf cp d)) [a]
| own_dir0 id name named a info nn ni : a <> 0 -> block h a = Some (CDir info nn ni 0) -> owns h (mk_rent id name false named a) (RV id name false named (DirOf info nn ni [])) [a]
| own_dir id name named a info nn ni b l vs fp : a <> 0 -> b <> 0 -> block h a = Some (CDir info nn ni b) -> block h b = Some (CBuf l) -> ownl h l vs fp ->
    owns h (mk_rent id name false named a) (RV id name false named (DirOf info nn ni vs)) (a :: b :: fp)
with ownl h : list rent -> list rvalue -> list Z -> Prop :=
| own_nil : ownl h [] [] []
| own_cons e v f l vs fp : owns h e v f -> ownl h l vs fp -> ownl h (e :: l) (v :: vs) (f ++ fp).
End Trees.
Scheme owns_mind := Induction for owns Sort Prop with ownl_mind := Induction for ownl Sort Prop.
Combined Scheme own_mind from owns_mind, ownl_mind.
Definition agree (h H : heap cell) (fp : list Z) : Prop := forall a, In a fp -> block H a = block h a.
Lemma agree_app h H f g : agree h H (f ++ g) -> agree h H f /\ agree h H g.
Proof. intros K. split; intros a Ia; apply K, in_or_app; tauto. Qed.
Lemma own_agree_both h : (forall e v fp, owns h e v fp -> forall H, agree h H fp -> owns H e v fp) /\ (forall l vs fp, ownl h l vs fp -> forall H, agree h H fp -> ownl H l vs fp).
Proof.
  apply own_mind.
  - intros. constructor.
  - intros id name named a cp d N E H K. constructor; [exact N|]. rewrite (K a) by (left; reflexivity). exact E.
  - intros id name named a info nn ni N E H K. apply own_dir0; [exact N|]. rewrite (K a) by (left; reflexivity). exact E.
  - intros id name named a info nn ni b l vs fp N Nb E Eb O IH H K. apply own_dir with (l := l); try assumption.
    + rewrite (K a) by (left; reflexivity). exact E.
    + rewrite (K b) by (right; left; reflexivity). exact Eb.
    + apply IH. intros x Ix. apply K. right. right. exact Ix.
  - intros. constructor.
  - intros e v f l vs fp O IH Ol IHl H K. apply agree_app in K as [K1 K2]. constructor; auto.
Qed.
Lemma owns_agree h H e v fp : owns h e v fp -> agree h H fp -> owns H e v fp. Proof. intros O. apply (proj1 (own_agree_both h) _ _ _ O). Qed.
Lemma ownl_agree h H l vs fp : ownl h l vs fp -> agree h H fp -> ownl H l vs fp. Proof. intros O. apply (proj2 (own_agree_both h) _ _ _ O). Qed.
Lemma own_live_both h : (forall e v fp, owns h e v fp -> forall a, In a fp -> a <> 0 /\ exists c, block h a = Some c) /\ (forall l vs fp, ownl h l vs fp -> forall a, In a fp -> a <> 0 /\ exists c, block h a = Some c).
Proof.
  apply own_mind.
  - intros id name incl named x [].
  - intros id name named a cp d N E x [<-|[]]. eauto.
  - intros id name named a info nn ni N E x [<-|[]]. eauto.
  - intros id name named a info nn ni b l vs fp N Nb E Eb O IH x [<-|[<-|K]]; eauto.
  - intros x [].
  - intros e v f l vs fp O IH Ol IHl x K. apply in_app_or in K as [K|K]; eauto.
Qed.
Lemma owns_live h e v fp a : owns h e v fp -> In a fp -> a <> 0 /\ In a (keys h).
Proof. intros O K. destruct (proj1 (own_live_both h) _ _ _ O a K) as (N & c & E). split; [exact N|]. apply (block_key _ _ _ E). Qed.
Lemma ownl_live h l vs fp a : ownl h l vs fp -> In a fp -> a <> 0 /\ In a (keys h).
Proof. intros O K. destruct (proj2 (own_live_both h) _ _ _ O a K) as (N & c & E). split; [exact N|]. apply (block_key _ _ _ E). Qed.

(** ** Destruction *)
Lemma release_both h :
  (forall e v fp, owns h e v fp -> forall H n, agree h H fp -> NoDup fp -> (length fp <= n)%nat -> release n H e = Some (without fp H)) /\
  (forall l vs fp, ownl h l vs fp -> forall H n, agree h H fp -> NoDup fp -> (length fp <= n)%nat -> free_each (release n) H l = Some (without fp H)).
Proof.
  apply own_mind.
  - intros id name incl named H n _ _ _. rewrite without_nil. destruct n; reflexivity.
  - intros id name named a cp d N E H n K _ L. destruct n as [|n]; [cbn in L; lia|]. cbn [release e_ptr e_incl]. replace (a =? 0) with false by lia. rewrite (K a) by (left; reflexivity). rewrite E, without_one. reflexivity.
  - intros id name named a info nn ni N E H n K _ L. destruct n as [|n]; [cbn in L; lia|]. cbn [release e_ptr e_incl]. replace (a =? 0) with false by lia. rewrite (K a) by (left; reflexivity). rewrite E, without_one. reflexivity.
  - intros id name named a info nn ni b l vs fp N Nb E Eb O IH H n K D L. destruct n as [|n]; [cbn in L; lia|]. cbn [length] in L. cbn [release e_ptr e_incl]. replace (a =? 0) with false by lia.
    rewrite (K a) by (left; reflexivity). rewrite E. unfold elements. replace (b =? 0) with false by lia. rewrite (K b) by (right; left; reflexivity). rewrite Eb.
    inversion D as [|? ? D1 D2]; subst. inversion D2 as [|? ? D3 D4]; subst. rewrite (IH H n) by (try assumption; try lia; intros x Ix; apply K; right; right; exact Ix).
    rewrite <- !without_one, <- !without_app. f_equal. apply without_perm. cbn [app]. etransitivity; [apply Permutation_app_comm|]. cbn. apply perm_swap.
  - intros H n _ _ _. cbn [free_each]. rewrite without_nil. reflexivity.
  - intros e v f l vs fp O IH Ol IHl H n K D L. apply agree_app in K as [K1 K2]. apply nodup_app in D as (D1 & D2 & D3). rewrite app_length in L. cbn [free_each]. rewrite (IH H n) by (try assumption; lia).
    rewrite (IHl (without f H) n), without_app; try assumption; try reflexivity; try lia. intros x Ix. rewrite block_without; [apply K2, Ix|]. intros If. exact (D3 x If Ix).
Qed.
Lemma owned_levels h (fp : list Z) : NoDup fp -> (forall a, In a fp -> In a (keys h)) -> (length fp <= levels h)%nat.
Proof. intros D I. unfold levels. pose proof (NoDup_incl_length D I) as L. unfold keys in L. rewrite map_length in L. lia. Qed.
Lemma release_owns h e v fp : owns h e v fp -> NoDup fp -> release (levels h) h e = Some (without fp h).
Proof. intros O D. apply (proj1 (release_both h) _ _ _ O); [intros a _; reflexivity|exact D|]. apply owned_levels; [exact D|]. intros a K. apply (owns_live _ _ _ _ _ O K). Qed.
Lemma release_ownl h l vs fp : ownl h l vs fp -> NoDup fp -> free_each (release (levels h)) h l = Some (without fp h).
Proof. intros O D. apply (proj2 (release_both h) _ _ _ O); [intros a _; reflexivity|exact D|]. apply owned_levels; [exact D|]. intros a K. apply (ownl_live _ _ _ _ _ O K). Qed.

(** ** Copies *)
Lemma ownl_app h l vs f l' vs' f' : ownl h l vs f -> ownl h l' vs' f' -> ownl h (l ++ l') (vs ++ vs') (f ++ f').
Proof. intros O O'. induction O as [|e v g l vs fp Oe Ol IH]; [exact O'|]. cbn [app]. rewrite <- app_assoc. constructor; assumption. Qed.
Lemma ownl_one h e v f : owns h e v f -> ownl h [e] [v] f.
Proof. intros O. rewrite <- (app_nil_r f). constructor; [exact O|constructor]. Qed.
(** [hn] is new memory besides [H], of the addresses [fp]. *)
Definition added (H hn : heap cell) (fp : list Z) : Prop := Permutation fp (keys hn) /\ NoDup (keys hn) /\ forall a, In a (keys hn) -> a <> 0 /\ ~ In a (keys H).
Lemma added_none H : added H [] []. Proof. split; [constructor|]. split; [constructor|]. intros a []. Qed.
Lemma added_app H hn fp hm fq : added H hn fp -> added (hn ++ H) hm fq -> added H (hm ++ hn) (fp ++ fq).
Proof.
  intros (P & D & F) (Q & E & G). split; [|split].
  - rewrite keys_app. etransitivity; [apply Permutation_app_comm|]. apply Permutation_app; assumption.
  - rewrite keys_app. apply nodup_app. split; [exact E|]. split; [exact D|]. intros x K L. destruct (G x K) as [_ N]. apply N. rewrite keys_app. apply in_or_app. left. exact L.
  - intros a K. rewrite keys_app in K. apply in_app_or in K as [K|K]; [|apply F, K]. destruct (G a K) as [N M]. split; [exact N|]. intros L. apply M. rewrite keys_app. apply in_or_app. right. exact L.
Qed.
Lemma added_agree H hn fp f : added H hn fp -> (forall a, In a f -> In a (keys H)) -> agree H (hn ++ H) f.
Proof. intros (_ & _ & F) L a K. rewrite block_app. destruct (block hn a) as [c|] eqn:E; [|reflexivity]. exfalso. apply (F a); [apply (block_key _ _ _ E)|apply L, K]. Qed.
Lemma added_new H hn fp : added H hn fp -> without fp (hn ++ H) = H.
Proof. intros (P & _ & F). apply without_new; [exact P|]. intros a K. apply F, K. Qed.
Lemma added_owned H hn fp : added H hn fp -> agree hn (hn ++ H) fp.
Proof.
  intros (P & _ & _) a K. rewrite block_app. destruct (block hn a) as [c|] eqn:E; [reflexivity|]. apply block_none in E. exfalso. apply E, (Permutation_in _ P), K.
Qed.
Lemma agree_trans h H G f : agree h H f -> agree H G f -> agree h G f. Proof. intros A B a K. rewrite (B a K). apply A, K. Qed.
Definition copied (H : heap cell) (v : rvalue) (r : made rent) : Prop :=
  match r with MOk H' _ e' => exists hn fp, H' = hn ++ H /\ added H hn fp /\ owns hn e' v fp | MNoMemory H' => H' = H | MBug => False | MOutside => True end.
Definition copiedl (H : heap cell) (vs : list rvalue) (r : made (list rent)) : Prop :=
  match r with MOk H' _ l' => exists hn fp, H' = hn ++ H /\ added H hn fp /\ ownl hn l' vs fp | MNoMemory H' => H' = H | MBug => False | MOutside => True end.
Lemma new_spec H news c : match new_cell H news c with MOk H' _ a => H' = (a, c) :: H /\ a <> 0 /\ ~ In a (keys H) | MNoMemory H' => H' = H | MBug => False | MOutside => True end.
Proof. unfold new_cell. destruct news as [|[a|] t]; [exact I| |reflexivity]. destruct (fresh H a) eqn:E; [|exact I]. apply fresh_spec in E. tauto. Qed.
Lemma unblock_new H (a : Z) (c : cell) : ~ In a (keys H) -> unblock ((a, c) :: H) a = H.
Proof. intros N. unfold unblock. cbn [filter fst]. rewrite Z.eqb_refl. cbn [negb]. apply unblock_out, N. Qed.
Lemma copy_both h :
  (forall e v fp, owns h e v fp -> forall H n news, agree h H fp -> (length fp <= n)%nat -> copied H v (copy_entry n H news e)) /\
  (forall l vs fp, ownl h l vs fp -> forall H n news H0 done dvs dfp hd, agree h H fp -> (length fp <= n)%nat -> H = hd ++ H0 -> added H0 hd dfp -> ownl hd done dvs dfp ->
     copiedl H0 (dvs ++ vs) (copy_each (copy_entry n) H news l done)).
Proof.
  apply own_mind.
  - intros id name incl named H n news _ _. destruct n; cbn [copy_entry e_ptr]; rewrite Z.eqb_refl; exists [], []; (split; [reflexivity|]); (split; [apply added_none|constructor]).
  - intros id name named a cp d N E H n news K L. destruct n as [|n]; [cbn in L; lia|]. cbn [copy_entry e_ptr e_incl]. replace (a =? 0) with false by lia. rewrite (K a) by (left; reflexivity). rewrite E.
    pose proof (new_spec H news (CData cp d)) as S. destruct (new_cell H news (CData cp d)) as [H' news' a'|H'| |]; try exact S. destruct S as (-> & N1 & N2).
    exists [(a', CData cp d)], [a']. split; [reflexivity|]. split; [split; [constructor; constructor|]; split; [constructor; [intros []|constructor]|]; intros x [<-|[]]; split; assumption|].
    constructor; [exact N1|]. rewrite block_cons, Z.eqb_refl. reflexivity.
  - intros id name named a info nn ni N E H n news K L. destruct n as [|n]; [cbn in L; lia|]. cbn [copy_entry e_ptr e_incl]. replace (a =? 0) with false by lia. rewrite (K a) by (left; reflexivity). rewrite E. cbn [elements Z.eqb].
    pose proof (new_spec H news (CDir info nn ni 0)) as S. destruct (new_cell H news (CDir info nn ni 0)) as [H' news' a'|H'| |]; try exact S. destruct S as (-> & N1 & N2).
    exists [(a', CDir info nn ni 0)], [a']. split; [reflexivity|]. split; [split; [constructor; constructor|]; split; [constructor; [intros []|constructor]|]; intros x [<-|[]]; split; assumption|].
    apply own_dir0; [exact N1|]. rewrite block_cons, Z.eqb_refl. reflexivity.
  - intros id name named a info nn ni b l vs fp N Nb E Eb O IH H n news K L. destruct n as [|n]; [cbn in L; lia|]. cbn [length] in L. cbn [copy_entry e_ptr e_incl]. replace (a =? 0) with false by lia.
    rewrite (K a) by (left; reflexivity). rewrite E. unfold elements. replace (b =? 0) with false by lia. rewrite (K b) by (right; left; reflexivity). rewrite Eb.
    pose proof (new_spec H news (CDir info nn ni 0)) as S. destruct (new_cell H news (CDir info nn ni 0)) as [H1 news1 a'|H1| |]; try exact S. destruct S as (-> & N1 & N2).
    destruct l as [|e0 l0] eqn:El.
    + inversion O; subst. exists [(a', CDir info nn ni 0)], [a']. split; [reflexivity|]. split; [split; [constructor; constructor|]; split; [constructor; [intros []|constructor]|]; intros x [<-|[]]; split; assumption|].
      apply own_dir0; [exact N1|]. rewrite block_cons, Z.eqb_refl. reflexivity.
    + rewrite <- El in *. clear El e0 l0. set (H1 := (a', CDir info nn ni 0) :: H) in *.
      pose proof (new_spec H1 news1 (CBuf [])) as S. destruct (new_cell H1 news1 (CBuf [])) as [H2 news2 b'|H2| |]; try exact S; [|rewrite S; subst H1; apply unblock_new, N2]. destruct S as (-> & M1 & M2).
      assert (K2 : agree h ((b', CBuf []) :: H1) fp).
      { intros x Ix. assert (Kx : block H x = block h x) by (apply K; right; right; exact Ix). assert (Lx : In x (keys H)) by (destruct (proj2 (own_live_both h) _ _ _ O x Ix) as (_ & c & Ec); rewrite Ec in Kx; apply (block_key _ _ _ Kx)).
        unfold H1. rewrite !block_cons. destruct (Z.eqb_spec b' x) as [->|_]; [exfalso; apply M2; right; exact Lx|]. destruct (Z.eqb_spec a' x) as [->|_]; [contradiction|]. exact Kx. }
      pose proof (IH ((b', CBuf []) :: H1) n news2 ((b', CBuf []) :: H1) [] [] [] [] K2 ltac:(lia) eq_refl (added_none _) (own_nil _)) as C. cbn [app] in C.
      destruct (copy_each (copy_entry n) ((b', CBuf []) :: H1) news2 l []) as [H3 news3 l'|H3| |]; try exact C.
      * destruct C as (hn & fn & -> & (P & D & F) & Ol).
        assert (Na : ~ In a' (keys hn)) by (intros Q; apply (F a' Q); right; left; reflexivity). assert (Nb' : ~ In b' (keys hn)) by (intros Q; apply (F b' Q); left; reflexivity).
        assert (Nab : b' <> a') by (intros ->; apply M2; left; reflexivity). assert (NbH : ~ In b' (keys H)) by (intros Q; apply M2; right; exact Q).
        exists (hn ++ [(b', CBuf l'); (a', CDir info nn ni b')]), (a' :: b' :: fn). split; [|split].
        -- unfold H1. rewrite !set_app. rewrite (set_out hn b') by assumption. rewrite (set_out hn a') by assumption. unfold set_block. cbn [map fst]. rewrite Z.eqb_refl. replace (a' =? b') with false by lia. cbn [map fst]. replace (b' =? a') with false by lia. rewrite Z.eqb_refl.
           fold (set_block H b' (CBuf l')). rewrite (set_out H b') by assumption. fold (set_block H a' (CDir info nn ni b')). rewrite (set_out H a') by assumption. rewrite <- app_assoc. reflexivity.
        -- split; [|split].
           ++ rewrite keys_app. cbn [keys map fst]. etransitivity; [|apply Permutation_app_comm]. cbn [app]. etransitivity; [apply perm_swap|]. constructor. constructor. exact P.
           ++ rewrite keys_app. apply nodup_app. split; [exact D|]. split; [cbn; constructor; [intros [Q|[]]; congruence|constructor; [intros []|constructor]]|]. intros x Ix [<-|[<-|[]]]; contradiction.
           ++ intros x Ix. rewrite keys_app in Ix. apply in_app_or in Ix as [Ix|[<-|[<-|[]]]]; [|split; assumption..]. destruct (F x Ix) as [F1 F2]. split; [exact F1|]. intros Q. apply F2. right. right. exact Q.
        -- apply own_dir with (l := l'); try assumption.
           ++ rewrite block_app. rewrite (proj2 (block_none hn a') Na). rewrite !block_cons. replace (b' =? a') with false by lia. rewrite Z.eqb_refl. reflexivity.
           ++ rewrite block_app. rewrite (proj2 (block_none hn b') Nb'). rewrite block_cons, Z.eqb_refl. reflexivity.
           ++ apply (ownl_agree hn); [exact Ol|]. intros x Ix. rewrite block_app. destruct (block hn x) as [c|] eqn:Ec; [reflexivity|]. apply block_none in Ec. exfalso. apply Ec, (Permutation_in _ P), Ix.
      * cbn [copied]. rewrite C. rewrite unblock_new by exact M2. unfold H1. apply unblock_new, N2.
  - intros H n news H0 done dvs dfp hd _ _ -> A O. cbn [copy_each]. rewrite app_nil_r. exists hd, dfp. auto.
  - intros e v f l vs fp O IH Ol IHl H n news H0 done dvs dfp hd K L EH A Od. apply agree_app in K as [K1 K2]. rewrite app_length in L. cbn [copy_each].
    pose proof (IH H n news K1 ltac:(lia)) as C. destruct (copy_entry n H news e) as [H' news' e'|H'| |]; try exact C.
    + destruct C as (hn & fn & -> & An & On). subst H. rewrite (app_assoc hn hd H0).
      replace (dvs ++ v :: vs) with ((dvs ++ [v]) ++ vs) by (rewrite <- app_assoc; reflexivity). assert (AA : added H0 (hn ++ hd) (dfp ++ fn)) by (apply added_app; assumption).
      eapply IHl; [|lia|reflexivity|exact AA|].
      * intros x Ix. rewrite <- app_assoc. rewrite (added_agree _ _ _ [x] An); [apply K2, Ix| |left; reflexivity]. intros y [<-|[]]. pose proof (K2 x Ix) as Kx. destruct (proj2 (own_live_both h) _ _ _ Ol x Ix) as (_ & c & Ec). rewrite Ec in Kx. apply (block_key _ _ _ Kx).
      * apply ownl_app.
        -- apply (ownl_agree hd); [exact Od|]. intros x Ix. apply (added_agree hd hn fn [x]); [|intros y [<-|[]]; apply (ownl_live _ _ _ _ _ Od Ix)|left; reflexivity].
           destruct An as (P & D & F). split; [exact P|]. split; [exact D|]. intros a Ia. destruct (F a Ia) as [F1 F2]. split; [exact F1|]. intros Q. apply F2. rewrite keys_app. apply in_or_app. left. exact Q.
        -- apply ownl_one. apply (owns_agree hn); [exact On|]. destruct An as (P & _). intros x Ix. rewrite block_app. destruct (block hn x) as [c|] eqn:Ec; [reflexivity|]. apply block_none in Ec. exfalso. apply Ec, (Permutation_in _ P), Ix.
    + cbn [copied] in C. subst H'. subst H. pose proof (added_owned _ _ _ A) as B. destruct A as (P & D & F). assert (Dd : NoDup dfp) by (apply (Permutation_NoDup (Permutation_sym P)), D).
      rewrite (release_ownl (hd ++ H0) done dvs dfp); [|apply (ownl_agree hd); assumption|exact Dd]. apply (added_new H0 hd dfp). split; [exact P|]. split; assumption.
Qed.
Lemma copy_owns h e v fp news : owns h e v fp -> NoDup fp -> copied h v (copy_entry (levels h) h news e).
Proof. intros O D. apply (proj1 (copy_both h) _ _ _ O); [intros a _; reflexivity|]. apply owned_levels; [exact D|]. intros a K. apply (owns_live _ _ _ _ _ O K). Qed.
Lemma copy_ownl h l vs fp news : ownl h l vs fp -> NoDup fp -> copiedl h vs (copy_each (copy_entry (levels h)) h news l []).
Proof.
  intros O D. apply (proj2 (copy_both h) _ _ _ O h (levels h) news h [] [] [] []); try reflexivity; [intros a _; reflexivity| |apply added_none|constructor].
  apply owned_levels; [exact D|]. intros a K. apply (ownl_live _ _ _ _ _ O K).
Qed.
