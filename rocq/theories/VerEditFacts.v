(** Facts about the version information viewer and editor. *)
From Verif Require Export SpecVerEdit.
From Verif Require Import ExportFacts BaseFacts VerRead.

(** ** Maps *)
Lemma eqb_refl k : str_eqb k k = true. Proof. apply str_eqb_eq. reflexivity. Qed.
Lemma eqb_neq a b : a <> b -> str_eqb a b = false. Proof. intros H. apply not_true_is_false. rewrite str_eqb_eq. exact H. Qed.
Lemma ltb_neq a b : str_ltb a b = true -> a <> b.
Proof. intros H ->. revert H. induction b as [|x b IH]; cbn [str_ltb]; intros H; [discriminate|]. apply orb_true_iff in H as [H|H]; [lia|]. apply andb_true_iff in H as [_ H]. exact (IH H). Qed.
Lemma before_neq a b : str_before a b -> a <> b. Proof. intros H. apply ltb_neq, str_ltb_before, H. Qed.

Lemma sfind_in {A} k (m : list (list Z * A)) v : sfind k m = Some v -> In (k, v) m.
Proof.
  induction m as [|[k' v'] m IH]; cbn [sfind]; intros H; [discriminate|]. destruct (str_eqb k k') eqn:E; [|right; exact (IH H)].
  apply str_eqb_eq in E as ->. injection H as ->. left. reflexivity.
Qed.
Lemma sfind_none {A} k (m : list (list Z * A)) v : sfind k m = None -> ~ In (k, v) m.
Proof.
  induction m as [|[k' v'] m IH]; cbn [sfind]; intros H; [intros []|]. destruct (str_eqb k k') eqn:E; [discriminate|].
  intros [K|K]; [injection K as -> ->; rewrite eqb_refl in E; discriminate|exact (IH H K)].
Qed.
Lemma sfind_assign {A} k (v : A) m k' : sfind k' (sassign k v m) = if str_dec k' k then Some v else sfind k' m.
Proof.
  induction m as [|[k1 v1] m IH]; cbn [sassign sfind].
  - destruct (str_dec k' k) as [->|N]; [rewrite eqb_refl|rewrite eqb_neq by exact N]; reflexivity.
  - destruct (str_ltb k k1) eqn:L; cbn [sfind].
    + destruct (str_dec k' k) as [->|N]; [rewrite eqb_refl|rewrite (eqb_neq k' k) by exact N]; reflexivity.
    + destruct (str_eqb k k1) eqn:E; cbn [sfind].
      * apply str_eqb_eq in E as <-. destruct (str_dec k' k) as [->|N]; [rewrite eqb_refl|rewrite (eqb_neq k' k) by exact N]; reflexivity.
      * rewrite IH. destruct (str_dec k' k) as [->|N]; [rewrite E|]; reflexivity.
Qed.
Lemma sfind_insert {A} k (v : A) m k' : sfind k m = None -> sfind k' (sinsert k v m) = if str_dec k' k then Some v else sfind k' m.
Proof.
  induction m as [|[k1 v1] m IH]; cbn [sinsert sfind]; intros H.
  - destruct (str_dec k' k) as [->|N]; [rewrite eqb_refl|rewrite eqb_neq by exact N]; reflexivity.
  - destruct (str_eqb k k1) eqn:E; [discriminate|]. destruct (str_ltb k k1) eqn:L; cbn [sfind].
    + destruct (str_dec k' k) as [->|N]; [rewrite eqb_refl|rewrite (eqb_neq k' k) by exact N]; reflexivity.
    + rewrite IH by exact H. destruct (str_dec k' k) as [->|N]; [rewrite E|]; reflexivity.
Qed.
Lemma assign_insert {A} k (v w : A) m : sfind k m = None -> sassign k v (sinsert k w m) = sassign k v m.
Proof.
  induction m as [|[k1 v1] m IH]; cbn [sinsert sassign sfind]; intros H.
  - assert (L : str_ltb k k = false) by (apply not_true_is_false; intros L; exact (ltb_neq _ _ L eq_refl)). rewrite L, eqb_refl. reflexivity.
  - destruct (str_eqb k k1) eqn:E; [discriminate|]. destruct (str_ltb k k1) eqn:L; cbn [sassign].
    + assert (L' : str_ltb k k = false) by (apply not_true_is_false; intros L'; exact (ltb_neq _ _ L' eq_refl)). rewrite L', eqb_refl. reflexivity.
    + rewrite L, E, IH by exact H. reflexivity.
Qed.
Lemma sfind_sorted_none {A} k (m : list (list Z * A)) : Forall (str_before k) (map fst m) -> sfind k m = None.
Proof.
  induction m as [|[k1 v1] m IH]; cbn [map fst sfind]; intros H; [reflexivity|]. inversion H as [|? ? H1 H2]; subst. rewrite eqb_neq by (apply before_neq, H1). exact (IH H2).
Qed.
Lemma sfind_erase {A} k (m : list (list Z * A)) k' : keys_ascending m -> sfind k' (serase k m) = if str_dec k' k then None else sfind k' m.
Proof.
  unfold keys_ascending. induction m as [|[k1 v1] m IH]; cbn [serase sfind map fst]; intros H; [destruct (str_dec k' k); reflexivity|].
  inversion H as [|? ? H1 H2]; subst. destruct (str_eqb k k1) eqn:E; cbn [sfind].
  - apply str_eqb_eq in E as <-. destruct (str_dec k' k) as [->|N]; [apply sfind_sorted_none, H2|rewrite (eqb_neq k' k) by exact N; reflexivity].
  - rewrite IH by exact H1. destruct (str_dec k' k) as [->|N]; [rewrite E|]; reflexivity.
Qed.
Lemma has_table_find s k : has_table s k <-> exists m, sfind k s = Some m.
Proof.
  split.
  - intros [m H]. destruct (sfind k s) as [m'|] eqn:E; [exists m'; reflexivity|]. destruct (sfind_none k s m E H).
  - intros [m H]. exists m. apply sfind_in, H.
Qed.
Lemma no_table_find s k : ~ has_table s k <-> sfind k s = None.
Proof.
  rewrite has_table_find. destruct (sfind k s) as [m|]; split; intros H; try reflexivity; try discriminate; [destruct H; eauto|intros [m' H']; discriminate].
Qed.
(* keys *)
Lemma assign_keys {A} k (v : A) m x : In x (map fst (sassign k v m)) <-> x = k \/ In x (map fst m).
Proof.
  induction m as [|[k1 v1] m IH]; cbn [sassign map fst]; [cbn [In]; intuition|].
  destruct (str_ltb k k1); cbn [map fst In]; [intuition|]. destruct (str_eqb k k1) eqn:E; cbn [map fst In].
  - apply str_eqb_eq in E as <-. intuition.
  - rewrite IH. intuition.
Qed.
Lemma assign_ascending {A} k (v : A) m : keys_ascending m -> keys_ascending (sassign k v m).
Proof.
  unfold keys_ascending. induction m as [|[k1 v1] m IH]; cbn [sassign map fst]; intros H; [repeat constructor|].
  inversion H as [|? ? H1 H2]; subst. destruct (str_ltb k k1) eqn:L; cbn [map fst].
  - apply str_ltb_before in L. constructor; [exact H|]. constructor; [exact L|]. apply (Forall_impl _ (P := str_before k1)); [|exact H2]. intros x Hx. exact (str_before_trans _ _ _ L Hx).
  - destruct (str_eqb k k1) eqn:E; cbn [map fst]; [exact H|]. constructor; [exact (IH H1)|]. apply Forall_forall. intros x Hx. apply assign_keys in Hx as [->|Hx]; [apply str_total; assumption|].
    rewrite Forall_forall in H2. exact (H2 x Hx).
Qed.
Lemma assign_forall {A} (P : list Z * A -> Prop) k v m : P (k, v) -> Forall P m -> Forall P (sassign k v m).
Proof.
  intros Pk. induction m as [|[k1 v1] m IH]; cbn [sassign]; intros H; [constructor; [exact Pk|constructor]|]. inversion H as [|? ? H1 H2]; subst.
  destruct (str_ltb k k1); [constructor; assumption|]. destruct (str_eqb k k1) eqn:E; [apply str_eqb_eq in E as <-; constructor; assumption|constructor; [exact H1|exact (IH H2)]].
Qed.
Lemma erase_keys {A} k (m : list (list Z * A)) x : In x (serase k m) -> In x m.
Proof. induction m as [|[k1 v1] m IH]; cbn [serase]; [intros []|]. destruct (str_eqb k k1); [right; assumption|intros [H|H]; [left; exact H|right; exact (IH H)]]. Qed.
Lemma erase_ascending {A} k (m : list (list Z * A)) : keys_ascending m -> keys_ascending (serase k m).
Proof.
  unfold keys_ascending. induction m as [|[k1 v1] m IH]; cbn [serase map fst]; intros H; [constructor|]. inversion H as [|? ? H1 H2]; subst.
  destruct (str_eqb k k1); [exact H1|]. cbn [map fst]. constructor; [exact (IH H1)|]. rewrite Forall_forall in *. intros x Hx. apply H2. apply in_map_iff in Hx as (e & <- & He). apply in_map. exact (erase_keys _ _ _ He).
Qed.

(** ** Properties *)
Lemma view_named s tr : tr <> [] -> view_table s tr = sfind tr s.
Proof. intros H. destruct s as [|[k m] s]; [reflexivity|]. cbn [view_table]. destruct tr; [congruence|reflexivity]. Qed.
Lemma view_meant s tr k : meant s tr k -> view_table s tr = sfind k s.
Proof.
  intros [(H & ->)|[(-> & -> & H)|(-> & H & m & rest & ->)]].
  - apply view_named, H.
  - destruct s as [|[k1 m1] s]; [reflexivity|]. destruct H as [H|H]; [|discriminate]. apply has_table_find in H as [m H]. cbn [view_table]. rewrite H. reflexivity.
  - apply no_table_find in H. cbn [view_table]. rewrite H. cbn [sfind]. rewrite eqb_refl. reflexivity.
Qed.
Lemma meant_exists s tr : exists k, meant s tr k.
Proof.
  unfold meant. destruct tr as [|c tr]; [|exists (c :: tr); left; split; [discriminate|reflexivity]].
  destruct (sfind default_translation s) as [m|] eqn:E.
  - exists default_translation. right; left. split; [reflexivity|]. split; [reflexivity|]. left. apply has_table_find. eauto.
  - destruct s as [|[k m] s]; [exists default_translation; right; left; auto|]. exists k. right; right. split; [reflexivity|]. split; [apply no_table_find, E|eauto].
Qed.
Lemma set_form s t p v tr k : meant s tr k ->
  set_property (s, t) p v tr = (sassign k (sassign p v match sfind k s with Some m => m | None => [] end) s,
                                match sfind k s with Some _ => t | None => add_translation_string t k end).
Proof.
  intros [(H & ->)|[(-> & -> & H)|(-> & H & m & rest & ->)]]; unfold set_property.
  - destruct tr as [|c tr]; [congruence|]. destruct (sfind (c :: tr) s) as [m|] eqn:E; cbv beta iota zeta; [rewrite E; reflexivity|].
    rewrite sfind_insert by exact E. destruct (str_dec (c :: tr) (c :: tr)); [|congruence]. rewrite assign_insert by exact E. reflexivity.
  - destruct (sfind default_translation s) as [m|] eqn:E; cbv beta iota zeta; [rewrite E; reflexivity|]. destruct H as [H|H]; [apply has_table_find in H as [m H]; congruence|]. subst s.
    rewrite sfind_insert by exact E. destruct (str_dec default_translation default_translation); [|congruence]. rewrite assign_insert by exact E. reflexivity.
  - apply no_table_find in H. rewrite H. cbv beta iota zeta. cbn [sfind]. rewrite eqb_refl. reflexivity.
Qed.
(* meaning survives *)
Lemma meant_after s t p v tr k : meant s tr k -> meant (fst (set_property (s, t) p v tr)) tr k.
Proof.
  intros M. rewrite (set_form _ _ _ _ _ _ M). cbn [fst]. destruct M as [(H & ->)|[(-> & -> & H)|(-> & H & m & rest & ->)]].
  - left. split; [exact H|reflexivity].
  - right; left. split; [reflexivity|]. split; [reflexivity|]. left. apply has_table_find. rewrite sfind_assign. destruct (str_dec default_translation default_translation); [eauto|congruence].
  - right; right. split; [reflexivity|]. split.
    + apply no_table_find in H. apply no_table_find. rewrite sfind_assign. destruct (str_dec default_translation k) as [<-|]; [|exact H]. cbn [sfind] in H. rewrite eqb_refl in H. discriminate.
    + cbn [sassign]. assert (L : str_ltb k k = false) by (apply not_true_is_false; intros L; exact (ltb_neq _ _ L eq_refl)). rewrite L, eqb_refl. eauto.
Qed.
Lemma set_get s t p v tr f : get_property (fst (set_property (s, t) p v tr)) p tr f = Ok v.
Proof.
  destruct (meant_exists s tr) as [k M]. unfold get_property. rewrite (view_meant _ _ _ (meant_after s t p v tr k M)). rewrite (set_form _ _ _ _ _ _ M). cbn [fst].
  rewrite sfind_assign. destruct (str_dec k k); [|congruence]. rewrite sfind_assign. destruct (str_dec p p); [reflexivity|congruence].
Qed.
Lemma set_others s t p v tr k q tr' f : meant s tr k -> tr' <> [] -> tr' <> k \/ q <> p ->
  get_property (fst (set_property (s, t) p v tr)) q tr' f = get_property s q tr' f.
Proof.
  intros M N D. rewrite (set_form _ _ _ _ _ _ M). cbn [fst]. unfold get_property. rewrite !view_named by exact N. rewrite sfind_assign.
  destruct (str_dec tr' k) as [->|E]; [|reflexivity]. destruct D as [D|D]; [congruence|]. rewrite sfind_assign. destruct (str_dec q p); [congruence|].
  destruct (sfind k s) as [m|]; reflexivity.
Qed.
Lemma set_same_table s t p v tr q f : q <> p -> get_property (fst (set_property (s, t) p v tr)) q tr f = get_property s q tr f.
Proof.
  intros D. destruct (meant_exists s tr) as [k M]. unfold get_property. rewrite (view_meant _ _ _ (meant_after s t p v tr k M)), (view_meant _ _ _ M). rewrite (set_form _ _ _ _ _ _ M). cbn [fst].
  rewrite sfind_assign. destruct (str_dec k k); [|congruence]. rewrite sfind_assign. destruct (str_dec q p); [congruence|]. destruct (sfind k s); reflexivity.
Qed.
Lemma view_default s tr k p f : meant s tr k -> k <> [] -> get_property s p tr f = get_property s p k f.
Proof. intros M N. unfold get_property. rewrite (view_meant _ _ _ M), view_named by exact N. reflexivity. Qed.
Lemma edit_default s t tr k p v : meant s tr k -> k <> [] -> set_property (s, t) p v tr = set_property (s, t) p v k.
Proof. intros M N. rewrite (set_form _ _ _ _ _ _ M), (set_form s t p v k k); [reflexivity|]. left. auto. Qed.
Lemma set_pairs s t p v tr k : meant s tr k ->
  (has_table s k -> snd (set_property (s, t) p v tr) = t) /\ (~ has_table s k -> snd (set_property (s, t) p v tr) = add_translation_string t k).
Proof.
  intros M. rewrite (set_form _ _ _ _ _ _ M). cbn [snd]. split; intros H; [apply has_table_find in H as [m ->]|apply no_table_find in H as ->]; reflexivity.
Qed.

(** ** Pairs *)
Lemma pair_found l c t : existsb (fun e => (fst e =? l) && (snd e =? c)) t = true <-> In (l, c) t.
Proof.
  rewrite existsb_exists. split; [intros ([a b] & H & E); cbn [fst snd] in E; assert (a = l /\ b = c) as [-> ->] by lia; exact H|intros H; exists (l, c); split; [exact H|cbn; lia]].
Qed.
Lemma multi_perm k v t : Permutation (multi_insert k v t) ((k, v) :: t).
Proof.
  induction t as [|[k' v'] t IH]; cbn [multi_insert]; [reflexivity|]. destruct (k <? k'); [reflexivity|]. rewrite IH. apply perm_swap.
Qed.
Lemma add_pairs t l c : (In (l, c) t -> add_translation t l c = t) /\ (~ In (l, c) t -> Permutation (add_translation t l c) ((l, c) :: t)).
Proof.
  unfold add_translation. rewrite <- (pair_found l c t). destruct (existsb _ t).
  - split; [reflexivity|]. intros H. destruct H. reflexivity.
  - split; [discriminate|]. intros _. apply multi_perm.
Qed.
Lemma add_in t l c e : In e (add_translation t l c) <-> e = (l, c) \/ In e t.
Proof.
  destruct (in_dec pair_dec (l, c) t) as [H|H].
  - rewrite (proj1 (add_pairs t l c) H). split; [intros K; right; exact K|intros [->|K]; assumption].
  - pose proof (proj2 (add_pairs t l c) H) as P. split; intros K; [apply (Permutation_in _ P) in K as [K|K]; auto|]. apply (Permutation_in _ (Permutation_sym P)). destruct K as [->|K]; [left; reflexivity|right; exact K].
Qed.
Lemma add_twice t l c : add_translation (add_translation t l c) l c = add_translation t l c.
Proof. apply add_pairs. apply add_in. left. reflexivity. Qed.
Lemma add_nodup t l c : NoDup t -> NoDup (add_translation t l c).
Proof.
  intros N. destruct (in_dec pair_dec (l, c) t) as [H|H]; [rewrite (proj1 (add_pairs t l c) H); exact N|]. apply (Permutation_NoDup (Permutation_sym (proj2 (add_pairs t l c) H))). constructor; assumption.
Qed.
Lemma erase_perm l c t : (In (l, c) t -> Permutation t ((l, c) :: erase_pair l c t)) /\ (~ In (l, c) t -> erase_pair l c t = t).
Proof.
  induction t as [|[a b] t [I1 I2]]; cbn [erase_pair]; [split; [intros []|reflexivity]|]. destruct ((a =? l) && (b =? c)) eqn:E.
  - assert (a = l /\ b = c) as [-> ->] by lia. split; [reflexivity|]. intros H. destruct H. left. reflexivity.
  - assert (D : (a, b) <> (l, c)) by (intros D; injection D as -> ->; lia). split; intros H.
    + destruct H as [H|H]; [congruence|]. rewrite (I1 H) at 1. apply perm_swap.
    + rewrite I2; [reflexivity|]. intros K. apply H. right. exact K.
Qed.
Lemma erase_in l c t e : In e (erase_pair l c t) -> In e t.
Proof. induction t as [|[a b] t IH]; cbn [erase_pair]; [intros []|]. destruct (_ && _); [right; assumption|intros [H|H]; [left; exact H|right; exact (IH H)]]. Qed.
Lemma erase_nodup l c t : NoDup t -> NoDup (erase_pair l c t) /\ forall e, In e (erase_pair l c t) <-> In e t /\ e <> (l, c).
Proof.
  intros N. destruct (in_dec pair_dec (l, c) t) as [H|H].
  - pose proof (proj1 (erase_perm l c t) H) as P. pose proof (Permutation_NoDup P N) as N'. inversion N' as [|? ? N1 N2]; subst. split; [exact N2|]. intros e. split.
    + intros K. split; [exact (erase_in _ _ _ _ K)|]. intros ->. exact (N1 K).
    + intros [K D]. apply (Permutation_in _ P) in K as [K|K]; [congruence|exact K].
  - rewrite (proj2 (erase_perm l c t) H). split; [exact N|]. intros e. split; [intros K; split; [exact K|intros ->; exact (H K)]|intros [K _]; exact K].
Qed.
Lemma multi_sorted k v t : Sorted.StronglySorted Z.le (map fst t) -> Sorted.StronglySorted Z.le (map fst (multi_insert k v t)).
Proof.
  induction t as [|[k' v'] t IH]; cbn [multi_insert map fst]; intros H; [repeat constructor|]. inversion H as [|? ? H1 H2]; subst. destruct (k <? k') eqn:L; cbn [map fst].
  - constructor; [exact H|]. constructor; [lia|]. apply (Forall_impl _ (P := Z.le k')); [intros x Hx; lia|exact H2].
  - constructor; [exact (IH H1)|]. apply (Permutation_Forall (Permutation_sym (Permutation_map fst (multi_perm k v t)))). cbn [map fst]. constructor; [lia|exact H2].
Qed.
Lemma add_ok_pairs t l c : is_u16 l -> is_u16 c -> translations_ok t -> translations_ok (add_translation t l c).
Proof.
  intros Hl Hc [S F]. unfold add_translation. destruct (existsb _ t); [split; assumption|]. split; [apply multi_sorted, S|]. apply (Permutation_Forall (Permutation_sym (multi_perm l c t))). constructor; [split; assumption|exact F].
Qed.
Lemma erase_ok_pairs t l c : translations_ok t -> translations_ok (erase_pair l c t).
Proof.
  intros [S F]. split.
  - clear F. induction t as [|[a b] t IH]; cbn [erase_pair map fst]; [constructor|]. cbn [map fst] in S. inversion S as [|? ? S1 S2]; subst. destruct (_ && _); [exact S1|]. cbn [map fst]. constructor; [exact (IH S1)|].
    rewrite Forall_forall in *. intros x Hx. apply S2. apply in_map_iff in Hx as (e & <- & He). apply in_map. exact (erase_in _ _ _ _ He).
  - rewrite Forall_forall in *. intros e He. apply F. exact (erase_in _ _ _ _ He).
Qed.
