(** C82: trees that are equal up to the order of entries. *)
From Verif Require Export SpecTyped ManagerFacts ResTree ResDataFacts ExportFacts.

Definition rel {A B} (R : A -> B -> Prop) (x : res A) (y : res B) : Prop :=
  match x, y with Ok a, Ok b => R a b | Throw e, Throw f => e = f | Ub a, Ub b => a = b | Fuel, Fuel => True | _, _ => False end.
Lemma rel_bind {A B C D} (R : A -> B -> Prop) (Q : C -> D -> Prop) x y f g : rel R x y -> (forall a b, R a b -> rel Q (f a) (g b)) -> rel Q (bind x f) (bind y g).
Proof. destruct x, y; cbn [rel bind]; intros H K; first [contradiction|exact (K _ _ H)|exact H]. Qed.
Lemma rel_eq {A} (x y : res A) : rel eq x y -> y = x. Proof. destruct x, y; cbn [rel]; intros H; try contradiction; subst; reflexivity. Qed.
Lemma eq_rel {A} (x y : res A) : y = x -> rel eq x y. Proof. intros ->. destruct x; cbn [rel]; auto. Qed.
Lemma rel_listed {A} (x y : res (list A)) : rel (@Permutation A) x y -> listed x y. Proof. destruct x, y; cbn [rel listed]; intros H; try contradiction; subst; auto. Qed.

(** ** Up to order *)
Definition node_like (c c' : rnode) : Prop := canonical c c' /\ storable_tree c.
Definition entries_like (l l' : list rentry) : Prop := unique l /\ exists m, Permutation l m /\ Forall2 (fun e e' => fst e = fst e' /\ node_like (snd e) (snd e')) m l'.
Lemma storable_entries h l : storable_tree (RDir h l) -> unique l /\ Forall (fun e => storable_tree (snd e)) l.
Proof. cbn [storable_tree]. intros (_ & _ & U & F). split; [exact U|]. clear U. induction l as [|e l IH]; [constructor|]. cbn [fold_right] in F. constructor; [tauto|apply IH; tauto]. Qed.
Lemma like_dir h l t' : node_like (RDir h l) t' -> exists h' l', t' = RDir h' l' /\ entries_like l l'.
Proof.
  intros [C S]. apply storable_entries in S. destruct S as [U F]. inversion C as [|h0 l0 m l' P Q O]; subst. do 2 eexists. split; [reflexivity|]. split; [exact U|]. exists m. split; [exact P|].
  assert (F' : Forall (fun e => storable_tree (snd e)) m) by (rewrite Forall_forall in *; intros x Hx; apply F; exact (Permutation_in x (Permutation_sym P) Hx)). clear -Q F'.
  induction Q as [|e e' m l' [E1 E2] _ IH]; [constructor|]. inversion_clear F'. constructor; [|apply IH; assumption]. split; [exact E1|]. split; assumption.
Qed.
Lemma like_keys l l' : entries_like l l' -> Permutation (map fst l) (map fst l').
Proof.
  intros (_ & m & P & Q). transitivity (map fst m); [apply Permutation_map, P|]. replace (map fst l') with (map fst m); [reflexivity|].
  clear P. induction Q as [|e e' m l' [E _] _ IH]; [reflexivity|]. cbn [map]. rewrite E, IH. reflexivity.
Qed.
Lemma like_assoc k l l' : entries_like l l' -> match assoc k l, assoc k l' with Some c, Some c' => node_like c c' | None, None => True | _, _ => False end.
Proof.
  intros L. pose proof (like_keys l l' L) as K. destruct L as (U & m & P & Q). assert (U' : unique l') by (unfold unique; exact (Permutation_NoDup K U)).
  destruct (assoc k l) as [c|] eqn:E.
  - apply (assoc_in k l U) in E. apply (Permutation_in _ P) in E. clear K P U.
    assert (X : exists c', In (k, c') l' /\ node_like c c').
    { induction Q as [|[n a] [n' b] m l' [E1 E2] _ IH]; [destruct E|]. cbn [fst snd] in E1, E2. destruct E as [[= -> ->]|E].
      - subst n'. exists b. split; [left; reflexivity|exact E2].
      - inversion_clear U'. destruct (IH ltac:(assumption) E) as (c' & I & N). exists c'. split; [right; exact I|exact N]. }
    destruct X as (c' & I & N). apply (assoc_in k l' U') in I. rewrite I. exact N.
  - apply assoc_none in E. destruct (assoc k l') as [c'|] eqn:E'; [|exact Logic.I]. apply E. apply (Permutation_in _ (Permutation_sym K)). apply (assoc_in k l' U') in E'.
    apply in_map_iff. exists (k, c'). split; [reflexivity|exact E'].
Qed.
Lemma like_entry k l l' : entries_like l l' -> rel node_like (entry_by k l) (entry_by k l').
Proof. intros L. pose proof (like_assoc k l l' L) as A. rewrite !entry_by_assoc. destruct (assoc k l), (assoc k l'); cbn [rel]; tauto || reflexivity. Qed.
Lemma like_dir_of c c' : node_like c c' -> rel (fun x y => entries_like (snd x) (snd y)) (dir_of c) (dir_of c').
Proof.
  intros L. destruct c as [|d cp|h l].
  - destruct L as [_ []].
  - destruct L as [L _]. inversion L; subst. reflexivity.
  - destruct (like_dir h l c' L) as (h' & l' & -> & E). exact E.
Qed.
Lemma like_leaf_of c c' : node_like c c' -> rel eq (leaf_of c) (leaf_of c').
Proof. intros [L S]. destruct L; reflexivity. Qed.
Lemma like_dir_by k l l' : entries_like l l' -> rel (fun x y => entries_like (snd x) (snd y)) (dir_by k l) (dir_by k l').
Proof. intros L. unfold dir_by. apply (rel_bind node_like); [apply like_entry, L|apply like_dir_of]. Qed.
Section Like.
Context (t t' : rnode) (L : node_like t t').
Lemma like_languages root name : rel entries_like (languages_of t root name) (languages_of t' root name).
Proof.
  unfold languages_of. apply (rel_bind _ _ _ _ _ _ (like_dir_of t t' L)). intros [h1 l1] [h1' l1'] E1. cbn [snd] in E1.
  apply (rel_bind _ _ _ _ _ _ (like_dir_by root l1 l1' E1)). intros [h2 l2] [h2' l2'] E2. cbn [snd] in E2.
  apply (rel_bind _ _ _ _ _ _ (like_dir_by name l2 l2' E2)). intros [h3 l3] [h3' l3'] E3. exact E3.
Qed.
Lemma like_data language root name : resource_data t' language root name = resource_data t language root name.
Proof.
  apply rel_eq. unfold resource_data. apply (rel_bind _ _ _ _ _ _ (like_languages root name)). intros l l' E.
  apply (rel_bind _ _ _ _ _ _ (like_entry (Ided language) l l' E)). intros c c'. apply like_leaf_of.
Qed.
Lemma flat_perm {A B} (f : A -> list B) l m : Permutation l m -> Permutation (flat_map f l) (flat_map f m).
Proof. induction 1 as [|x l m _ IH|x y l|l m k _ IH1 _ IH2]; cbn [flat_map]; [reflexivity|apply Permutation_app_head, IH|rewrite !app_assoc; apply Permutation_app_tail, Permutation_app_comm|etransitivity; eassumption]. Qed.
Lemma ids_map l : id_list l = flat_map (fun k => match k with Ided id => [id] | Named _ => [] end) (map fst l).
Proof. induction l as [|e l IH]; [reflexivity|]. cbn [map flat_map]. rewrite <- IH. reflexivity. Qed.
Lemma names_map l : name_list l = flat_map (fun k => match k with Named s => [s] | Ided _ => [] end) (map fst l).
Proof. induction l as [|e l IH]; [reflexivity|]. cbn [map flat_map]. rewrite <- IH. reflexivity. Qed.
Lemma like_ids l l' : entries_like l l' -> Permutation (id_list l) (id_list l').
Proof. intros E. rewrite !ids_map. apply flat_perm, like_keys, E. Qed.
Lemma like_names l l' : entries_like l l' -> Permutation (name_list l) (name_list l').
Proof. intros E. rewrite !names_map. apply flat_perm, like_keys, E. Qed.
Lemma like_reads : reads_same t t'.
Proof.
  split; [exact like_data|]. split; [|split; [|split; [|split; [|split]]]].
  - intros root. apply rel_eq. unfold resource_exists. apply (rel_bind _ _ _ _ _ _ (like_dir_of t t' L)). intros [h l] [h' l'] E. cbn [snd] in E. pose proof (like_assoc root l l' E) as A.
    cbn [rel]. rewrite !existsb_assoc. destruct (assoc root l), (assoc root l'); tauto || reflexivity.
  - intros root. apply rel_eq. unfold resource_count. apply (rel_bind _ _ _ _ _ _ (like_dir_of t t' L)). intros [h l] [h' l'] E. cbn [snd] in E.
    apply (rel_bind _ _ _ _ _ _ (like_dir_by root l l' E)). intros [h2 l2] [h2' l2'] E2. cbn [snd] in E2. cbn [rel]. f_equal. unfold zlen.
    rewrite <- (map_length fst l2), <- (map_length fst l2'), (Permutation_length (like_keys l2 l2' E2)). reflexivity.
  - intros root name. apply rel_eq. unfold language_count. apply (rel_bind _ _ _ _ _ _ (like_languages root name)). intros l l' E. cbn [rel]. f_equal.
    rewrite <- !zlen_ids. unfold zlen. rewrite (Permutation_length (like_ids l l' E)). reflexivity.
  - apply rel_listed. unfold list_types. apply (rel_bind _ _ _ _ _ _ (like_dir_of t t' L)). intros [h l] [h' l'] E. exact (like_ids l l' E).
  - intros root. split; apply rel_listed; (unfold list_ids, list_names; apply (rel_bind _ _ _ _ _ _ (like_dir_of t t' L)); intros [h l] [h' l'] E; cbn [snd] in E;
      apply (rel_bind _ _ _ _ _ _ (like_dir_by root l l' E)); intros [h2 l2] [h2' l2'] E2; cbn [snd] in E2; cbn [rel]); [apply like_ids, E2|apply like_names, E2].
  - intros root name. apply rel_listed. unfold list_languages. apply (rel_bind _ _ _ _ _ _ (like_languages root name)). intros l l' E. apply like_ids, E.
Qed.
End Like.

(** ** In the same order *)
Definition node_same (c c' : rnode) : Prop := canonical c c' /\ storable_tree c /\ ordered_tree c.
Definition entries_same (l l' : list rentry) : Prop := Forall2 (fun e e' => fst e = fst e' /\ node_same (snd e) (snd e')) l l'.
Lemma sorted_unique {A} (R : A -> A -> Prop) : (forall a b, R a b -> R b a -> False) -> forall l m, StronglySorted R l -> StronglySorted R m -> Permutation l m -> l = m.
Proof.
  intros As. induction l as [|x l IH]; intros m Sl Sm P; [symmetry; apply Permutation_nil, P|]. destruct m as [|y m]; [apply Permutation_sym, Permutation_nil in P; discriminate|].
  inversion_clear Sl as [|? ? Sl' Fl]. inversion_clear Sm as [|? ? Sm' Fm]. assert (x = y) as ->.
  { pose proof (Permutation_in x P (or_introl eq_refl)) as Ix. pose proof (Permutation_in y (Permutation_sym P) (or_introl eq_refl)) as Iy.
    destruct Ix as [->|Ix]; [reflexivity|]. destruct Iy as [->|Iy]; [reflexivity|]. rewrite Forall_forall in Fl, Fm. destruct (As x y (Fl y Iy) (Fm x Ix)). }
  f_equal. apply IH; [assumption..|]. exact (Permutation_cons_inv P).
Qed.

Lemma str_irr a : ~ str_before a a.
Proof. intros H. apply str_ltb_before in H. induction a as [|x a IH]; cbn [str_ltb] in H; [discriminate|]. apply IH. lia. Qed.
Lemma rname_asym a b : rname_before a b -> rname_before b a -> False.
Proof. destruct a as [s|m], b as [t|n]; cbn [rname_before]; intros H K; try contradiction; [exact (str_irr s (str_before_trans _ _ _ H K))|lia]. Qed.
Lemma ordered_entries h l : ordered_tree (RDir h l) -> ordered l /\ Forall (fun e => ordered_tree (snd e)) l.
Proof. cbn [ordered_tree]. intros [U F]. split; [exact U|]. clear U. induction l as [|e l IH]; [constructor|]. cbn [fold_right] in F. constructor; [tauto|apply IH; tauto]. Qed.
Lemma same_dir_entries h l t' : node_same (RDir h l) t' -> exists h' l', t' = RDir h' l' /\ entries_same l l'.
Proof.
  intros (C & S & O). apply storable_entries in S. destruct S as [_ F]. apply ordered_entries in O. destruct O as [O Fo]. inversion C as [|h0 l0 m l' P Q O']; subst. do 2 eexists. split; [reflexivity|].
  assert (Om : ordered m).
  { clear -Q O'. unfold ordered in *. induction Q as [|e e' m l' [E _] Q IH]; [constructor|]. inversion_clear O' as [|? ? S' F']. constructor; [apply IH, S'|]. rewrite E. clear -Q F'.
    induction Q as [|a a' m l' [E _] _ IH]; [constructor|]. inversion_clear F'. constructor; [rewrite E; assumption|apply IH; assumption]. }
  assert (l = m) as -> by (apply (sorted_unique (fun e f => rname_before (fst e) (fst f))); [intros a b; apply rname_asym|exact O|exact Om|exact P]).
  clear -Q F Fo. unfold entries_same. induction Q as [|e e' m l' [E1 E2] _ IH]; [constructor|]. inversion_clear F. inversion_clear Fo. constructor; [|apply IH; assumption].
  split; [exact E1|]. repeat split; assumption.
Qed.
Lemma same_entry k l l' : entries_same l l' -> rel node_same (entry_by k l) (entry_by k l').
Proof.
  intros E. rewrite !entry_by_assoc. induction E as [|[n c] [n' c'] l l' [E1 E2] _ IH]; [reflexivity|]. cbn [fst snd] in *. subst n'. rewrite !assoc_cons.
  destruct (rname_eqb k n); [exact E2|exact IH].
Qed.
Lemma same_dir_of c c' : node_same c c' -> rel (fun x y => entries_same (snd x) (snd y)) (dir_of c) (dir_of c').
Proof.
  intros L. destruct c as [|d cp|h l].
  - destruct L as (_ & [] & _).
  - destruct L as [L _]. inversion L; subst. reflexivity.
  - destruct (same_dir_entries h l c' L) as (h' & l' & -> & E). exact E.
Qed.
Lemma same_leaf_of c c' : node_same c c' -> rel eq (leaf_of c) (leaf_of c').
Proof. intros (L & S & _). destruct L; reflexivity. Qed.
Lemma same_dir_by k l l' : entries_same l l' -> rel (fun x y => entries_same (snd x) (snd y)) (dir_by k l) (dir_by k l').
Proof. intros L. unfold dir_by. apply (rel_bind node_same); [apply same_entry, L|apply same_dir_of]. Qed.
Lemma same_keys l l' : entries_same l l' -> map fst l' = map fst l.
Proof. induction 1 as [|e e' l l' [E _] _ IH]; [reflexivity|]. cbn [map]. rewrite E, IH. reflexivity. Qed.
Section Same.
Context (t t' : rnode) (L : node_same t t').
Lemma same_languages root name : rel entries_same (languages_of t root name) (languages_of t' root name).
Proof.
  unfold languages_of. apply (rel_bind _ _ _ _ _ _ (same_dir_of t t' L)). intros [h1 l1] [h1' l1'] E1. cbn [snd] in E1.
  apply (rel_bind _ _ _ _ _ _ (same_dir_by root l1 l1' E1)). intros [h2 l2] [h2' l2'] E2. cbn [snd] in E2.
  apply (rel_bind _ _ _ _ _ _ (same_dir_by name l2 l2' E2)). intros [h3 l3] [h3' l3'] E3. exact E3.
Qed.
Lemma same_at root name i : resource_data_at t' root name i = resource_data_at t root name i.
Proof.
  apply rel_eq. unfold resource_data_at. apply (rel_bind _ _ _ _ _ _ (same_languages root name)). intros l l' E. generalize (Z.to_nat i). clear i.
  induction E as [|e e' l l' [_ E2] _ IH]; intros [|n]; cbn [nth_error]; [reflexivity..|apply same_leaf_of, E2|apply IH].
Qed.
Lemma same_lists : list_types t' = list_types t /\ (forall root, list_ids t' root = list_ids t root /\ list_names t' root = list_names t root) /\ forall root name, list_languages t' root name = list_languages t root name.
Proof.
  split; [|split].
  - apply rel_eq. unfold list_types. apply (rel_bind _ _ _ _ _ _ (same_dir_of t t' L)). intros [h l] [h' l'] E. cbn [snd] in E. cbn [rel]. rewrite !ids_map, (same_keys l l' E). reflexivity.
  - intros root. split; apply rel_eq; (unfold list_ids, list_names; apply (rel_bind _ _ _ _ _ _ (same_dir_of t t' L)); intros [h l] [h' l'] E; cbn [snd] in E;
      apply (rel_bind _ _ _ _ _ _ (same_dir_by root l l' E)); intros [h2 l2] [h2' l2'] E2; cbn [snd] in E2; cbn [rel]); rewrite ?ids_map, ?names_map, (same_keys l2 l2' E2); reflexivity.
  - intros root name. apply rel_eq. unfold list_languages. apply (rel_bind _ _ _ _ _ _ (same_languages root name)). intros l l' E. cbn [rel]. rewrite !ids_map, (same_keys l l' E). reflexivity.
Qed.
End Same.

(** ** Typed readers *)
Lemma mfold_ext {A S} (f g : S -> A -> res S) : (forall s x, f s x = g s x) -> forall l s, mfold f l s = mfold g l s.
Proof. intros H. induction l as [|x l IH]; intros s; [reflexivity|]. cbn [mfold]. rewrite H. destruct (g s x); cbn [bind]; [apply IH|reflexivity..]. Qed.
Lemma bind_same {A B} (x y : res A) (f g : A -> res B) : x = y -> (forall a, f a = g a) -> bind x f = bind y g.
Proof. intros -> H. destruct y; cbn [bind]; [apply H|reflexivity..]. Qed.
Lemma typed_by t t' w : (forall root name, data_by t' w root name = data_by t w root name) -> (forall k name, get_file t' k w name = get_file t k w name) /\
  (forall name, get_bitmap t' w name = get_bitmap t w name) /\ (forall id, get_string_table t' w id = get_string_table t w id) /\
  (forall id, get_string_by t' w id = get_string_by t w id) /\ (forall id, get_messages t' w id = get_messages t w id).
Proof.
  intros H. split; [|unfold get_string_by, get_bitmap, get_string_table, get_messages; repeat split; intros; rewrite H; reflexivity].
  intros k name. unfold get_file. apply bind_same; [apply H|]. intros d. apply bind_same.
  - unfold file_headers. do 4 (apply bind_same; [reflexivity|]; intros ?). apply bind_same; [|reflexivity]. apply mfold_ext. intros [out off] i.
    apply bind_same; [reflexivity|]. intros g. apply bind_same; [|reflexivity]. destruct k; [reflexivity|apply H].
  - intros [out count]. apply mfold_ext. intros s i. apply bind_same; [reflexivity|]. intros g. apply bind_same; [apply H|reflexivity].
Qed.
Lemma typed_language t t' language : reads_same t t' -> typed_same (ByLanguage language) t t'.
Proof.
  intros (D & _). destruct (typed_by t t' (ByLanguage language)) as (A & B & C & E & F); [intros; unfold data_by; rewrite D; reflexivity|].
  repeat (split; [assumption|]). unfold version_info_by_lang. rewrite D. reflexivity.
Qed.
Lemma typed_index t t' i : (forall root name, resource_data_at t' root name i = resource_data_at t root name i) -> typed_same (ByIndex i) t t'.
Proof.
  intros D. destruct (typed_by t t' (ByIndex i)) as (A & B & C & E & F); [intros; unfold data_by; rewrite D; reflexivity|].
  repeat (split; [assumption|]). unfold version_info_at. rewrite D. reflexivity.
Qed.
Lemma lookup_same t t' k raw language id : (forall root name, resource_data t' language root name = resource_data t language root name) -> (forall root name, list_languages t' root name = list_languages t root name) ->
  forall names, lookup t' k raw language id names = lookup t k raw language id names.
Proof.
  intros D G. induction names as [|n names IH]; [reflexivity|]. cbn [lookup]. rewrite G. apply bind_same; [reflexivity|]. intros langs. apply bind_same; [rewrite D; reflexivity|]. intros [h|]; [reflexivity|exact IH].
Qed.
Lemma single_same t t' : node_same t t' -> forall k w id, get_single t' k w id = get_single t k w id.
Proof.
  intros N k w id. assert (Lk : node_like t t') by (destruct N as (A & B & _); split; assumption). pose proof (like_data t t' Lk) as D. destruct (same_lists t t' N) as (_ & I & G).
  unfold get_single. rewrite G. apply bind_same; [reflexivity|]. intros language. apply bind_same; [unfold data_by; destruct w; rewrite ?D, ?(same_at t t' N); reflexivity|].
  intros raw. apply bind_same; [|reflexivity]. unfold lookup_group. destruct (I (group_type k)) as [-> ->]. do 2 (apply bind_same; [reflexivity|]; intros ?). apply lookup_same; [intros; apply D|exact G].
Qed.

(** ** After saving *)
From Verif Require Import KeepEdit VerRead.
Lemma canonical_reads t t' : storable_tree t -> canonical t t' -> reads_same t t' /\ (forall language, typed_same (ByLanguage language) t t') /\
  (ordered_tree t -> (forall index, typed_same (ByIndex index) t t') /\ forall k w id, get_single t' k w id = get_single t k w id).
Proof.
  intros S C. assert (Lk : node_like t t') by (split; assumption). pose proof (like_reads t t' Lk) as R. split; [exact R|]. split; [intros language; apply typed_language, R|].
  intros O. assert (N : node_same t t') by (repeat split; assumption). split; [|apply single_same, N]. intros i. apply typed_index. intros root name. apply same_at, N.
Qed.
Theorem resources_kept p start i t off strip s a : editable a p ->
  0 <= off -> valid_tree t -> storable_tree t -> full_root t -> ordered_tree t \/ even_tree t -> room p start i (resource_end off t) -> dir_resource < nrva p <= 16 ->
  nth_error (p_sections p) i = Some s ->
  exists p' where_ sorted, rebuild_resources p t i off true strip = Ok (p', where_, sorted) /\ editable a p' /\
    forall r, saved p' a r -> exists t', get_resources r = Ok t' /\ reads_same t t' /\ (forall language, typed_same (ByLanguage language) t t') /\
      (ordered_tree t -> (forall index, typed_same (ByIndex index) t t') /\ forall k w id, get_single t' k w id = get_single t k w id).
Proof.
  intros Ed Ho V S F O R N Hs. destruct (resources_saved p start i t off strip s a Ed Ho V S F O R N Hs) as (p' & w & so & E & Ed' & K). exists p', w, so. split; [exact E|]. split; [exact Ed'|].
  intros r Hr. destruct (K r Hr) as (t' & G & C). exists t'. split; [exact G|]. apply canonical_reads; assumption.
Qed.

(** ** In the tree *)
Lemma bitmap_in_tree t file name language codepage timestamp d : three_levels t -> bytes file -> zlen file < 2^32 -> bitmap_data file = Ok d -> 40 <= zlen d ->
  exists t', add_bitmap t file name language codepage timestamp = Ok t' /\ three_levels t' /\ get_bitmap t' (ByLanguage language) name = Ok (bitmap_header d ++ zdrop 14 file) /\
    (forall r n l, r <> bitmap_type \/ n <> name \/ l <> language -> resource_data t' l r n = resource_data t l r n) /\
    exists t'', remove_bitmap t' name language = Ok (t'', true) /\ get_bitmap t'' (ByLanguage language) name = Throw resource_directory_entry_not_found.
Proof.
  intros T B Z Hd Hl. unfold add_bitmap. rewrite Hd. cbn [bind]. destruct (add_ok t d bitmap_type name language codepage timestamp T) as (t' & E & T' & D). exists t'. split; [exact E|]. split; [exact T'|].
  assert (Dn : resource_data t' language bitmap_type name = Ok (d, codepage)).
  { rewrite D. destruct (rname_dec bitmap_type bitmap_type); [|congruence]. destruct (rname_dec name name); [|congruence]. destruct (Z.eq_dec language language); [reflexivity|congruence]. }
  split; [unfold get_bitmap, data_by; rewrite Dn; cbn [bind]; apply (bitmap_round_trip file d); assumption|]. split.
  - intros r n l H. rewrite D. destruct (rname_dec r bitmap_type); [|reflexivity]. destruct (rname_dec n name); [|reflexivity]. destruct (Z.eq_dec l language); [|reflexivity]. subst. tauto.
  - destruct (remove_language_ok t' bitmap_type name language T') as (t'' & b & E2 & _ & Hb & D2). assert (b = true) as -> by (apply Hb; exists (d, codepage); exact Dn).
    exists t''. split; [exact E2|]. unfold get_bitmap, data_by. rewrite D2. destruct (rname_dec bitmap_type bitmap_type); [|congruence]. destruct (rname_dec name name); [|congruence]. destruct (Z.eq_dec language language); [reflexivity|congruence].
Qed.
Lemma string_in_tree t w id ss d rest : is_u16 id -> length ss = 16%nat -> Forall string_ok ss -> bytes d -> d = concat (map SpecResData.counted ss) ++ rest -> data_by t w string_type (Ided (id / 16 + 1)) = Ok d ->
  get_string_by t w id = match nth_error ss (Z.to_nat (id mod 16)) with Some (x :: s) => Ok (x :: s) | _ => Throw resource_string_not_found end.
Proof.
  intros U N F B Hd D. unfold get_string_by, get_string_table. rewrite Z.shiftr_div_pow2 by lia. change (2 ^ 4) with 16. rewrite D. cbn [bind].
  assert (P : parse_string_list (id / 16 + 1) d = Ok (SpecResData.numbered (id / 16 + 1) 0 ss)) by (apply string_table_iff; [exact B|]; exists ss, rest; split; [exact N|]; split; [exact F|]; split; [exact Hd|reflexivity]).
  rewrite P. cbn [bind]. apply string_lookup; assumption.
Qed.
Section Stored.
Context (p p' : pe) (a : Z) (t t1 : rnode) (i : nat) (off start : Z) (strip : bool) (s : section).
Context (Ed : editable a p) (Off : 0 <= off) (V : valid_tree t1) (S : storable_tree t1) (O : ordered_tree t1 \/ even_tree t1) (R : room p start i (resource_end off t1)) (N : dir_resource < nrva p <= 16) (Hs : nth_error (p_sections p) i = Some s).
Lemma added_root d root name language codepage timestamp : three_levels t -> add_resource t d root name language codepage timestamp = Ok t1 -> full_root t1.
Proof.
  intros T E. destruct (add_ok t d root name language codepage timestamp T) as (t2 & E2 & T2 & D). assert (t2 = t1) as -> by congruence. destruct T2 as (h & l & -> & _).
  specialize (D root name language). destruct (rname_dec root root); [|congruence]. destruct (rname_dec name name); [|congruence]. destruct (Z.eq_dec language language); [|congruence].
  destruct l; [cbn in D; discriminate D|exact Logic.I].
Qed.
Theorem bitmap_saved file name language codepage timestamp : three_levels t -> bytes file -> 54 <= zlen file < 2^32 -> add_bitmap t file name language codepage timestamp = Ok t1 ->
  exists q where_ sorted, rebuild_resources p t1 i off true strip = Ok (q, where_, sorted) /\ editable a q /\
    forall r, saved q a r -> exists t', get_resources r = Ok t' /\ get_bitmap t' (ByLanguage language) name = Ok (bitmap_header (zdrop 14 file) ++ zdrop 14 file) /\
      forall root n l, root <> bitmap_type \/ n <> name \/ l <> language -> resource_data t' l root n = resource_data t l root n.
Proof.
  intros T B Z E. assert (Hd : bitmap_data file = Ok (zdrop 14 file)) by (unfold bitmap_data; replace (zlen file <? 14) with false by lia; reflexivity).
  destruct (bitmap_in_tree t file name language codepage timestamp (zdrop 14 file) T B ltac:(lia) Hd ltac:(rewrite zlen_zdrop; lia)) as (t2 & E2 & _ & G & D & _). assert (t2 = t1) as -> by congruence.
  assert (F : full_root t1). { unfold add_bitmap in E. rewrite Hd in E. cbn [bind] in E. exact (added_root _ _ _ _ _ _ T E). }
  destruct (resources_kept p start i t1 off strip s a Ed Off V S F O R N Hs) as (q & w & so & X & Eq & K). exists q, w, so. split; [exact X|]. split; [exact Eq|].
  intros r Hr. destruct (K r Hr) as (t' & G' & Rs & Ty & _). exists t'. split; [exact G'|]. split; [rewrite (proj1 (Ty language)); exact G|].
  intros root n l H. destruct Rs as [Rs _]. rewrite Rs. apply D, H.
Qed.
Theorem version_saved info strings translations language codepage timestamp : three_levels t -> info_ok info -> tables_ok strings -> translations_ok translations -> block_bytes strings translations < 65536 ->
  set_version_info t info strings translations language codepage timestamp = Ok t1 ->
  exists q where_ sorted, rebuild_resources p t1 i off true strip = Ok (q, where_, sorted) /\ editable a q /\
    forall r, saved q a r -> exists t', get_resources r = Ok t' /\ version_info_by_lang t' language = Ok (info, (strings, translations)) /\
      forall root n l, root <> rt_version \/ n <> Ided 1 \/ l <> language -> resource_data t' l root n = resource_data t l root n.
Proof.
  intros T I1 I2 I3 I4 E. destruct (version_tree t info strings translations language codepage timestamp T I1 I2 I3 I4) as (t2 & E2 & _ & G & D & _). assert (t2 = t1) as -> by congruence.
  assert (F : full_root t1). { unfold set_version_info in E. destruct (version_data info strings translations) as [d| | |]; try discriminate E. cbn [bind] in E. exact (added_root _ _ _ _ _ _ T E). }
  destruct (resources_kept p start i t1 off strip s a Ed Off V S F O R N Hs) as (q & w & so & X & Eq & K). exists q, w, so. split; [exact X|]. split; [exact Eq|].
  intros r Hr. destruct (K r Hr) as (t' & G' & Rs & Ty & _). exists t'. split; [exact G'|]. split; [destruct (Ty language) as (_ & _ & _ & _ & _ & Hv); rewrite Hv; exact G|].
  intros root n l H. destruct Rs as [Rs _]. rewrite Rs. apply D, H.
Qed.
Theorem changes_saved ops : three_levels t -> mfold apply_change ops t = Ok t1 -> full_root t1 ->
  exists q where_ sorted, rebuild_resources p t1 i off true strip = Ok (q, where_, sorted) /\ editable a q /\
    forall r, saved q a r -> exists t', get_resources r = Ok t' /\ forall root n l, content t' root n l = fold_left effect ops (content t) root n l.
Proof.
  intros T E F. destruct (history_ok ops t T) as (t2 & E2 & _ & C). assert (t2 = t1) as -> by congruence.
  destruct (resources_kept p start i t1 off strip s a Ed Off V S F O R N Hs) as (q & w & so & X & Eq & K). exists q, w, so. split; [exact X|]. split; [exact Eq|].
  intros r Hr. destruct (K r Hr) as (t' & G' & Rs & _). exists t'. split; [exact G'|]. intros root n l. rewrite <- C. unfold content. destruct Rs as [Rs _]. rewrite Rs. reflexivity.
Qed.
End Stored.
