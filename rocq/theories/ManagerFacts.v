(** Proofs: the resource manager is a map (C42). *)
From Verif Require Import StoreFacts ExportFacts.
From Verif Require Export SpecManager.

(** ** Association lists *)
Lemma rname_eqb_eq a b : rname_eqb a b = true <-> a = b.
Proof.
  destruct a as [s|m], b as [t|n]; cbn [rname_eqb]; try (split; discriminate); [rewrite str_eqb_eq|rewrite Z.eqb_eq]; split; congruence.
Qed.
Lemma rname_eqb_refl a : rname_eqb a a = true. Proof. apply rname_eqb_eq. reflexivity. Qed.
Lemma rname_eqb_neq a b : a <> b -> rname_eqb a b = false.
Proof. intros H. destruct (rname_eqb a b) eqn:E; [|reflexivity]. apply rname_eqb_eq in E. contradiction. Qed.
Definition assoc (k : rname) (l : list rentry) : option rnode := option_map snd (find (finds k) l).
Lemma assoc_cons k nm c l : assoc k ((nm, c) :: l) = if rname_eqb k nm then Some c else assoc k l.
Proof. unfold assoc. cbn [find]. change (finds k (nm, c)) with (rname_eqb k nm). destruct (rname_eqb k nm); reflexivity. Qed.
Lemma assoc_in k l : unique l -> forall c, assoc k l = Some c <-> In (k, c) l.
Proof.
  unfold unique. induction l as [|[nm c0] l IH]; cbn [map]; intros U c; [split; [discriminate|intros []]|]. inversion U as [|? ? Ni Nd]; subst. cbn [fst] in Ni. rewrite assoc_cons.
  destruct (rname_eqb k nm) eqn:E.
  - apply rname_eqb_eq in E as ->. split; [intros [= ->]; left; reflexivity|]. intros [[= ->]|H]; [reflexivity|]. elim Ni. apply (in_map fst) in H. exact H.
  - rewrite (IH Nd c). split; [intros H; right; exact H|]. intros [[= -> ->]|H]; [rewrite rname_eqb_refl in E; discriminate|exact H].
Qed.
Lemma assoc_none k l : assoc k l = None <-> ~ In k (map fst l).
Proof.
  induction l as [|[nm c] l IH]; cbn [map]; [split; [intros _ []|reflexivity]|]. rewrite assoc_cons. destruct (rname_eqb k nm) eqn:E.
  - apply rname_eqb_eq in E as ->. split; [discriminate|]. intros H. elim H. left. reflexivity.
  - rewrite IH. cbn [In fst]. split; [|tauto]. intros H [->|H2]; [rewrite rname_eqb_refl in E; discriminate|tauto].
Qed.
Lemma find_assoc k l : find (finds k) l = option_map (fun c => (k, c)) (assoc k l).
Proof.
  induction l as [|[nm c] l IH]; [reflexivity|]. cbn [find]. rewrite assoc_cons. change (finds k (nm, c)) with (rname_eqb k nm). destruct (rname_eqb k nm) eqn:E; [|exact IH]. apply rname_eqb_eq in E as ->. reflexivity.
Qed.
Lemma existsb_assoc k l : existsb (finds k) l = match assoc k l with Some _ => true | None => false end.
Proof. induction l as [|[nm c] l IH]; [reflexivity|]. cbn [existsb]. rewrite assoc_cons. change (finds k (nm, c)) with (rname_eqb k nm). destruct (rname_eqb k nm); [reflexivity|exact IH]. Qed.
Lemma entry_by_assoc k l : entry_by k l = match assoc k l with Some c => Ok c | None => Throw resource_directory_entry_not_found end.
Proof. unfold entry_by, assoc. destruct (find (finds k) l); reflexivity. Qed.
Lemma erase_keys k l : forall x, In x (erase_first k l) -> In x l.
Proof. induction l as [|e l IH]; cbn [erase_first]; [tauto|]. intros x. destruct (finds k e); [right; assumption|]. intros [->|H]; [left; reflexivity|right; auto]. Qed.
Lemma erase_unique k l : unique l -> unique (erase_first k l).
Proof.
  unfold unique. induction l as [|e l IH]; cbn [erase_first map]; [tauto|]. intros U. inversion U as [|? ? Ni Nd]; subst. destruct (finds k e); [exact Nd|]. cbn [map]. constructor; [|auto].
  intros H. apply Ni. apply in_map_iff in H as (x & E & H). apply in_map_iff. exists x. split; [exact E|apply (erase_keys _ _ _ H)].
Qed.
Lemma erase_assoc k l k' : unique l -> assoc k' (erase_first k l) = if rname_eqb k k' then None else assoc k' l.
Proof.
  unfold unique. induction l as [|[nm c] l IH]; cbn [erase_first map]; intros U; [destruct (rname_eqb k k'); reflexivity|]. inversion U as [|? ? Ni Nd]; subst. cbn [fst] in Ni. change (finds k (nm, c)) with (rname_eqb k nm).
  rewrite assoc_cons. destruct (rname_eqb k nm) eqn:E.
  - apply rname_eqb_eq in E as ->. destruct (rname_eqb nm k') eqn:E2.
    + apply rname_eqb_eq in E2 as <-. apply assoc_none. exact Ni.
    + rewrite rname_eqb_neq; [reflexivity|]. intros ->. rewrite rname_eqb_refl in E2. discriminate.
  - rewrite assoc_cons, (IH Nd). destruct (rname_eqb k' nm) eqn:E2; [|reflexivity]. apply rname_eqb_eq in E2 as ->. rewrite E. reflexivity.
Qed.
Lemma change_keys k c l : map fst (change_first k c l) = map fst l.
Proof. induction l as [|e l IH]; [reflexivity|]. cbn [change_first]. destruct (finds k e); cbn [map fst]; congruence. Qed.
Lemma change_unique k c l : unique l -> unique (change_first k c l).
Proof. unfold unique. rewrite change_keys. tauto. Qed.
Lemma change_assoc k c l k' : assoc k' (change_first k c l) = if rname_eqb k k' then (match assoc k l with Some _ => Some c | None => None end) else assoc k' l.
Proof.
  induction l as [|[nm c0] l IH]; cbn [change_first]; [destruct (rname_eqb k k'); reflexivity|]. change (finds k (nm, c0)) with (rname_eqb k nm). rewrite !assoc_cons. destruct (rname_eqb k nm) eqn:E.
  - apply rname_eqb_eq in E as ->. cbn [fst]. rewrite assoc_cons. destruct (rname_eqb nm k') eqn:E2.
    + apply rname_eqb_eq in E2 as <-. rewrite rname_eqb_refl. reflexivity.
    + rewrite rname_eqb_neq; [reflexivity|]. intros ->. rewrite rname_eqb_refl in E2. discriminate.
  - rewrite assoc_cons, IH. destruct (rname_eqb k' nm) eqn:E2; [|reflexivity]. apply rname_eqb_eq in E2 as ->. rewrite E. reflexivity.
Qed.
Lemma app_assoc_new k c l k' : assoc k l = None -> assoc k' (l ++ [(k, c)]) = if rname_eqb k k' then Some c else assoc k' l.
Proof.
  induction l as [|[nm c0] l IH]; cbn [app]; rewrite !assoc_cons.
  - intros _. destruct (rname_eqb k' k) eqn:E.
    + apply rname_eqb_eq in E as ->. rewrite rname_eqb_refl. reflexivity.
    + rewrite rname_eqb_neq; [reflexivity|]. intros ->. rewrite rname_eqb_refl in E. discriminate.
  - destruct (rname_eqb k nm) eqn:E; [discriminate|]. intros H. rewrite (IH H). destruct (rname_eqb k' nm) eqn:E2; [|reflexivity]. apply rname_eqb_eq in E2 as ->. rewrite E. reflexivity.
Qed.
Lemma app_unique_new k c l : assoc k l = None -> unique l -> unique (l ++ [(k, c)]).
Proof.
  unfold unique. intros N U. rewrite map_app. cbn [map fst]. apply assoc_none in N. revert N U. generalize (map fst l). intros m. clear. induction m as [|x m IH]; cbn [app]; intros N U; [repeat constructor; tauto|].
  inversion U; subst. constructor; [|apply IH; [intros H3; apply N; right; exact H3|assumption]]. intros H3. apply in_app_or in H3 as [H3|[->|[]]]; [contradiction|]. apply N. left. reflexivity.
Qed.
(** Entries that are kept are good as before. *)
Lemma erase_Forall (P : rentry -> Prop) k l : Forall P l -> Forall P (erase_first k l).
Proof. rewrite !Forall_forall. intros H x Hx. apply H, (erase_keys _ _ _ Hx). Qed.
Lemma change_Forall (P : rnode -> Prop) k c l : P c -> Forall (fun e => P (snd e)) l -> Forall (fun e => P (snd e)) (change_first k c l).
Proof. intros Hc. induction 1 as [|e l He Hl IH]; cbn [change_first]; [constructor|]. destruct (finds k e); constructor; assumption. Qed.
Lemma assoc_Forall (P : rnode -> Prop) k l c : Forall (fun e => P (snd e)) l -> assoc k l = Some c -> P c.
Proof. unfold assoc. intros F H. destruct (find (finds k) l) as [e|] eqn:E; [|discriminate]. injection H as <-. apply find_some in E as [E _]. rewrite Forall_forall in F. apply F, E. Qed.

(** ** The three levels *)
Definition under (k : rname) (l : list rentry) : list rentry := match assoc k l with Some (RDir _ m) => m | _ => [] end.
(** On a tree of three levels reading is a lookup in three association lists. *)
Definition look (l1 : list rentry) (r n : rname) (l : Z) : res (list Z * Z) :=
  match assoc (Ided l) (under n (under r l1)) with Some (RData d c) => Ok (d, c) | _ => Throw resource_directory_entry_not_found end.
Lemma look_data h l1 r n l : Forall (fun e => name_level (snd e)) l1 -> resource_data (RDir h l1) l r n = look l1 r n l.
Proof.
  intros F1. unfold resource_data, languages_of, dir_by, look, under. cbn [dir_of bind]. rewrite !entry_by_assoc. destruct (assoc r l1) as [c1|] eqn:E1; cbn [bind]; [|reflexivity].
  destruct (assoc_Forall _ _ _ _ F1 E1) as (h2 & l2 & -> & _ & F2). cbn [dir_of bind]. rewrite !entry_by_assoc. destruct (assoc n l2) as [c2|] eqn:E2; cbn [bind]; [|reflexivity].
  destruct (assoc_Forall _ _ _ _ F2 E2) as (h3 & l3 & -> & _ & F3). cbn [dir_of bind]. rewrite entry_by_assoc. destruct (assoc (Ided l) l3) as [c3|] eqn:E3; cbn [bind]; [|reflexivity].
  destruct (assoc_Forall (fun c => exists d cp, c = RData d cp) _ _ _ F3 E3) as (d & cp & ->). reflexivity.
Qed.
Lemma under_change k h l' l k' : assoc k l <> None -> under k' (change_first k (RDir h l') l) = if rname_eqb k k' then l' else under k' l.
Proof. intros N. unfold under. rewrite change_assoc. destruct (rname_eqb k k'); [|reflexivity]. destruct (assoc k l); [reflexivity|congruence]. Qed.
Lemma under_erase k l k' : unique l -> under k' (erase_first k l) = if rname_eqb k k' then [] else under k' l.
Proof. intros U. unfold under. rewrite erase_assoc by exact U. destruct (rname_eqb k k'); reflexivity. Qed.
Lemma under_put k h l' l k' : unique l -> assoc k l <> None -> under k' (put_or_erase k h l' l) = if rname_eqb k k' then l' else under k' l.
Proof. intros U N. unfold put_or_erase. destruct l' as [|e l']; [apply under_erase; exact U|apply under_change; exact N]. Qed.
Lemma put_unique k h l' l : unique l -> unique (put_or_erase k h l' l).
Proof. intros U. unfold put_or_erase. destruct l'; [apply erase_unique|apply change_unique]; exact U. Qed.
Lemma put_Forall (P : rnode -> Prop) k h l' l : P (RDir h l') -> Forall (fun e => P (snd e)) l -> Forall (fun e => P (snd e)) (put_or_erase k h l' l).
Proof. intros Hc F. unfold put_or_erase. destruct l' as [|e l']; [apply erase_Forall; exact F|apply change_Forall; assumption]. Qed.
Lemma dec_eqb a b {A} (x y : A) : (if rname_dec a b then x else y) = (if rname_eqb b a then x else y).
Proof. destruct (rname_dec a b) as [->|N]; [rewrite rname_eqb_refl; reflexivity|]. rewrite rname_eqb_neq by congruence. reflexivity. Qed.
Lemma dec_eqb_id a b {A} (x y : A) : (if Z.eq_dec a b then x else y) = (if rname_eqb (Ided b) (Ided a) then x else y).
Proof. cbn [rname_eqb]. destruct (Z.eq_dec a b) as [->|N]; [rewrite Z.eqb_refl; reflexivity|]. replace (b =? a) with false by lia. reflexivity. Qed.

(** ** Reading *)
Definition not_there : res (list Z * Z) := Throw resource_directory_entry_not_found.
Lemma data_total t : three_levels t -> forall l r n, resource_data t l r n = not_there \/ exists v, resource_data t l r n = Ok v.
Proof.
  intros (h & l1 & -> & _ & F) l r n. rewrite look_data by exact F. unfold look. destruct (assoc _ _) as [[|d c|]|]; try (left; reflexivity). right. eauto.
Qed.

(** ** Changes *)
Lemma dir_or_new_ok (P : rnode -> Prop) k ts l : unique l -> Forall (fun e => P (snd e)) l -> (forall c, P c -> exists h m, c = RDir h m) -> P (RDir (new_rhead ts) []) ->
  exists l' h m, dir_or_new k ts l = Ok (l', (h, m)) /\ unique l' /\ Forall (fun e => P (snd e)) l' /\ assoc k l' = Some (RDir h m) /\ m = under k l /\ P (RDir h m) /\
    forall k', rname_eqb k k' = false -> assoc k' l' = assoc k' l.
Proof.
  intros U F D Pn. unfold dir_or_new. rewrite find_assoc. destruct (assoc k l) as [c|] eqn:E; cbn [option_map snd].
  - pose proof (assoc_Forall _ _ _ _ F E) as Pc. destruct (D c Pc) as (h & m & ->). cbn [dir_of bind]. exists l, h, m. split; [reflexivity|]. split; [exact U|]. split; [exact F|]. split; [exact E|].
    split; [unfold under; rewrite E; reflexivity|]. split; [exact Pc|reflexivity].
  - exists (l ++ [(k, RDir (new_rhead ts) [])]), (new_rhead ts), []. split; [reflexivity|]. split; [apply app_unique_new; assumption|]. split; [apply Forall_app; split; [exact F|repeat constructor; exact Pn]|].
    split; [rewrite app_assoc_new by exact E; rewrite rname_eqb_refl; reflexivity|]. split; [unfold under; rewrite E; reflexivity|]. split; [exact Pn|]. intros k' N. rewrite app_assoc_new by exact E. rewrite N. reflexivity.
Qed.
Lemma add_ok t data root name language codepage timestamp : three_levels t ->
  exists t', add_resource t data root name language codepage timestamp = Ok t' /\ three_levels t' /\
    forall r n l, resource_data t' l r n = if rname_dec r root then if rname_dec n name then if Z.eq_dec l language then Ok (data, codepage) else resource_data t l r n else resource_data t l r n else resource_data t l r n.
Proof.
  intros (h & l1 & -> & U1 & F1). unfold add_resource. cbn [dir_of bind].
  assert (D1 : forall c, name_level c -> exists h m, c = RDir h m) by (intros c (h' & m & -> & _); eauto).
  assert (D2 : forall c, language_level c -> exists h m, c = RDir h m) by (intros c (h' & m & -> & _); eauto).
  assert (N1 : name_level (RDir (new_rhead timestamp) [])) by (do 2 eexists; split; [reflexivity|split; constructor]).
  assert (N2 : language_level (RDir (new_rhead timestamp) [])) by (do 2 eexists; split; [reflexivity|split; constructor]).
  destruct (dir_or_new_ok name_level root timestamp l1 U1 F1 D1 N1) as (l1' & h2 & l2 & -> & U1' & F1' & A1 & E2 & P2 & K1). cbn [bind].
  destruct P2 as (h2' & l2x & Q & U2 & F2). injection Q as <- <-.
  destruct (dir_or_new_ok language_level name timestamp l2 U2 F2 D2 N2) as (l2' & h3 & l3 & -> & U2' & F2' & A2 & E3 & P3 & K2). cbn [bind].
  destruct P3 as (h3' & l3x & Q & U3 & F3). injection Q as <- <-. cbv zeta. set (l3' := erase_first (Ided language) l3 ++ [(Ided language, RData data codepage)]).
  assert (An : assoc (Ided language) (erase_first (Ided language) l3) = None) by (rewrite erase_assoc by exact U3; rewrite rname_eqb_refl; reflexivity).
  assert (U3' : unique l3') by (apply app_unique_new; [exact An|apply erase_unique; exact U3]).
  assert (F3' : Forall (fun e => exists d c, snd e = RData d c) l3') by (apply Forall_app; split; [apply erase_Forall; exact F3|repeat constructor; cbn [snd]; eauto]).
  assert (L3 : language_level (RDir h3 l3')) by (do 2 eexists; split; [reflexivity|split; assumption]).
  assert (L2 : name_level (RDir h2 (change_first name (RDir h3 l3') l2'))) by (do 2 eexists; split; [reflexivity|split; [apply change_unique; exact U2'|apply change_Forall; assumption]]).
  assert (Fn : Forall (fun e => name_level (snd e)) (change_first root (RDir h2 (change_first name (RDir h3 l3') l2')) l1')) by (apply change_Forall; assumption).
  eexists. split; [reflexivity|]. split; [do 2 eexists; split; [reflexivity|split; [apply change_unique; exact U1'|exact Fn]]|].
  intros r n l. rewrite !look_data by assumption. rewrite !dec_eqb, dec_eqb_id. unfold look. rewrite under_change by congruence. destruct (rname_eqb root r) eqn:Er.
  - apply rname_eqb_eq in Er as <-. rewrite under_change by congruence. destruct (rname_eqb name n) eqn:En.
    + apply rname_eqb_eq in En as <-. unfold l3'. rewrite app_assoc_new by exact An. destruct (rname_eqb (Ided language) (Ided l)) eqn:El; [reflexivity|]. rewrite erase_assoc by exact U3. rewrite El, <- E2, <- E3. reflexivity.
    + unfold under at 1. rewrite K2 by exact En. rewrite <- E2. reflexivity.
  - unfold under at 2. rewrite K1 by exact Er. reflexivity.
Qed.
Lemma remove_language_ok t root name language : three_levels t ->
  exists t' b, remove_language t root name language = Ok (t', b) /\ three_levels t' /\ (b = true <-> exists v, resource_data t language root name = Ok v) /\
    forall r n l, resource_data t' l r n = if rname_dec r root then if rname_dec n name then if Z.eq_dec l language then not_there else resource_data t l r n else resource_data t l r n else resource_data t l r n.
Proof.
  intros T. pose proof T as (h & l1 & -> & U1 & F1). unfold remove_language. cbn [dir_of bind]. rewrite find_assoc.
  (* the key is not there *)
  assert (No : look l1 root name language = not_there -> exists t' b, Ok (RDir h l1, false) = Ok (t', b) /\ three_levels t' /\ (b = true <-> exists v, resource_data (RDir h l1) language root name = Ok v) /\
    forall r n l, resource_data t' l r n = if rname_dec r root then if rname_dec n name then if Z.eq_dec l language then not_there else resource_data (RDir h l1) l r n else resource_data (RDir h l1) l r n else resource_data (RDir h l1) l r n).
  { intros E. exists (RDir h l1), false. split; [reflexivity|]. split; [exact T|]. rewrite look_data by exact F1. rewrite E. split; [split; [discriminate|intros [v [=]]]|].
    intros r n l. destruct (rname_dec r root) as [->|]; [|reflexivity]. destruct (rname_dec n name) as [->|]; [|reflexivity]. destruct (Z.eq_dec l language) as [->|]; [|reflexivity]. rewrite look_data by exact F1. exact E. }
  unfold look, under in No. destruct (assoc root l1) as [c1|] eqn:E1; cbn [option_map snd bind]; [|apply No; reflexivity].
  destruct (assoc_Forall _ _ _ _ F1 E1) as (h2 & l2 & -> & U2 & F2). cbn [dir_of bind]. rewrite find_assoc. destruct (assoc name l2) as [c2|] eqn:E2; cbn [option_map snd bind]; [|apply No; reflexivity].
  destruct (assoc_Forall _ _ _ _ F2 E2) as (h3 & l3 & -> & U3 & F3). cbn [dir_of bind]. rewrite existsb_assoc. destruct (assoc (Ided language) l3) as [c3|] eqn:E3; [|apply No; reflexivity]. clear No.
  destruct (assoc_Forall (fun c => exists d cp, c = RData d cp) _ _ _ F3 E3) as (d & cp & ->).
  assert (L3 : language_level (RDir h3 (erase_first (Ided language) l3))) by (do 2 eexists; split; [reflexivity|split; [apply erase_unique; exact U3|apply erase_Forall; exact F3]]).
  set (l2' := put_or_erase name h3 (erase_first (Ided language) l3) l2).
  assert (L2 : name_level (RDir h2 l2')) by (do 2 eexists; split; [reflexivity|split; [apply put_unique; exact U2|apply put_Forall; assumption]]).
  assert (Fn : Forall (fun e => name_level (snd e)) (put_or_erase root h2 l2' l1)) by (apply put_Forall; assumption).
  do 2 eexists. split; [reflexivity|]. split; [do 2 eexists; split; [reflexivity|split; [apply put_unique; exact U1|exact Fn]]|].
  split; [split; [intros _|reflexivity]; rewrite look_data by exact F1; unfold look, under; rewrite E1, E2, E3; eauto|].
  intros r n l. rewrite !look_data by assumption. rewrite !dec_eqb, dec_eqb_id. unfold look. rewrite under_put by (try exact U1; congruence). destruct (rname_eqb root r) eqn:Er; [|reflexivity].
  apply rname_eqb_eq in Er as <-. unfold l2'. rewrite under_put by (try exact U2; congruence). assert (under root l1 = l2) as -> by (unfold under; rewrite E1; reflexivity).
  destruct (rname_eqb name n) eqn:En; [|reflexivity]. apply rname_eqb_eq in En as <-. assert (under name l2 = l3) as -> by (unfold under; rewrite E2; reflexivity).
  rewrite erase_assoc by exact U3. destruct (rname_eqb (Ided language) (Ided l)); reflexivity.
Qed.
Lemma remove_name_ok t root name : three_levels t ->
  exists t' b, remove_name t root name = Ok (t', b) /\ three_levels t' /\ (b = true <-> exists l, languages_of t root name = Ok l) /\
    forall r n l, resource_data t' l r n = if rname_dec r root then if rname_dec n name then not_there else resource_data t l r n else resource_data t l r n.
Proof.
  intros T. pose proof T as (h & l1 & -> & U1 & F1). unfold remove_name. cbn [dir_of bind]. rewrite find_assoc.
  assert (No : assoc name (under root l1) = None -> exists t' b, Ok (RDir h l1, false) = Ok (t', b) /\ three_levels t' /\ (b = true <-> exists l, languages_of (RDir h l1) root name = Ok l) /\
    forall r n l, resource_data t' l r n = if rname_dec r root then if rname_dec n name then not_there else resource_data (RDir h l1) l r n else resource_data (RDir h l1) l r n).
  { intros E. exists (RDir h l1), false. split; [reflexivity|]. split; [exact T|]. split.
    - split; [discriminate|]. intros [l Hl]. unfold languages_of, dir_by in Hl. cbn [dir_of bind] in Hl. rewrite !entry_by_assoc in Hl. unfold under in E. destruct (assoc root l1) as [[| |h2 l2]|]; try discriminate Hl. cbn [bind dir_of] in Hl. rewrite entry_by_assoc, E in Hl. discriminate Hl.
    - intros r n l. destruct (rname_dec r root) as [->|]; [|reflexivity]. destruct (rname_dec n name) as [->|]; [|reflexivity]. rewrite look_data by exact F1. unfold look, under at 1. rewrite E. reflexivity. }
  unfold under in No. destruct (assoc root l1) as [c1|] eqn:E1; cbn [option_map snd bind]; [|apply No; reflexivity].
  destruct (assoc_Forall _ _ _ _ F1 E1) as (h2 & l2 & -> & U2 & F2). cbn [dir_of bind]. rewrite existsb_assoc. destruct (assoc name l2) as [c2|] eqn:E2; cbn [option_map snd bind]; [|apply No; reflexivity]. clear No.
  destruct (assoc_Forall _ _ _ _ F2 E2) as (h3 & l3 & -> & U3 & F3).
  assert (L2 : name_level (RDir h2 (erase_first name l2))) by (do 2 eexists; split; [reflexivity|split; [apply erase_unique; exact U2|apply erase_Forall; exact F2]]).
  assert (Fn : Forall (fun e => name_level (snd e)) (put_or_erase root h2 (erase_first name l2) l1)) by (apply put_Forall; assumption).
  do 2 eexists. split; [reflexivity|]. split; [do 2 eexists; split; [reflexivity|split; [apply put_unique; exact U1|exact Fn]]|].
  split; [split; [intros _|reflexivity]; exists l3; unfold languages_of, dir_by; cbn [dir_of bind]; rewrite entry_by_assoc, E1; cbn [dir_of bind]; rewrite entry_by_assoc, E2; reflexivity|].
  intros r n l. rewrite !look_data by assumption. rewrite !dec_eqb. unfold look. rewrite under_put by (try exact U1; congruence). destruct (rname_eqb root r) eqn:Er; [|reflexivity].
  apply rname_eqb_eq in Er as <-. rewrite under_erase by exact U2. assert (under root l1 = l2) as -> by (unfold under; rewrite E1; reflexivity). destruct (rname_eqb name n); reflexivity.
Qed.
Lemma remove_root_ok t root : three_levels t ->
  exists t' b, remove_root t root = Ok (t', b) /\ three_levels t' /\ resource_exists t root = Ok b /\
    forall r n l, resource_data t' l r n = if rname_dec r root then not_there else resource_data t l r n.
Proof.
  intros T. pose proof T as (h & l1 & -> & U1 & F1). unfold remove_root, resource_exists. cbn [dir_of bind]. rewrite existsb_assoc. destruct (assoc root l1) as [c1|] eqn:E1.
  - assert (Fn : Forall (fun e => name_level (snd e)) (erase_first root l1)) by (apply erase_Forall; exact F1).
    do 2 eexists. split; [reflexivity|]. split; [do 2 eexists; split; [reflexivity|split; [apply erase_unique; exact U1|exact Fn]]|]. split; [reflexivity|].
    intros r n l. rewrite !look_data by assumption. rewrite dec_eqb. unfold look. rewrite under_erase by exact U1. destruct (rname_eqb root r); reflexivity.
  - exists (RDir h l1), false. split; [reflexivity|]. split; [exact T|]. split; [reflexivity|]. intros r n l. destruct (rname_dec r root) as [->|]; [|reflexivity]. rewrite look_data by exact F1. unfold look, under at 2. rewrite E1. reflexivity.
Qed.

(** ** Histories *)
Lemma change_ok t o : three_levels t -> exists t', apply_change t o = Ok t' /\ three_levels t' /\ forall r n l, content t' r n l = effect (content t) o r n l.
Proof.
  intros T. destruct o as [data root name language codepage timestamp|root name language|root name|root]; cbn [apply_change effect]; unfold content.
  - destruct (add_ok t data root name language codepage timestamp T) as (t' & -> & T' & K). exists t'. split; [reflexivity|]. split; [exact T'|]. intros r n l. rewrite K. do 2 (destruct (rname_dec _ _); [|reflexivity]). destruct (Z.eq_dec _ _); reflexivity.
  - destruct (remove_language_ok t root name language T) as (t' & b & -> & T' & _ & K). exists t'. split; [reflexivity|]. split; [exact T'|]. intros r n l. rewrite K. do 2 (destruct (rname_dec _ _); [|reflexivity]). destruct (Z.eq_dec _ _); reflexivity.
  - destruct (remove_name_ok t root name T) as (t' & b & -> & T' & _ & K). exists t'. split; [reflexivity|]. split; [exact T'|]. intros r n l. rewrite K. do 2 (destruct (rname_dec _ _); [|reflexivity]). reflexivity.
  - destruct (remove_root_ok t root T) as (t' & b & -> & T' & _ & K). exists t'. split; [reflexivity|]. split; [exact T'|]. intros r n l. rewrite K. destruct (rname_dec _ _); reflexivity.
Qed.
Lemma effect_ext m m' o : (forall r n l, m r n l = m' r n l) -> forall r n l, effect m o r n l = effect m' o r n l.
Proof. intros H r n l. destruct o; cbn [effect]; repeat (destruct (rname_dec _ _); [|apply H]); try (destruct (Z.eq_dec _ _)); auto. Qed.
Lemma effects_ext ops : forall m m', (forall r n l, m r n l = m' r n l) -> forall r n l, fold_left effect ops m r n l = fold_left effect ops m' r n l.
Proof. induction ops as [|o ops IH]; intros m m' H; cbn [fold_left]; [exact H|]. apply IH. apply effect_ext. exact H. Qed.
Lemma history_ok ops : forall t, three_levels t -> exists t', mfold apply_change ops t = Ok t' /\ three_levels t' /\ forall r n l, content t' r n l = fold_left effect ops (content t) r n l.
Proof.
  induction ops as [|o ops IH]; intros t T; cbn [mfold fold_left]; [exists t; auto|]. destruct (change_ok t o T) as (t1 & -> & T1 & K1). cbn [bind]. destruct (IH t1 T1) as (t2 & E2 & T2 & K2).
  exists t2. split; [exact E2|]. split; [exact T2|]. intros r n l. rewrite K2. apply effects_ext. exact K1.
Qed.

(** ** Listing *)
Lemma in_ids k l : In k (id_list l) <-> exists c, In (Ided k, c) l.
Proof.
  unfold id_list. rewrite in_flat_map. split.
  - intros ([nm c] & H1 & H2). cbn [fst] in H2. destruct nm; [destruct H2|]. destruct H2 as [->|[]]. eauto.
  - intros [c H]. exists (Ided k, c). split; [exact H|]. left. reflexivity.
Qed.
Lemma in_names s l : In s (name_list l) <-> exists c, In (Named s, c) l.
Proof.
  unfold name_list. rewrite in_flat_map. split.
  - intros ([nm c] & H1 & H2). cbn [fst] in H2. destruct nm; [|destruct H2]. destruct H2 as [->|[]]. eauto.
  - intros [c H]. exists (Named s, c). split; [exact H|]. left. reflexivity.
Qed.
Lemma nodup_ids l : unique l -> NoDup (id_list l).
Proof.
  unfold unique, id_list. induction l as [|[nm c] l IH]; cbn [map flat_map fst]; intros U; [constructor|]. inversion U as [|? ? Ni Nd]; subst. destruct nm as [s|k]; cbn [app]; [apply IH, Nd|]. constructor; [|apply IH, Nd].
  intros H. apply in_ids in H as [c' H]. apply Ni. apply (in_map fst) in H. exact H.
Qed.
Lemma zlen_ids l : zlen (id_list l) = count_ids l.
Proof. unfold id_list, count_ids. induction l as [|[[s|k] c] l IH]; [reflexivity|exact IH|]. cbn [flat_map filter fst app is_named negb]. rewrite !zlen_cons, IH. reflexivity. Qed.
Lemma languages_ok t root name : three_levels t -> match languages_of t root name with
  | Ok m => (forall l, In l (id_list m) <-> exists v, resource_data t l root name = Ok v) /\ NoDup (id_list m)
  | x => x = Throw resource_directory_entry_not_found /\ forall l, resource_data t l root name = not_there
  end.
Proof.
  intros (h & l1 & -> & U1 & F1). unfold resource_data, languages_of, dir_by. cbn [dir_of bind]. rewrite entry_by_assoc. destruct (assoc root l1) as [c1|] eqn:E1; cbn [bind]; [|split; reflexivity].
  destruct (assoc_Forall _ _ _ _ F1 E1) as (h2 & l2 & -> & U2 & F2). cbn [dir_of bind]. rewrite entry_by_assoc. destruct (assoc name l2) as [c2|] eqn:E2; cbn [bind]; [|split; reflexivity].
  destruct (assoc_Forall _ _ _ _ F2 E2) as (h3 & l3 & -> & U3 & F3). cbn [dir_of bind]. split; [|apply nodup_ids, U3]. intros l. rewrite in_ids, entry_by_assoc. split.
  - intros [c Hc]. apply (assoc_in _ _ U3) in Hc. rewrite Hc. cbn [bind]. destruct (assoc_Forall (fun c => exists d cp, c = RData d cp) _ _ _ F3 Hc) as (d & cp & ->). cbn [leaf_of]. eauto.
  - destruct (assoc (Ided l) l3) as [c|] eqn:E; cbn [bind]; [|intros [v [=]]]. intros _. exists c. apply (assoc_in _ _ U3), E.
Qed.
Lemma names_ok t root : three_levels t -> match list_ids t root, list_names t root with
  | Ok ids, Ok names => (forall k, In k ids <-> exists m, languages_of t root (Ided k) = Ok m) /\ (forall s, In s names <-> exists m, languages_of t root (Named s) = Ok m)
  | x, y => x = Throw resource_directory_entry_not_found /\ y = Throw resource_directory_entry_not_found /\ forall n, languages_of t root n = Throw resource_directory_entry_not_found
  end.
Proof.
  intros (h & l1 & -> & U1 & F1). unfold list_ids, list_names, languages_of, dir_by. cbn [dir_of bind]. rewrite entry_by_assoc. destruct (assoc root l1) as [c1|] eqn:E1; cbn [bind]; [|repeat split; reflexivity].
  destruct (assoc_Forall _ _ _ _ F1 E1) as (h2 & l2 & -> & U2 & F2). cbn [dir_of bind].
  assert (K : forall nm, (exists c, In (nm, c) l2) <-> exists m, (' (_, l3) <- (c <- entry_by nm l2 ;; dir_of c) ;; Ok l3) = Ok m).
  { intros nm. rewrite entry_by_assoc. split.
    - intros [c Hc]. apply (assoc_in _ _ U2) in Hc. rewrite Hc. destruct (assoc_Forall _ _ _ _ F2 Hc) as (h3 & l3 & -> & _). cbn [bind dir_of]. eauto.
    - destruct (assoc nm l2) as [c|] eqn:E; cbn [bind]; [|intros [v [=]]]. intros _. exists c. apply (assoc_in _ _ U2), E. }
  split; intros x; [rewrite in_ids|rewrite in_names]; apply K.
Qed.
Lemma types_ok t : three_levels t -> match list_types t with
  | Ok ids => forall k, In k ids <-> resource_exists t (Ided k) = Ok true
  | _ => False
  end.
Proof.
  intros (h & l1 & -> & U1 & F1). unfold list_types, resource_exists. cbn [dir_of bind]. intros k. rewrite in_ids, existsb_assoc. split.
  - intros [c Hc]. apply (assoc_in _ _ U1) in Hc. rewrite Hc. reflexivity.
  - destruct (assoc (Ided k) l1) as [c|] eqn:E; [|discriminate]. intros _. exists c. apply (assoc_in _ _ U1), E.
Qed.
Lemma languages_spec t root name : three_levels t ->
  match list_languages t root name with
  | Ok ids => (forall l, In l ids <-> exists v, resource_data t l root name = Ok v) /\ NoDup ids /\ language_count t root name = Ok (u32 (zlen ids))
  | x => x = Throw resource_directory_entry_not_found /\ forall l, resource_data t l root name = Throw resource_directory_entry_not_found
  end.
Proof.
  intros T. pose proof (languages_ok t root name T) as H. unfold list_languages, language_count. destruct (languages_of t root name) as [m|e|u|]; cbn [bind].
  - destruct H as [H1 H2]. split; [exact H1|]. split; [exact H2|]. rewrite zlen_ids. reflexivity.
  - destruct H as [[= ->] H]. split; [reflexivity|exact H].
  - destruct H as [[=] H].
  - destruct H as [[=] H].
Qed.

(** ** Directories, counts and indices *)
Lemma find_dec k l : find (fun e : rentry => if rname_dec k (fst e) then true else false) l = option_map (fun c => (k, c)) (assoc k l).
Proof.
  rewrite <- find_assoc. induction l as [|e l IH]; [reflexivity|]. cbn [find]. unfold finds at 1. rewrite (dec_eqb k (fst e)).
  destruct (rname_eqb (fst e) k) eqn:E.
  - apply rname_eqb_eq in E as <-. rewrite rname_eqb_refl. reflexivity.
  - rewrite rname_eqb_neq; [exact IH|]. intros ->. rewrite rname_eqb_refl in E. discriminate E.
Qed.
Lemma head_cons k rest h l : head_at (k :: rest) (RDir h l) = match assoc k l with Some c => head_at rest c | None => None end.
Proof. cbn [head_at]. rewrite find_dec. destruct (assoc k l); reflexivity. Qed.
Lemma dir_or_new_head k ts l l' h m : dir_or_new k ts l = Ok (l', (h, m)) ->
  match assoc k l with Some c => c = RDir h m /\ l' = l | None => h = new_rhead ts /\ m = [] /\ l' = l ++ [(k, RDir h m)] end.
Proof.
  unfold dir_or_new. rewrite find_assoc. destruct (assoc k l) as [c|]; cbn [option_map snd].
  - destruct c as [|d cp|h' m']; cbn [dir_of bind]; [discriminate|discriminate|]. intros [= <- <- <-]. split; reflexivity.
  - intros [= <- <- <-]. repeat split; reflexivity.
Qed.
Lemma head_leaf rest e : (exists d c, e = RData d c) -> head_at rest e = None.
Proof. intros (d & c & ->). destruct rest; reflexivity. Qed.

Lemma add_heads t data root name language codepage timestamp t' : three_levels t -> add_resource t data root name language codepage timestamp = Ok t' ->
  forall path, head_at path t' = match head_at path t with Some h => Some h
    | None => if rpath_dec path [root] then Some (new_rhead timestamp) else if rpath_dec path [root; name] then Some (new_rhead timestamp) else None end.
Proof.
  intros (h & l1 & -> & U1 & F1) E path. unfold add_resource in E. cbn [dir_of bind] in E.
  destruct (dir_or_new root timestamp l1) as [[l1' [h2 l2]]|e|u|] eqn:E1; cbn [bind] in E; try discriminate E.
  destruct (dir_or_new name timestamp l2) as [[l2' [h3 l3]]|e|u|] eqn:E2; cbn [bind] in E; try discriminate E.
  cbv zeta in E. injection E as <-. apply dir_or_new_head in E1, E2. destruct path as [|k rest]; [reflexivity|]. rewrite !head_cons, change_assoc.
  assert (A1 : assoc root l1' = Some (RDir h2 l2)). { destruct (assoc root l1) as [c|] eqn:A; [destruct E1 as [-> ->]; exact A|]. destruct E1 as (_ & _ & ->). rewrite app_assoc_new by exact A. rewrite rname_eqb_refl. reflexivity. }
  assert (A2 : assoc name l2' = Some (RDir h3 l3)). { destruct (assoc name l2) as [c|] eqn:A; [destruct E2 as [-> ->]; exact A|]. destruct E2 as (_ & _ & ->). rewrite app_assoc_new by exact A. rewrite rname_eqb_refl. reflexivity. }
  destruct (rname_eqb root k) eqn:Ek.
  - apply rname_eqb_eq in Ek as <-. rewrite A1.
    assert (R : match assoc root l1 with Some c => head_at rest c | None => None end = match assoc root l1 with Some _ => head_at rest (RDir h2 l2) | None => None end) by (destruct (assoc root l1) as [c|]; [destruct E1 as [-> _]; reflexivity|reflexivity]).
    rewrite R. clear R. destruct rest as [|k2 rest].
    + cbn [head_at]. destruct (assoc root l1) as [c|]; [reflexivity|]. destruct E1 as (-> & _ & _). destruct (rpath_dec [root] [root]); [reflexivity|congruence].
    + rewrite !head_cons, change_assoc. destruct (rpath_dec (root :: k2 :: rest) [root]) as [Q|_]; [discriminate Q|]. destruct (rname_eqb name k2) eqn:Ek2.
      * apply rname_eqb_eq in Ek2 as <-. rewrite A2. destruct rest as [|k3 rest].
        -- cbn [head_at]. destruct (rpath_dec [root; name] [root; name]) as [_|]; [|congruence]. destruct (assoc root l1) as [c|] eqn:A.
           ++ destruct (assoc name l2) as [c2|]; [destruct E2 as [-> _]; reflexivity|destruct E2 as (-> & _); reflexivity].
           ++ destruct E1 as (_ & -> & _). cbn in E2. destruct E2 as (-> & _). reflexivity.
        -- destruct (rpath_dec (root :: name :: k3 :: rest) [root; name]) as [Q|_]; [discriminate Q|]. 
           assert (L : head_at (k3 :: rest) (RDir h3 l3) = None /\ unique l3 /\ Forall (fun e => exists d c, snd e = RData d c) l3).
           { destruct (assoc name l2) as [c2|] eqn:B.
             - destruct E2 as [-> ->]. destruct (assoc root l1) as [c|] eqn:A; [|destruct E1 as (_ & -> & _); discriminate B]. destruct E1 as [-> ->].
               destruct (assoc_Forall _ _ _ _ F1 A) as (h2' & l2x & Q & U2 & F2). injection Q as <- <-. destruct (assoc_Forall _ _ _ _ F2 B) as (h3' & l3x & Q & U3 & F3). injection Q as <- <-.
               split; [|split; assumption]. rewrite head_cons. destruct (assoc k3 l3) as [x|] eqn:X; [|reflexivity]. apply head_leaf. exact (assoc_Forall (fun c => exists d cp, c = RData d cp) _ _ _ F3 X).
             - destruct E2 as (_ & -> & _). split; [reflexivity|]. split; [constructor|constructor]. }
           destruct L as (L & U3 & F3). transitivity (@None rhead).
           ++ rewrite head_cons. destruct (assoc k3 _) as [x|] eqn:X; [|reflexivity]. apply head_leaf. refine (assoc_Forall (fun c => exists d cp, c = RData d cp) _ _ _ _ X).
              apply Forall_app. split; [apply erase_Forall; exact F3|]. constructor; [cbn [snd]; eauto|constructor].
           ++ destruct (assoc root l1) as [c|]; [|reflexivity]. destruct (assoc name l2) as [c2|]; [|reflexivity]. destruct E2 as [-> _]. rewrite L. reflexivity.
      * destruct (rpath_dec (root :: k2 :: rest) [root; name]) as [Q|_]; [injection Q as -> ->; rewrite rname_eqb_refl in Ek2; discriminate Ek2|].
        assert (K2 : assoc k2 l2' = assoc k2 l2). { destruct (assoc name l2) as [c|] eqn:A; [destruct E2 as [_ ->]; reflexivity|]. destruct E2 as (_ & _ & ->). rewrite app_assoc_new by exact A. rewrite Ek2. reflexivity. }
        rewrite K2. destruct (assoc root l1) as [c|] eqn:A.
        -- destruct (assoc k2 l2) as [c2|]; [destruct (head_at rest c2); reflexivity|reflexivity].
        -- destruct E1 as (_ & -> & _). reflexivity.
  - assert (K1 : assoc k l1' = assoc k l1). { destruct (assoc root l1) as [c|] eqn:A; [destruct E1 as [_ ->]; reflexivity|]. destruct E1 as (_ & _ & ->). rewrite app_assoc_new by exact A. rewrite Ek. reflexivity. }
    rewrite K1. destruct (rpath_dec (k :: rest) [root]) as [Q|_]; [injection Q as -> ->; rewrite rname_eqb_refl in Ek; discriminate Ek|].
    destruct (rpath_dec (k :: rest) [root; name]) as [Q|_]; [injection Q as -> ->; rewrite rname_eqb_refl in Ek; discriminate Ek|].
    destruct (assoc k l1) as [c|]; [destruct (head_at rest c); reflexivity|reflexivity].
Qed.

(** Removing only takes directories away, and only empty ones below the key. *)
Lemma within_erase k h l : unique l -> heads_within (RDir h l) (RDir h (erase_first k l)).
Proof.
  intros U path g. destruct path as [|x rest]; [exact (fun E => E)|]. rewrite !head_cons, erase_assoc by exact U. destruct (rname_eqb k x); [discriminate|exact (fun E => E)].
Qed.
Lemma within_put k h hk lk lk' l : unique l -> assoc k l = Some (RDir hk lk) -> heads_within (RDir hk lk) (RDir hk lk') -> heads_within (RDir h l) (RDir h (put_or_erase k hk lk' l)).
Proof.
  intros U A W. unfold put_or_erase. destruct lk' as [|e lk']; [apply within_erase; exact U|].
  intros path g. destruct path as [|x rest]; [exact (fun E => E)|]. rewrite !head_cons, change_assoc. destruct (rname_eqb k x) eqn:E; [|exact (fun E => E)].
  apply rname_eqb_eq in E as <-. rewrite A. apply W.
Qed.
Lemma remove_heads t o t' : three_levels t -> match o with Add _ _ _ _ _ _ => False | _ => True end -> apply_change t o = Ok t' -> heads_within t t'.
Proof.
  intros (h & l1 & -> & U1 & F1) No E. destruct o as [d r n l c ts|r n l|r n|r]; [destruct No| | |]; cbn [apply_change] in E; unfold remove_language, remove_name, remove_root in E; cbn [dir_of bind] in E.
  - rewrite find_assoc in E. destruct (assoc r l1) as [c1|] eqn:A1; cbn [option_map snd bind] in E; [|injection E as <-; intros ? ? H; exact H].
    destruct (assoc_Forall _ _ _ _ F1 A1) as (h2 & l2 & -> & U2 & F2). cbn [dir_of bind] in E.
    rewrite find_assoc in E. destruct (assoc n l2) as [c2|] eqn:A2; cbn [option_map snd bind] in E; [|injection E as <-; intros ? ? H; exact H].
    destruct (assoc_Forall _ _ _ _ F2 A2) as (h3 & l3 & -> & U3 & F3). cbn [dir_of bind] in E.
    destruct (existsb (finds (Ided l)) l3); cbn [bind] in E; injection E as <-; [|intros ? ? H; exact H].
    apply (within_put r h h2 l2); [exact U1|exact A1|]. apply (within_put n h2 h3 l3); [exact U2|exact A2|]. apply within_erase; exact U3.
  - rewrite find_assoc in E. destruct (assoc r l1) as [c1|] eqn:A1; cbn [option_map snd bind] in E; [|injection E as <-; intros ? ? H; exact H].
    destruct (assoc_Forall _ _ _ _ F1 A1) as (h2 & l2 & -> & U2 & F2). cbn [dir_of bind] in E.
    destruct (existsb (finds n) l2); cbn [bind] in E; injection E as <-; [|intros ? ? H; exact H].
    apply (within_put r h h2 l2); [exact U1|exact A1|]. apply within_erase; exact U2.
  - destruct (existsb (finds r) l1); cbn [bind] in E; injection E as <-; [|intros ? ? H; exact H]. apply within_erase; exact U1.
Qed.

Lemma nodup_names l : unique l -> NoDup (name_list l).
Proof.
  unfold unique, name_list. induction l as [|[nm c] l IH]; cbn [map flat_map fst]; intros U; [constructor|]. inversion U as [|? ? Ni Nd]; subst. destruct nm as [s|k]; cbn [app]; [|apply IH, Nd]. constructor; [|apply IH, Nd].
  intros H. apply in_names in H as [c' H]. apply Ni. apply (in_map fst) in H. exact H.
Qed.
Lemma zlen_all l : zlen (id_list l) + zlen (name_list l) = zlen l.
Proof. unfold id_list, name_list. induction l as [|[[s|k] c] l IH]; [reflexivity| |]; cbn [flat_map fst app]; rewrite !zlen_cons; lia. Qed.
Lemma count_ok t root : three_levels t -> match resource_count t root with
  | Ok n => exists ids names, list_ids t root = Ok ids /\ list_names t root = Ok names /\ NoDup ids /\ NoDup names /\ n = (zlen ids + zlen names) mod 2^32
  | x => x = Throw resource_directory_entry_not_found /\ list_ids t root = Throw resource_directory_entry_not_found
  end.
Proof.
  intros (h & l1 & -> & U1 & F1). unfold resource_count, list_ids, list_names, dir_by. cbn [dir_of bind]. rewrite entry_by_assoc. destruct (assoc root l1) as [c1|] eqn:E1; cbn [bind]; [|split; reflexivity].
  destruct (assoc_Forall _ _ _ _ F1 E1) as (h2 & l2 & -> & U2 & F2). cbn [dir_of bind]. exists (id_list l2), (name_list l2). rewrite zlen_all. repeat split; [apply nodup_ids, U2|apply nodup_names, U2].
Qed.
Lemma ids_only l : name_list l = [] -> map fst l = map Ided (id_list l).
Proof. unfold id_list, name_list. induction l as [|[[s|k] c] l IH]; [reflexivity|discriminate|]. cbn [flat_map fst app map]. intros E. rewrite IH by exact E. reflexivity. Qed.
Lemma index_raw t root name l : three_levels t -> languages_of t root name = Ok l -> name_list l = [] -> forall i, 0 <= i ->
  list_languages t root name = Ok (id_list l) /\
  resource_data_at t root name i = match nth_error (id_list l) (Z.to_nat i) with Some language => resource_data t language root name | None => Throw resource_data_entry_not_found end.
Proof.
  intros (h & l1 & -> & U1 & F1) E N i Hi. unfold list_languages, resource_data_at, resource_data. rewrite E. cbn [bind]. split; [reflexivity|].
  unfold languages_of, dir_by in E. cbn [dir_of bind] in E. rewrite entry_by_assoc in E. destruct (assoc root l1) as [c1|] eqn:E1; cbn [bind] in E; [|discriminate E].
  destruct (assoc_Forall _ _ _ _ F1 E1) as (h2 & l2 & -> & U2 & F2). cbn [dir_of bind] in E. rewrite entry_by_assoc in E. destruct (assoc name l2) as [c2|] eqn:E2; cbn [bind] in E; [|discriminate E].
  destruct (assoc_Forall _ _ _ _ F2 E2) as (h3 & l3 & -> & U3 & F3). cbn [dir_of bind] in E. injection E as ->.
  pose proof (ids_only l N) as M. assert (Q : nth_error (map fst l) (Z.to_nat i) = nth_error (map Ided (id_list l)) (Z.to_nat i)) by (rewrite M; reflexivity).
  rewrite !nth_error_map in Q. destruct (nth_error l (Z.to_nat i)) as [[k c]|] eqn:X; cbn [option_map fst] in Q.
  - destruct (nth_error (id_list l) (Z.to_nat i)) as [g|]; cbn [option_map] in Q; [|discriminate Q]. injection Q as ->. apply nth_error_In in X. apply (assoc_in _ _ U3) in X.
    rewrite entry_by_assoc, X. reflexivity.
  - destruct (nth_error (id_list l) (Z.to_nat i)) as [g|]; cbn [option_map] in Q; [discriminate Q|]. reflexivity.
Qed.
Lemma index_ok t root name l ids : three_levels t -> languages_of t root name = Ok l -> Forall (fun e => exists k, fst e = Ided k) l -> list_languages t root name = Ok ids ->
  forall i, 0 <= i -> resource_data_at t root name i = match nth_error ids (Z.to_nat i) with Some language => resource_data t language root name | None => Throw resource_data_entry_not_found end.
Proof.
  intros T E F L i Hi. assert (N : name_list l = []). { clear -F. induction F as [|[k c] l [x K] F IH]; [reflexivity|]. cbn [fst] in K. subst k. exact IH. }
  destruct (index_raw t root name l T E N i Hi) as [Q ->]. rewrite L in Q. injection Q as ->. reflexivity.
Qed.

(** ** Samples *)
Definition dir_new (l : list rentry) : rnode := RDir (new_rhead 0) l.
(* two types, numbered and named entries, two languages *)
Definition sample_tree : rnode :=
  dir_new [(Ided 3, dir_new [(Ided 1, dir_new [(Ided 1033, RData [1; 2; 3] 0)]); (Named [65], dir_new [(Ided 1033, RData [4] 0); (Ided 1049, RData [5; 6] 1251)])]);
           (Named [77; 89], dir_new [(Ided 7, dir_new [(Ided 0, RData [] 0)])])].
Lemma sample_tree_ok : three_levels sample_tree.
Proof.
  unfold sample_tree, dir_new. unfold three_levels, name_level, language_level, unique.
  repeat first [ eexists | split | reflexivity | constructor | (cbn [map fst snd In]; intuition congruence) ].
Qed.
(* a directory that the reader accepts, with one language twice *)
Definition twice_tree : rnode := dir_new [(Ided 3, dir_new [(Ided 1, dir_new [(Ided 1033, RData [1] 0); (Ided 1033, RData [2] 0)])])].
Lemma twice_refuted : exists t data root name language codepage t', add_resource t data root name language codepage 0 = Ok t' /\ resource_data t' language root name <> Ok (data, codepage).
Proof. exists twice_tree, [9], (Ided 3), (Ided 1), 1033, 0. eexists. split; [vm_compute; reflexivity|]. vm_compute. discriminate. Qed.
Lemma twice_remove_refuted : exists t root name language t' v, remove_language t root name language = Ok (t', true) /\ resource_data t' language root name = Ok v.
Proof. exists twice_tree, (Ided 3), (Ided 1), 1033. do 2 eexists. split; vm_compute; reflexivity. Qed.
