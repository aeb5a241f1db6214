(** Proofs: what the viewer shows of a file (C88). *)
From Coq Require Import String.
From Verif Require Import ResDataFacts StoreFacts ManagerFacts ExportFacts VerFacts VerRound VerRead VerFormat VerAny VerEditFacts SpecVerFile.

Lemma sfind_iff {A} (m : list (list Z * A)) k v : keys_ascending m -> sfind k m = Some v <-> In (k, v) m.
Proof.
  intros S. split; [apply sfind_in|]. unfold keys_ascending in S. induction m as [|[k1 v1] m IH]; [intros []|]. cbn [map fst] in S. inversion S as [|? ? S1 S2]; subst. intros [E|H]; cbn [sfind].
  - injection E as <- <-. rewrite VerEditFacts.eqb_refl. reflexivity.
  - assert (B : str_before k1 k) by (rewrite Forall_forall in S2; apply S2, (in_map fst _ _ H)). destruct (before_not_ltb _ _ B) as [_ ->]. apply IH; assumption.
Qed.
Lemma tables_find l s key m : tables_of l s -> sfind key s = Some m <-> exists raw, listed_first l key raw /\ map_of raw m.
Proof. intros [S I]. rewrite (sfind_iff s key m S). apply I. Qed.
Lemma tables_key l s key : tables_of l s -> In key (map fst s) <-> In key (map fst l).
Proof.
  intros [S I]. rewrite (listed_key l key). split.
  - intros H. apply in_map_iff in H as ((k, m) & E & H). cbn [fst] in E. subst k. apply I in H as (raw & H & _). exists raw. exact H.
  - intros (raw & H). apply in_map_iff. exists (key, add_strings raw []). split; [reflexivity|]. apply I. exists raw. split; [exact H|apply strings_map_of].
Qed.
Lemma listed_unique {A} (l : list (list Z * A)) k v w : listed_first l k v -> listed_first l k w -> v = w.
Proof.
  intros (a & b & -> & N) (a' & b' & E & N'). revert a' E N'. induction a as [|[k1 v1] a IH]; intros [|[k2 v2] a'] E N'; cbn [app map fst In] in *.
  - injection E as ->. reflexivity.
  - injection E as <- <- _. exfalso. apply N'. auto.
  - injection E as -> -> _. exfalso. apply N. auto.
  - injection E as <- <- E. apply (IH (fun H => N (or_intror H)) a' E (fun H => N' (or_intror H))).
Qed.
Lemma in_table l s cs key name : l = all_tables cs -> tables_of l s ->
  (forall v, match sfind key s with Some m => sfind name m | None => None end = Some v <-> says cs key name v).
Proof.
  intros -> T v. destruct (sfind key s) as [m|] eqn:E.
  - apply (tables_find _ _ _ _ T) in E as (raw & L & M). rewrite (sfind_iff m name v (proj1 M)), (proj2 M). split; [intros H; exists raw; auto|]. intros (raw' & L' & H). rewrite (listed_unique _ _ _ _ L L'). exact H.
  - split; [discriminate|]. intros (raw & L & _). pose proof (proj2 (tables_find _ _ key (add_strings raw []) T) (ex_intro _ raw (conj L (strings_map_of raw)))) as H. congruence.
Qed.
Lemma property_says s cs key name v : tables_of (all_tables cs) s -> key <> [] -> get_property s name key true = Ok v <-> says cs key name v.
Proof.
  intros T N. rewrite <- (in_table _ s cs key name eq_refl T v). unfold get_property. rewrite view_named by exact N. destruct (sfind key s) as [m|]; [|split; discriminate]. destruct (sfind name m); split; intros H; try discriminate; injection H as ->; reflexivity.
Qed.
Lemma property_silent s cs key name : tables_of (all_tables cs) s -> key <> [] -> (forall v, ~ says cs key name v) -> get_property s name key true = Throw version_info_string_does_not_exist /\ get_property s name key false = Ok [].
Proof.
  intros T N A. unfold get_property. rewrite view_named by exact N. pose proof (fun v => proj1 (in_table _ s cs key name eq_refl T v)) as I. destruct (sfind key s) as [m|]; [|split; reflexivity]. destruct (sfind name m) as [v|]; [|split; reflexivity]. destruct (A v (I v eq_refl)).
Qed.
Lemma default_find s cs : tables_of (all_tables cs) s -> s <> [] -> exists key, default_key cs key /\ forall name, get_property s name [] true = match match sfind key s with Some m => sfind name m | None => None end with Some v => Ok v | None => Throw version_info_string_does_not_exist end.
Proof.
  intros T N. destruct s as [|[k0 m0] s]; [congruence|]. unfold get_property. cbn [view_table]. change (text "041904b0") with default_translation in *.
  destruct (sfind default_translation ((k0, m0) :: s)) as [m|] eqn:E.
  - exists default_translation. split; [|intros name; rewrite E; destruct (sfind name m); reflexivity]. apply sfind_in, (in_map fst) in E. apply (tables_key _ _ _ T) in E. split; [exact E|left; reflexivity].
  - exists k0. split; [|intros name; cbn [sfind]; rewrite VerEditFacts.eqb_refl; destruct (sfind name m0); reflexivity]. split; [apply (tables_key _ _ _ T); left; reflexivity|]. right. split.
    + change (text "041904b0") with default_translation. intros H. apply (tables_key _ _ _ T) in H. apply in_map_iff in H as ((k, m) & F & H). cbn [fst] in F. subst k. exact (sfind_none _ _ m E H).
    + intros k H. apply (tables_key _ _ _ T) in H. destruct T as [S _]. unfold keys_ascending in S. cbn [map fst] in S, H. inversion S as [|? ? _ S2]; subst. rewrite Forall_forall in S2. destruct H as [<-|H]; [left; reflexivity|right; exact (S2 k H)].
Qed.
Lemma default_unique cs a b : default_key cs a -> default_key cs b -> a = b.
Proof.
  intros (A & [->|(A1 & A2)]) (B & [->|(B1 & B2)]); try reflexivity; try contradiction.
  destruct (A2 b B) as [->|H]; [reflexivity|]. destruct (B2 a A) as [->|H']; [reflexivity|]. pose proof (str_before_trans _ _ _ H H') as C. apply str_ltb_before in C. rewrite str_ltb_irrefl in C. discriminate.
Qed.
Lemma default_says s cs name v : tables_of (all_tables cs) s -> get_property s name [] true = Ok v <-> exists key, default_key cs key /\ says cs key name v.
Proof.
  intros T. destruct s as [|e s].
  - split; [discriminate|]. intros (key & (H & _) & _). apply (tables_key _ _ _ T) in H. destruct H.
  - destruct (default_find (e :: s) cs T ltac:(discriminate)) as (key & D & G). rewrite G. pose proof (in_table _ (e :: s) cs key name eq_refl T v) as I. split.
    + intros H. exists key. split; [exact D|]. apply I. destruct (match sfind key (e :: s) with Some m => sfind name m | None => None end) as [w|]; [|discriminate]. injection H as ->. reflexivity.
    + intros (key' & D' & H). rewrite (default_unique _ _ _ D' D) in H. apply I in H. rewrite H. reflexivity.
Qed.
Lemma shown_of_file t language codepage i cs : info_ok i -> Forall child_ok cs -> zlen (version_file i cs) < 65536 -> resource_data t language (Ided 16) (Ided 1) = Ok (version_file i cs, codepage) ->
  exists s tr, version_info_by_lang t language = Ok (i, (s, tr)) /\ pairs_of (all_pairs cs) tr /\
    (forall key name v, key <> [] -> get_property s name key true = Ok v <-> says cs key name v) /\
    (forall key name, key <> [] -> (forall v, ~ says cs key name v) -> get_property s name key true = Throw version_info_string_does_not_exist /\ get_property s name key false = Ok []) /\
    (forall name v, get_property s name [] true = Ok v <-> exists key, default_key cs key /\ says cs key name v).
Proof.
  intros H1 H2 H3 H4. destruct (any_order i cs H1 H2 H3) as (s & tr & E & T & P). exists s, tr. split; [unfold version_info_by_lang, rt_version; rewrite H4; exact E|]. split; [exact P|].
  split; [intros; apply property_says; assumption|]. split; [intros key name N A; exact (property_silent s cs key name T N A)|intros; apply default_says; exact T].
Qed.
Lemma named_says s cs key q v : tables_of (all_tables cs) s -> key <> [] -> v <> [] -> get_named s q key = Ok v <-> says cs key (documented_name q) v.
Proof.
  intros T N Nv. rewrite <- (property_says s cs key _ v T N). unfold get_named. replace (getter_name q) with (documented_name q) by (destruct q; reflexivity). unfold get_property. destruct (view_table s key) as [m|]; [|split; [intros H; injection H as <-; congruence|discriminate]].
  destruct (sfind (documented_name q) m); [reflexivity|]. split; [intros H; injection H as <-; congruence|discriminate].
Qed.
Lemma named_sets st q v key : set_named st q v key = set_property st (documented_name q) v key.
Proof. destruct q; reflexivity. Qed.

Lemma os_codes i o n : os_number o = Some n -> (get_file_os i = o <-> fi_os i = n) /\ fi_os (set_file_os i o) = n.
Proof.
  intros H. split; [|destruct o; cbn in H; try discriminate H; injection H as <-; reflexivity]. unfold get_file_os. cbv zeta. generalize (fi_os i). intros v. split.
  - intros G. repeat match type of G with (if ?v =? ?c then _ else _) = _ => destruct (Z.eqb_spec v c) as [Q|_]; [rewrite <- G in H; cbn in H; injection H as <-; exact Q|] end. rewrite <- G in H. discriminate H.
  - intros ->. destruct o; cbn in H; try discriminate H; injection H as <-; reflexivity.
Qed.
Lemma type_codes i k n : type_number k = Some n -> (get_file_type i = k <-> fi_type i = n) /\ fi_type (set_file_type i k) = n.
Proof.
  intros H. split; [|destruct k; cbn in H; try discriminate H; injection H as <-; reflexivity]. unfold get_file_type. cbv zeta. generalize (fi_type i). intros v. split.
  - intros G. repeat match type of G with (if ?v =? ?c then _ else _) = _ => destruct (Z.eqb_spec v c) as [Q|_]; [rewrite <- G in H; cbn in H; injection H as <-; exact Q|] end. rewrite <- G in H. discriminate H.
  - intros ->. destruct k; cbn in H; try discriminate H; injection H as <-; reflexivity.
Qed.
Lemma land_bit v n : 0 <= n -> negb (Z.land v (2 ^ n) =? 0) = Z.testbit v n.
Proof.
  intros H. destruct (Z.testbit v n) eqn:E.
  - destruct (Z.eqb_spec (Z.land v (2 ^ n)) 0) as [Q|Q]; [|reflexivity]. apply (f_equal (fun x => Z.testbit x n)) in Q. rewrite Z.land_spec, Z.pow2_bits_true, E, Z.bits_0 in Q by exact H. discriminate Q.
  - replace (Z.land v (2 ^ n)) with 0; [reflexivity|]. symmetry. apply Z.bits_inj'. intros j Hj. rewrite Z.land_spec, Z.bits_0, Z.pow2_bits_eqb by exact H. destruct (Z.eqb_spec n j) as [->|]; [rewrite E; reflexivity|apply andb_false_r].
Qed.
Lemma flag_codes i f : get_file_flag i f = Z.testbit (fi_flags i) (flag_number f).
Proof. unfold get_file_flag. rewrite <- land_bit by (destruct f; discriminate). destruct f; reflexivity. Qed.
