(** Single images, what stays safe for every content, and the cases that go wrong. *)
From Verif Require Import BaseFacts DirFacts StoreFacts ResDataFacts ManagerFacts.
From Verif Require Export IconAdd.

(** ** Adding and removing again *)
Lemma add_remove t k f name language codepage timestamp at_end r ty es : three_levels t -> image_file f r ty es -> Forall (kept k) es -> room t k at_end (zlen es) -> content t (group_type k) name language = None ->
  exists t1 t2, add_file t k f name language at_end codepage timestamp = Ok t1 /\ remove_group t1 k name language = Ok (t2, true) /\ forall r n l, content t2 r n l = content t r n l.
Proof.
  intros T Hf Hk Hr Hn. destruct (add_new t k f name language codepage timestamp r ty at_end es T Hf Hk Hr Hn) as (t1 & ids & E1 & T1 & Fr & G1 & O1). destruct (remove_group_ok t1 k name language codepage r ty _ T1 G1) as (t2 & E2 & T2 & C2 & C3 & O2).
  exists t1, t2. split; [exact E1|]. split; [exact E2|]. intros r' n l. pose proof Fr as (Li & Nd & Fi).
  assert (Sn : map snd (combine es ids) = ids) by (apply combine_snd; unfold zlen in Li; lia). rewrite Sn in *.
  destruct (Z.eq_dec l language) as [->|Nl]; [|rewrite O2, O1; [reflexivity|tauto|tauto]].
  destruct (rname_dec r' (group_type k)) as [->|Nr]; [destruct (rname_dec n name) as [->|Nn]; [rewrite C2, Hn; reflexivity|]|].
  - rewrite O2, O1; [reflexivity| |]; intros (_ & [(_ & A)|(A & _)]); [exact (Nn A)|exact (types_differ k A)|exact (Nn A)|exact (types_differ k A)].
  - destruct (rname_dec r' (image_type k)) as [->|Ni]; [|rewrite O2, O1; [reflexivity|tauto|tauto]]. destruct n as [s|x]; [rewrite O2, O1; [reflexivity| |]; intros (_ & [(A & _)|(_ & y & _ & A)]); [exact (Nr A)|discriminate|exact (Nr A)|discriminate]|].
    destruct (in_dec Z.eq_dec x ids) as [J|J].
    + rewrite (C3 x J). rewrite Forall_forall in Fi. destruct (Fi x J) as [_ Nu]. destruct (content t (image_type k) (Ided x) language) as [v|] eqn:E; [|reflexivity]. destruct Nu. eapply in_use_content; [exact T|exact E].
    + rewrite O2, O1; [reflexivity| |]; intros (_ & [(A & _)|(_ & y & Hy & [= ->])]); [exact (Nr A)|exact (J Hy)|exact (Nr A)|exact (J Hy)].
Qed.
Lemma images_kept t k f name language codepage timestamp at_end r ty es : three_levels t -> image_file f r ty es -> Forall (kept k) es -> room t k at_end (zlen es) ->
  content t (group_type k) name language = None \/ (exists cp r0 ty0 items, holds_group t k name language cp r0 ty0 items /\ zlen items + zlen es < 2^16) ->
  exists t', add_file t k f name language at_end codepage timestamp = Ok t' /\ forall x l v, content t (image_type k) (Ided x) l = Some v -> content t' (image_type k) (Ided x) l = Some v.
Proof.
  intros T Hf Hk Hr Hg.
  assert (H : exists t' ids, add_file t k f name language at_end codepage timestamp = Ok t' /\ fresh_numbers (in_use t k) (zlen es) ids /\ only_group t t' k name language ids).
  { destruct Hg as [Hn|(cp & r0 & ty0 & items & Hg & Hc)].
    - destruct (add_new t k f name language codepage timestamp r ty at_end es T Hf Hk Hr Hn) as (t1 & ids & E1 & T1 & Fr & G1 & O1). eauto.
    - destruct (add_more t k f name language codepage timestamp r ty at_end es T Hf Hk Hr cp r0 ty0 items Hg Hc) as (t1 & ids & E1 & T1 & Fr & G1 & O1). eauto. }
  destruct H as (t' & ids & E & (_ & _ & Fi) & O). exists t'. split; [exact E|]. intros x l v C. rewrite O; [exact C|]. intros (_ & [(A & _)|(_ & y & Hy & [= <-])]); [exact (types_differ k (eq_sym A))|].
  rewrite Forall_forall in Fi. apply (Fi x Hy). eapply in_use_content; [exact T|exact C].
Qed.

(** ** One image *)
Lemma find_image_ok t k d raw language id r ty : content t (image_type k) (Ided id) language = Some raw -> holds d 0 (le 2 r ++ le 2 ty) -> forall items i, 0 <= i ->
  (forall j p, nth_error items j = Some p -> holds d (6 + 14 * (i + Z.of_nat j)) (group_record k (fst p) (snd p))) ->
  Forall (fun p => good_picture (fst p) /\ kept k (fst p) /\ is_u16 (snd p) /\ exists c, content t (image_type k) (Ided (snd p)) language = Some (image_data k (fst p), c)) items ->
  (~ In id (map snd items) /\ find_image k d (fst raw) id i (length items) = Ok None) \/
  exists e, In (e, id) items /\ fst raw = image_data k e /\ find_image k d (fst raw) id i (length items) = Ok (Some (le 2 r ++ le 2 ty ++ le 2 1 ++ file_record e 22)).
Proof.
  intros C Hh. induction items as [|[e x] items IH]; intros i Hi R F; [left; split; [intros []|reflexivity]|]. cbn [length find_image]. inversion F as [|? ? [G [K [I [c Cx]]]] F']; subst. cbn [fst snd] in *.
  pose proof (R 0%nat _ eq_refl) as R0. cbn [fst snd] in R0. replace (6 + 14 * (i + Z.of_nat 0)) with (6 + i * 14) in R0 by lia.
  rewrite (rd_holds d (6 + i * 14) _ 14 R0) by (rewrite zlen_group_record by exact G; reflexivity). cbn [bind]. rewrite number_record by assumption. destruct (x =? id) eqn:E.
  - assert (x = id) by lia. subst x. right. exists e. rewrite C in Cx. injection Cx as ->. cbn [fst]. split; [left; reflexivity|]. split; [reflexivity|].
    rewrite (rd_holds d 0 _ 4 Hh) by (rewrite !zlen_app, !zlen_le; reflexivity). cbn [bind]. rewrite file_entry_record by (try assumption; try lia; reflexivity). cbn [bind]. rewrite <- !app_assoc. reflexivity.
  - destruct (IH (i + 1)) as [[N E']|(e' & I' & Er & E')]; [lia|intros j p Ep; pose proof (R (S j) p Ep) as Rj; replace (i + 1 + Z.of_nat j) with (i + Z.of_nat (S j)) by lia; exact Rj|exact F'| |].
    + left. split; [|exact E']. cbn [map snd]. intros [->|J]; [lia|exact (N J)].
    + right. exists e'. split; [right; exact I'|]. split; [exact Er|exact E'].
Qed.
Definition one_header (r ty : Z) (e : picture) : list Z := le 2 r ++ le 2 ty ++ le 2 1 ++ file_record e 22.
Lemma presence_ok t k name language cp r ty items id raw : holds_group t k name language cp r ty items -> items <> [] -> content t (image_type k) (Ided id) language = Some raw ->
  exists d, resource_data t language (group_type k) name = Ok (d, cp) /\
   ((~ In id (map snd items) /\ check_presence k d (fst raw) id = Ok None) \/ exists e, In (e, id) items /\ fst raw = image_data k e /\ check_presence k d (fst raw) id = Ok (Some (one_header r ty e))).
Proof.
  intros Hg Ne C. destruct (group_parts _ _ _ _ _ _ _ _ Hg) as (d & Cd & Ld & Hd & Rl & R). destruct Hg as (Hr0 & Ht0 & Hi & _ & Fg). exists d. split; [exact Cd|].
  assert (N : Z.to_nat (zlen items) = length items) by (unfold zlen; lia). assert (P : 1 <= zlen items) by (destruct items; [congruence|rewrite zlen_cons; pose proof (zlen_nonneg items); lia]).
  unfold check_presence. replace (zlen d <? 6) with false by lia. cbn [throw_if bind]. rewrite Rl. cbn [bind]. replace (zlen d <? 6 + match k with Icon => zlen items | Cursor => 1 end * 14) with false by (destruct k; lia). cbn [throw_if bind]. rewrite N.
  assert (Hh : holds d 0 (le 2 r ++ le 2 ty)) by (rewrite app_assoc in Hd; apply holds_app in Hd as [Hd _]; exact Hd).
  exact (find_image_ok t k d raw language id r ty C Hh items 0 ltac:(lia) R Fg).
Qed.
Definition all_groups (t : rnode) (k : kind) (language : Z) : Prop :=
  forall name v, content t (group_type k) name language = Some v -> exists cp r ty items, holds_group t k name language cp r ty items /\ items <> [].
Lemma lookup_ok t k language id raw : three_levels t -> all_groups t k language -> content t (image_type k) (Ided id) language = Some raw -> forall names,
  (forall n, In n names -> exists m, languages_of t (group_type k) n = Ok m) ->
  (exists n cp r ty items, In n names /\ holds_group t k n language cp r ty items /\ In id (map snd items)) ->
  exists n cp r ty items e, holds_group t k n language cp r ty items /\ In (e, id) items /\ fst raw = image_data k e /\ lookup t k (fst raw) language id names = Ok (one_header r ty e).
Proof.
  intros T A C. induction names as [|n names IH]; intros L (n0 & cp0 & r0 & ty0 & items0 & I0 & G0 & J0); [destruct I0|]. cbn [lookup].
  pose proof (languages_ok t (group_type k) n T) as Lk. destruct (L n (or_introl eq_refl)) as [m Em]. unfold list_languages. rewrite Em in Lk |- *. cbn [bind]. destruct Lk as [Lk _].
  assert (Next : (forall cp r ty items, holds_group t k n language cp r ty items -> ~ In id (map snd items)) -> exists n cp r ty items e, holds_group t k n language cp r ty items /\ In (e, id) items /\ fst raw = image_data k e /\ lookup t k (fst raw) language id names = Ok (one_header r ty e)).
  { intros Nn. apply IH; [intros n' Hn'; apply L; right; exact Hn'|]. destruct I0 as [<-|I0]; [destruct (Nn _ _ _ _ G0 J0)|]. exists n0, cp0, r0, ty0, items0. split; [exact I0|split; assumption]. }
  destruct (existsb (Z.eqb language) (id_list m)) eqn:E.
  - apply taken_in, Lk in E as [v Ev]. destruct (A n v (proj2 (content_data _ _ _ _ _) Ev)) as (cp & r & ty & items & G & Ne). destruct (presence_ok t k n language cp r ty items id raw G Ne C) as (d & Ed & [[N1 N2]|(e & I1 & I2 & I3)]); rewrite Ed; cbn [bind].
    + rewrite N2. cbn [bind]. apply Next. intros cp' r' ty' items' G' J'. destruct G' as (_ & _ & Hz' & (rest' & C') & F'). destruct G as (_ & _ & Hz & (rest & C0) & F).
      (* the entries are those of the same data *)
      assert (Same : map snd items' = map snd items).
      { rewrite C0 in C'. apply (f_equal (fun o : option (list Z * Z) => match o with Some (d, _) => d | None => [] end)) in C'. cbv beta iota in C'. pose proof (f_equal (fun l => rd_le l 4 2) C') as Q.
        assert (Q1 : forall r ty its rest, zlen its < 2^16 -> rd_le (le 2 r ++ le 2 ty ++ le 2 (zlen its) ++ concat (map (fun p : picture * Z => group_record k (fst p) (snd p)) its) ++ rest) 4 2 = Ok (zlen its)).
        { intros r1 ty1 its rest1 H1. pose proof (zlen_nonneg its). apply rd_le_ok'; [change (256 ^ Z.of_nat 2) with (2^16); lia|]. apply stands_holds. exists (le 2 r1 ++ le 2 ty1), (concat (map (fun p : picture * Z => group_record k (fst p) (snd p)) its) ++ rest1). split; [rewrite <- !app_assoc; reflexivity|reflexivity]. }
        cbv beta in Q. rewrite !Q1 in Q by assumption. injection Q as Q. revert C'. rewrite !app_assoc. intros C'. rewrite <- !app_assoc in C'.
        assert (C2 : records k items ++ rest = records k items' ++ rest').
        { apply app_inj_len in C' as [_ C']; [|rewrite !zlen_le; reflexivity]. apply app_inj_len in C' as [_ C']; [|rewrite !zlen_le; reflexivity]. apply app_inj_len in C' as [_ C']; [|rewrite !zlen_le; reflexivity]. exact C'. }
        clear C' C0 N1 N2 Hz Hz' J' Ne. revert items' rest' Q F' C2. revert rest. induction F as [|[e1 x1] l1 F1 F2 IHl]; intros rest items' rest' Q F' C2; destruct items' as [|[e2 x2] l2]; rewrite ?zlen_cons in Q; try (change (@zlen (picture * Z) []) with 0 in Q; pose proof (zlen_nonneg l1); lia); try (change (@zlen (picture * Z) []) with 0 in Q; pose proof (zlen_nonneg l2); lia); [reflexivity|].
        inversion F' as [|? ? F3 F4]; subst. cbn [fst snd] in *. destruct F1 as (G1 & K1 & U1 & _). destruct F3 as (G3 & K3 & U3 & _). unfold records in C2. cbn [map concat fst snd] in C2. rewrite <- !app_assoc in C2. apply app_inj_len in C2 as [C2 C3]; [|rewrite !zlen_group_record by assumption; reflexivity].
        cbn [map snd]. f_equal; [rewrite <- (number_record k e1 x1), <- (number_record k e2 x2) by assumption; rewrite C2; reflexivity|]. apply (IHl rest l2 rest'); [lia|exact F4|exact C3]. }
      rewrite Same in J'. exact (N1 J').
    + rewrite I3. cbn [bind]. exists n, cp, r, ty, items, e. split; [exact G|]. split; [exact I1|]. split; [exact I2|reflexivity].
  - cbn [bind]. apply Next. intros cp' r' ty' items' (_ & _ & _ & (rest' & C') & _) _. apply content_data in C'. assert (existsb (Z.eqb language) (id_list m) = true) by (apply taken_in, Lk; eauto). congruence.
Qed.
Lemma single_ok t k name language cp0 r0 ty0 items0 e0 id : three_levels t -> all_groups t k language -> holds_group t k name language cp0 r0 ty0 items0 -> In (e0, id) items0 ->
  exists n cp r ty items e, holds_group t k n language cp r ty items /\ In (e, id) items /\ get_single t k (ByLanguage language) id = Ok (packed_file r ty [e]).
Proof.
  intros T A G0 I0. assert (C0 : exists c, content t (image_type k) (Ided id) language = Some (image_data k e0, c)).
  { destruct G0 as (_ & _ & _ & _ & F). rewrite Forall_forall in F. destruct (F _ I0) as (_ & _ & _ & C). exact C. }
  destruct C0 as [c0 C0]. pose proof (names_ok t (group_type k) T) as N. assert (Lg : exists m, languages_of t (group_type k) name = Ok m).
  { destruct G0 as (_ & _ & _ & (rest & C) & _). apply content_data in C. unfold resource_data in C. destruct (languages_of t (group_type k) name); try discriminate. eauto. }
  unfold get_single, data_by. rewrite (proj1 (content_data _ _ _ _ _) C0). cbn [bind]. unfold lookup_group. destruct Lg as [m Lg].
  destruct (list_ids t (group_type k)) as [ids| | |] eqn:Ei; [|destruct N as (_ & _ & N); rewrite N in Lg; discriminate|destruct N as ([=] & _)|destruct N as ([=] & _)].
  destruct (list_names t (group_type k)) as [ns| | |] eqn:En; [|destruct N as ([=] & _)..]. destruct N as [N1 N2]. cbn [bind].
  destruct (lookup_ok t k language id _ T A C0 (map Ided ids ++ map Named ns)) as (n & cp & r & ty & items & e & G & I & Er & E).
  - intros n Hn. apply in_app_or in Hn as [Hn|Hn]; apply in_map_iff in Hn as (x & <- & Hx); [apply N1|apply N2]; exact Hx.
  - exists name, cp0, r0, ty0, items0. split; [|split; [exact G0|apply in_map_iff; exists (e0, id); split; [reflexivity|exact I0]]]. apply in_or_app. destruct name as [s|x]; [right|left]; apply in_map; [apply N2|apply N1]; eauto.
  - cbn [fst] in *. exists n, cp, r, ty, items, e. split; [exact G|]. split; [exact I|]. rewrite E. cbn [bind]. rewrite Er, image_of_data. cbn [bind]. f_equal. unfold one_header, packed_file, file_record. change (zlen [e]) with 1. change (6 + 16 * 1) with 22. cbn [packed_entries map concat]. rewrite !app_nil_r, <- !app_assoc. reflexivity.
Qed.

(** ** Round trips *)
Lemma zlen_packed r ty es : Forall good_picture es -> zlen (packed_file r ty es) = 6 + 16 * zlen es + total_size es.
Proof. intros F. unfold packed_file. rewrite !zlen_app, !zlen_le, zlen_packed_entries by exact F. unfold total_size. lia. Qed.
Lemma file_good f r ty es : image_file f r ty es -> Forall good_picture es.
Proof. intros (_ & _ & _ & _ & H). apply Forall_forall. intros e He. apply In_nth_error in He as [i Hi]. apply (H _ _ Hi). Qed.
Lemma items_good t k name language cp r ty items : holds_group t k name language cp r ty items -> Forall good_picture (map fst items).
Proof. intros (_ & _ & _ & _ & F). apply Forall_map. eapply Forall_impl; [|exact F]. intros p Hp. apply Hp. Qed.
Lemma packed_is_file f r ty es : image_file f r ty es -> zlen (packed_file r ty es) < 2^32 -> image_file (packed_file r ty es) r ty es.
Proof. intros H B. pose proof (file_good _ _ _ _ H) as F. rewrite zlen_packed in B by exact F. destruct H as (H1 & H2 & H3 & _). apply packed_ok; assumption. Qed.
Lemma get_file_ok' t k name language cp r ty items : holds_group t k name language cp r ty items -> zlen (packed_file r ty (map fst items)) < 2^32 ->
  get_file t k (ByLanguage language) name = Ok (packed_file r ty (map fst items)).
Proof. intros H B. rewrite zlen_packed in B by (eapply items_good; exact H). eapply get_file_ok; [exact H|]. unfold pictures_of. replace (zlen items) with (zlen (map fst items)) by (unfold zlen; rewrite map_length; reflexivity). exact B. Qed.
Lemma round_trip t k f name language codepage timestamp at_end r ty es : three_levels t -> image_file f r ty es -> Forall (kept k) es -> room t k at_end (zlen es) ->
  content t (group_type k) name language = None -> zlen (packed_file r ty es) < 2^32 ->
  exists t', add_file t k f name language at_end codepage timestamp = Ok t' /\ get_file t' k (ByLanguage language) name = Ok (packed_file r ty es) /\ image_file (packed_file r ty es) r ty es.
Proof.
  intros T Hf Hk Hr Hn B. destruct (add_new t k f name language codepage timestamp r ty at_end es T Hf Hk Hr Hn) as (t' & ids & E & T' & (Li & _) & G & _). exists t'. split; [exact E|].
  assert (Fs : map fst (combine es ids) = es) by (apply combine_fst; unfold zlen in Li; lia). pose proof (get_file_ok' _ _ _ _ _ _ _ _ G) as Gf. rewrite Fs in Gf. split; [exact (Gf B)|]. eapply packed_is_file; eassumption.
Qed.
Lemma append_trip t k f name language codepage timestamp at_end r ty es cp r0 ty0 items : three_levels t -> image_file f r ty es -> Forall (kept k) es -> room t k at_end (zlen es) ->
  holds_group t k name language cp r0 ty0 items -> zlen items + zlen es < 2^16 -> zlen (packed_file r0 ty0 (map fst items ++ es)) < 2^32 ->
  exists t', add_file t k f name language at_end codepage timestamp = Ok t' /\ get_file t' k (ByLanguage language) name = Ok (packed_file r0 ty0 (map fst items ++ es)).
Proof.
  intros T Hf Hk Hr Hg Hc B. destruct (add_more t k f name language codepage timestamp r ty at_end es T Hf Hk Hr cp r0 ty0 items Hg Hc) as (t' & ids & E & T' & (Li & _) & G & _). exists t'. split; [exact E|].
  assert (Fs : map fst (combine es ids) = es) by (apply combine_fst; unfold zlen in Li; lia). pose proof (get_file_ok' _ _ _ _ _ _ _ _ G) as Gf. rewrite map_app, Fs in Gf. exact (Gf B).
Qed.
