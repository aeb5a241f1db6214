(** Adding and removing groups of icons and cursors. *)
From Verif Require Import BaseFacts DirFacts StoreFacts ResDataFacts ManagerFacts.
From Verif Require Export IconRound.

Lemma wr_mid (a x b y : list Z) off : off = zlen a -> zlen y = zlen x -> wr (a ++ x ++ b) off y = Ok (a ++ y ++ b).
Proof.
  intros -> L. pose proof (zlen_nonneg a). pose proof (zlen_nonneg b). rewrite wr_ok by (rewrite ?zlen_app; lia). unfold splice. rewrite ztake_exact, L.
  do 3 f_equal. rewrite app_assoc. rewrite <- zlen_app. apply zdrop_exact.
Qed.
Lemma in_use_content t k x l v : three_levels t -> content t (image_type k) (Ided x) l = Some v -> In x (in_use t k).
Proof.
  intros T C. apply content_data in C. pose proof (names_ok t (image_type k) T) as N. pose proof (languages_ok t (image_type k) (Ided x) T) as L. unfold in_use.
  unfold resource_data in C. destruct (languages_of t (image_type k) (Ided x)) as [m| | |] eqn:E; try discriminate.
  destruct (list_ids t (image_type k)) as [ids|e| |] eqn:Ei.
  - destruct (list_names t (image_type k)) eqn:En; [|destruct N as ([=] & _)..]. apply (proj1 N). eauto.
  - destruct N as (_ & _ & N). rewrite N in E. discriminate.
  - destruct N as ([=] & _).
  - destruct N as ([=] & _).
Qed.
Lemma add_content t data root name language codepage timestamp : three_levels t ->
  exists t', add_resource t data root name language codepage timestamp = Ok t' /\ three_levels t' /\ content t' root name language = Some (data, codepage) /\
    forall r n l, ~ (l = language /\ r = root /\ n = name) -> content t' r n l = content t r n l.
Proof.
  intros T. destruct (add_ok t data root name language codepage timestamp T) as (t' & E & T' & H). exists t'. split; [exact E|]. split; [exact T'|]. split.
  - apply content_data. rewrite H. destruct (rname_dec root root); [|congruence]. destruct (rname_dec name name); [|congruence]. destruct (Z.eq_dec language language); [reflexivity|congruence].
  - intros r n l N. unfold content. rewrite H. destruct (rname_dec r root); [|reflexivity]. destruct (rname_dec n name); [|reflexivity]. destruct (Z.eq_dec l language); [|reflexivity]. destruct N. auto.
Qed.

(** ** The loops *)
Definition picture_at (f : list Z) (i : Z) (e : picture) : Prop :=
  good_picture e /\ exists off, 0 <= off < 2^32 /\ holds f (6 + 16 * i) (file_record e off) /\ holds f off (pixels e).
Lemma check_loop k f heads : forall es i, 0 <= i ->
  (forall j e, nth_error es j = Some e -> good_picture e /\ exists off, heads <= off /\ 0 <= off /\ off + zlen (pixels e) < 2^32 /\ holds f (6 + 16 * (i + Z.of_nat j)) (file_record e off) /\ holds f off (pixels e)) ->
  mfold (fun (_ : unit) i => check_dirent k f heads i) (from i (length es)) tt = Ok tt.
Proof.
  induction es as [|e es IH]; intros i Hi H; [reflexivity|]. cbn [length]. rewrite from_S. cbn [mfold].
  destruct (H 0%nat e eq_refl) as (G & off & O1 & O0 & O2 & H1 & H2). replace (6 + 16 * (i + Z.of_nat 0)) with (6 + i * 16) in H1 by lia.
  assert (E : check_dirent k f heads i = Ok tt).
  { unfold check_dirent. rewrite (rd_holds _ _ _ _ H1) by (rewrite zlen_file_record by exact G; reflexivity). cbn [bind]. rewrite dec_file_record by (try exact G; pose proof (zlen_nonneg (pixels e)); lia).
    destruct G as [G S]. destruct (nth_attrs e (zlen (pixels e)) off G) as (_ & N6 & N7 & _). rewrite N6, N7. apply holds_range in H2. apply throw_if_ok. unfold is_sum_safe, max_dword. rewrite !u32_small by lia. lia. }
  rewrite E. cbn [bind]. apply IH; [lia|]. intros j q Eq. pose proof (H (S j) q Eq) as Hj. replace (i + 1 + Z.of_nat j) with (i + Z.of_nat (S j)) by lia. exact Hj.
Qed.
Lemma put_loop k f base language codepage timestamp : forall es ids done t gdone grest i,
  (forall j e, nth_error es j = Some e -> kept k e /\ picture_at f (i + Z.of_nat j) e) ->
  length ids = length es -> zlen done = i -> zlen gdone = 6 + 14 * (base + i) -> zlen grest = 14 * zlen es -> three_levels t -> NoDup ids ->
  exists t', mfold (put_image k f (done ++ ids) base language codepage timestamp) (from i (length es)) (t, gdone ++ grest) = Ok (t', gdone ++ records k (combine es ids)) /\ three_levels t' /\
    (forall r n l, ~ (l = language /\ r = image_type k /\ exists x, In x ids /\ n = Ided x) -> content t' r n l = content t r n l) /\
    Forall (fun p => content t' (image_type k) (Ided (snd p)) language = Some (image_data k (fst p), codepage)) (combine es ids).
Proof.
  induction es as [|e es IH]; intros ids done t gdone grest i H Li Ld Lg Lr T N; destruct ids as [|id ids]; cbn [length] in Li; try discriminate.
  - exists t. apply ResDataFacts.zlen_zero in Lr as ->. split; [reflexivity|]. split; [exact T|]. split; [reflexivity|constructor].
  - cbn [length]. rewrite from_S. cbn [mfold combine]. destruct (H 0%nat e eq_refl) as (K & G & off & O & H1 & H2). replace (6 + 16 * (i + Z.of_nat 0)) with (6 + i * 16) in H1 by lia. inversion N as [|? ? N1 N2]; subst.
    rewrite zlen_cons in Lr. pose proof (zlen_nonneg es) as Ze. pose proof (zlen_nonneg done) as Zd.
    assert (Sp : grest = ztake 14 grest ++ zdrop 14 grest) by (symmetry; apply ztake_zdrop). assert (Lt : zlen (ztake 14 grest) = 14) by (apply zlen_ztake; lia). assert (Lz : zlen (zdrop 14 grest) = 14 * zlen es) by (rewrite zlen_zdrop by lia; lia).
    revert Sp Lt Lz. generalize (ztake 14 grest) (zdrop 14 grest). intros x rest -> Lt Lz. clear Lr.
    destruct (add_content t (image_data k e) (image_type k) (Ided id) language codepage timestamp T) as (t1 & E1 & T1 & C1 & O1).
    assert (Step : put_image k f (done ++ id :: ids) base language codepage timestamp (t, gdone ++ x ++ rest) (zlen done) = Ok (t1, (gdone ++ group_record k e id) ++ rest)).
    { unfold put_image. rewrite (rd_holds _ _ _ _ H1) by (rewrite zlen_file_record by exact G; reflexivity). cbn [bind]. rewrite dec_file_record by assumption.
      replace (nth_error (done ++ id :: ids) (Z.to_nat (zlen done))) with (Some id) by (unfold zlen; rewrite Nat2Z.id, nth_error_app2, Nat.sub_diag by lia; reflexivity). cbn [bind]. rewrite group_entry_record by assumption.
      rewrite wr_mid by (rewrite ?zlen_group_record by exact G; lia). cbn [bind]. destruct G as [G S]. destruct (nth_attrs e (zlen (pixels e)) off G) as (_ & N6 & N7 & _). rewrite N6, N7.
      rewrite (rd_holds _ _ _ _ H2) by reflexivity. cbn [bind]. rewrite stored_image_data by (split; assumption). rewrite E1. cbn [bind]. rewrite <- app_assoc. reflexivity. }
    rewrite Step. cbn [bind].
    destruct (IH ids (done ++ [id]) t1 (gdone ++ group_record k e id) rest (zlen done + 1)) as (t' & E' & T' & O' & C'); try assumption.
    + intros j q Eq. pose proof (H (S j) q Eq) as Hj. replace (zlen done + 1 + Z.of_nat j) with (zlen done + Z.of_nat (S j)) by lia. exact Hj.
    + injection Li as Li. exact Li.
    + rewrite zlen_app. change (zlen [id]) with 1. lia.
    + rewrite zlen_app, zlen_group_record by exact G. lia.
    + exists t'. rewrite <- app_assoc in E'. cbn [app] in E'. rewrite E'. split; [unfold records; cbn [map concat fst snd]; rewrite <- app_assoc; reflexivity|]. split; [exact T'|]. split.
      * intros r n l Nt. rewrite O'; [apply O1|]; intros (A & B & C); apply Nt; (split; [exact A|split; [exact B|]]); [exists id; split; [left; reflexivity|exact C]|]. destruct C as (y & Hy & C). exists y. split; [right; exact Hy|exact C].
      * constructor; [|exact C']. cbn [fst snd]. rewrite O'; [exact C1|]. intros (_ & _ & y & Hy & [= ->]). exact (N1 Hy).
Qed.

(** ** Adding *)
Lemma file_parts k f r ty es : image_file f r ty es -> Forall (kept k) es ->
  6 + 16 * zlen es <= zlen f /\ rd f 0 6 = Ok (le 2 r ++ le 2 ty ++ le 2 (zlen es)) /\ nth 2 (dec_fields head_widths (le 2 r ++ le 2 ty ++ le 2 (zlen es))) 0 = zlen es /\
  mfold (fun (_ : unit) i => check_dirent k f (6 + 16 * zlen es) i) (from 0 (length es)) tt = Ok tt /\
  (forall j e, nth_error es j = Some e -> kept k e /\ picture_at f (0 + Z.of_nat j) e).
Proof.
  intros (Hr & Ht & Hn & Hs & He) Hk. unfold is_u16 in Hr, Ht. split.
  - destruct (nth_error es (length es - 1)) as [e|] eqn:E; [|apply nth_error_None in E; unfold zlen in Hn; lia]. destruct (He _ _ E) as (G & off & O1 & O2 & H1 & H2). apply stands_holds, holds_range in H2. destruct G as [_ G]. lia.
  - split; [apply rd_holds; [apply stands_holds; exact Hs|rewrite !zlen_app, !zlen_le; reflexivity]|]. split.
    + replace (le 2 r ++ le 2 ty ++ le 2 (zlen es)) with (enc_fields head_widths [r; ty; zlen es] ++ []) by (cbn [head_widths enc_fields]; rewrite !app_nil_r; reflexivity).
      rewrite dec_enc_fields; [reflexivity|]. unfold head_widths. cbn [fits]. change (256 ^ Z.of_nat 2) with (2^16). lia.
    + split.
      * apply check_loop; [lia|]. intros j e E. destruct (He j e E) as (G & off & O1 & O2 & H1 & H2). split; [exact G|]. exists off. pose proof (zlen_nonneg es). split; [exact O1|]. split; [lia|]. split; [exact O2|]. split; apply stands_holds; [|exact H2]. rewrite Z.add_0_l. exact H1.
      * intros j e E. destruct (He j e E) as (G & off & O1 & O2 & H1 & H2). split; [rewrite Forall_forall in Hk; apply Hk; eapply nth_error_In; exact E|]. split; [exact G|]. exists off. pose proof (zlen_nonneg es). destruct G as [_ G]. split; [lia|]. split; apply stands_holds; [|exact H2]. rewrite Z.add_0_l. exact H1.
Qed.
Lemma types_differ k : group_type k <> image_type k. Proof. destruct k; discriminate. Qed.
Lemma combine_fst {A B} (l : list A) : forall m : list B, length m = length l -> map fst (combine l m) = l.
Proof. induction l as [|x l IH]; intros [|y m] H; cbn [length] in H; try discriminate; [reflexivity|]. cbn [combine map fst]. rewrite IH by lia. reflexivity. Qed.
Lemma combine_snd {A B} (l : list A) : forall m : list B, length m = length l -> map snd (combine l m) = m.
Proof. induction l as [|x l IH]; intros [|y m] H; cbn [length] in H; try discriminate; [reflexivity|]. cbn [combine map snd]. rewrite IH by lia. reflexivity. Qed.
Lemma zlen_combine {A B} (l : list A) (m : list B) : length m = length l -> zlen (combine l m) = zlen l.
Proof. intros H. unfold zlen. rewrite combine_length. lia. Qed.
Section Adding.
  Context (t : rnode) (k : kind) (f : list Z) (name : rname) (language codepage timestamp r ty : Z) (at_end : bool) (es : list picture).
  Hypothesis T : three_levels t.
  Hypothesis Hf : image_file f r ty es.
  Hypothesis Hk : Forall (kept k) es.
  Hypothesis Hroom : room t k at_end (zlen es).
  Lemma count_es : 0 < zlen es < 2^16. Proof. apply Hf. Qed.
  Lemma items_ok t' ids cp : fresh_numbers (in_use t k) (zlen es) ids -> Forall (fun p => content t' (image_type k) (Ided (snd p)) language = Some (image_data k (fst p), cp)) (combine es ids) ->
    Forall (fun p => good_picture (fst p) /\ kept k (fst p) /\ is_u16 (snd p) /\ exists c, content t' (image_type k) (Ided (snd p)) language = Some (image_data k (fst p), c)) (combine es ids).
  Proof.
    intros (_ & _ & Fr) C. rewrite Forall_forall in *. intros [e id] Hin. specialize (C _ Hin). cbn [fst snd] in *. pose proof (in_combine_l _ _ _ _ Hin) as I1. pose proof (in_combine_r _ _ _ _ Hin) as I2.
    split; [|split; [apply Hk, I1|split; [specialize (Fr _ I2); unfold is_u16; lia|eauto]]]. destruct Hf as (_ & _ & _ & _ & He). apply In_nth_error in I1 as [i Ei]. apply (He _ _ Ei).
  Qed.
  Lemma add_new : content t (group_type k) name language = None ->
    exists t' ids, add_file t k f name language at_end codepage timestamp = Ok t' /\ three_levels t' /\ fresh_numbers (in_use t k) (zlen es) ids /\
      holds_group t' k name language codepage r ty (combine es ids) /\ only_group t t' k name language ids.
  Proof.
    intros Cn. pose proof count_es as Hn. destruct (file_parts k f r ty es Hf Hk) as (Lf & Rh & Dh & Ck & Pa). destruct (room_fresh t k at_end (zlen es) ltac:(lia) Hroom) as (ids & Ef & Fr). pose proof Fr as (Li & Nd & Fi).
    assert (Ln : length ids = length es) by (unfold zlen in Li; lia).
    assert (Nth : exists e, resource_data t language (group_type k) name = Throw e) by (destruct (data_total t T language (group_type k) name) as [E|[v E]]; [rewrite E; unfold not_there; eauto|apply content_data in E; congruence]).
    destruct Nth as [e0 Nth]. unfold add_file, add_file_from. rewrite Nth. unfold add_images_from. replace (zlen f <? 6) with false by lia. cbn [throw_if bind]. rewrite Rh. cbn [bind]. rewrite Dh.
    replace (u32 (6 + zlen es * 16)) with (6 + 16 * zlen es) by (rewrite u32_small; lia). replace ((zlen f <? 6 + 16 * zlen es) || (zlen es =? 0)) with false by lia. cbn [throw_if bind].
    replace (zrange (zlen es)) with (from 0 (length es)) by (rewrite zrange_from; unfold zlen; rewrite Nat2Z.id; reflexivity). rewrite Ck. cbn [bind].
    set (h := le 2 r ++ le 2 ty ++ le 2 (zlen es)) in *. assert (Lh : zlen h = 6) by (unfold h; rewrite !zlen_app, !zlen_le; reflexivity).
    assert (Wz : wr (zeros (6 + zlen es * 14)) 0 h = Ok (h ++ zeros (14 * zlen es))).
    { replace (zeros (6 + zlen es * 14)) with ([] ++ zeros 6 ++ zeros (14 * zlen es)).
      - apply (wr_mid [] (zeros 6)); [reflexivity|rewrite Lh, zlen_zeros by lia; reflexivity].
      - cbn [app]. unfold zeros. rewrite <- repeat_app. f_equal. lia. }
    rewrite Wz. cbn [bind]. unfold free_ids in Ef. rewrite Ef. cbn [bind].
    destruct (put_loop k f 0 language codepage timestamp es ids [] t h (zeros (14 * zlen es)) 0 Pa Ln eq_refl ltac:(lia) ltac:(rewrite zlen_zeros; lia) T Nd) as (t1 & E1 & T1 & O1 & C1).
    cbn [app] in E1. rewrite E1. cbn [bind].
    destruct (add_content t1 (h ++ records k (combine es ids)) (group_type k) name language codepage timestamp T1) as (t2 & E2 & T2 & C2 & O2). rewrite E2. exists t2, ids.
    split; [reflexivity|]. split; [exact T2|]. split; [exact Fr|]. split.
    - split; [apply Hf|]. split; [apply Hf|]. rewrite zlen_combine by exact Ln. split; [lia|]. split; [exists []; rewrite app_nil_r; unfold h in C2; rewrite <- !app_assoc in C2; exact C2|].
      apply (items_ok t2 ids codepage Fr). eapply Forall_impl; [|exact C1]. intros p Hp. rewrite O2; [exact Hp|]. intros (_ & B & _). exact (types_differ k (eq_sym B)).
    - intros r' n l Nn. rewrite O2; [apply O1|].
      + intros (A & B & C). apply Nn. split; [exact A|]. right. split; assumption.
      + intros (A & B & C). apply Nn. split; [exact A|]. left. split; assumption.
  Qed.
  Lemma records_app a b : records k (a ++ b) = records k a ++ records k b.
  Proof. unfold records. rewrite map_app, concat_app. reflexivity. Qed.
  Lemma add_more cp r0 ty0 items : holds_group t k name language cp r0 ty0 items -> zlen items + zlen es < 2^16 ->
    exists t' ids, add_file t k f name language at_end codepage timestamp = Ok t' /\ three_levels t' /\ fresh_numbers (in_use t k) (zlen es) ids /\
      holds_group t' k name language cp r0 ty0 (items ++ combine es ids) /\ only_group t t' k name language ids.
  Proof.
    intros Hg Hc. pose proof count_es as Hn. destruct (file_parts k f r ty es Hf Hk) as (Lf & Rh & Dh & Ck & Pa). destruct (room_fresh t k at_end (zlen es) ltac:(lia) Hroom) as (ids & Ef & Fr). pose proof Fr as (Li & Nd & Fi).
    assert (Ln : length ids = length es) by (unfold zlen in Li; lia). destruct (group_parts _ _ _ _ _ _ _ _ Hg) as (d & Cd & Ld & _ & Rl & _). destruct Hg as (Hr0 & Ht0 & Hi & (rest & Cc) & Fg). unfold is_u16 in Hr0, Ht0.
    assert (Ed : d = le 2 r0 ++ le 2 ty0 ++ le 2 (zlen items) ++ records k items ++ rest) by (apply content_data in Cc; rewrite Cd in Cc; injection Cc as Cc; exact Cc).
    assert (Fi1 : Forall (fun p => good_picture (fst p)) items) by (eapply Forall_impl; [|exact Fg]; intros p Hp; apply Hp). pose proof (zlen_nonneg items) as Zi.
    unfold add_file, add_file_from. rewrite Cd. unfold add_images_from. replace (zlen f <? 6) with false by lia. cbn [throw_if bind]. rewrite Rh. cbn [bind]. rewrite Dh.
    replace (u32 (6 + zlen es * 16)) with (6 + 16 * zlen es) by (rewrite u32_small; lia). replace ((zlen f <? 6 + 16 * zlen es) || (zlen es =? 0)) with false by lia. cbn [throw_if bind].
    replace (zrange (zlen es)) with (from 0 (length es)) by (rewrite zrange_from; unfold zlen; rewrite Nat2Z.id; reflexivity). rewrite Ck. cbn [bind].
    replace (zlen d <? 6) with false by lia. cbn [throw_if bind]. rewrite Rl. cbn [bind]. replace (zlen d <? 6 + zlen items * 14) with false by lia. cbn [throw_if bind].
    set (h := le 2 r0 ++ le 2 ty0) in *. assert (Lh : zlen h = 4) by (unfold h; rewrite !zlen_app, !zlen_le; reflexivity). set (g0 := h ++ le 2 (zlen items) ++ records k items).
    assert (Lg0 : zlen g0 = 6 + 14 * zlen items) by (unfold g0; rewrite !zlen_app, zlen_le, Lh, zlen_records by exact Fi1; lia).
    assert (Rz : exists x, resize d (6 + (zlen items + zlen es) * 14) = g0 ++ x /\ zlen x = 14 * zlen es).
    { assert (Ed' : d = g0 ++ rest) by (rewrite Ed; unfold g0, h; rewrite <- !app_assoc; reflexivity). unfold resize. destruct (6 + (zlen items + zlen es) * 14 <=? zlen d) eqn:E.
      - rewrite Ed'. rewrite ztake_app_r by lia. eexists. split; [reflexivity|]. rewrite zlen_ztake; [lia|]. rewrite Ed', zlen_app in E. lia.
      - exists (rest ++ zeros (6 + (zlen items + zlen es) * 14 - zlen d)). split; [rewrite Ed' at 1; rewrite <- app_assoc; reflexivity|]. rewrite zlen_app, zlen_zeros by lia. rewrite Ed', zlen_app. lia. }
    destruct Rz as (x & -> & Lx). unfold free_ids in Ef. rewrite Ef. cbn [bind].
    destruct (put_loop k f (zlen items) language cp timestamp es ids [] t g0 x 0 Pa Ln eq_refl ltac:(lia) Lx T Nd) as (t1 & E1 & T1 & O1 & C1).
    cbn [app] in E1. rewrite E1. cbn [bind].
    assert (Wc : wr (g0 ++ records k (combine es ids)) 4 (le 2 (u16 (zlen items + zlen es))) = Ok (h ++ le 2 (zlen items + zlen es) ++ records k (items ++ combine es ids))).
    { unfold g0. rewrite <- !app_assoc. rewrite (wr_mid h) by (rewrite ?zlen_le; lia). rewrite u16_small by lia. rewrite records_app. reflexivity. }
    rewrite Wc. cbn [bind].
    destruct (add_content t1 (h ++ le 2 (zlen items + zlen es) ++ records k (items ++ combine es ids)) (group_type k) name language cp timestamp T1) as (t2 & E2 & T2 & C2 & O2). rewrite E2. exists t2, ids.
    split; [reflexivity|]. split; [exact T2|]. split; [exact Fr|]. split.
    - split; [exact Hr0|]. split; [exact Ht0|]. rewrite zlen_app, zlen_combine by exact Ln. split; [lia|]. split; [exists []; rewrite app_nil_r; unfold h in C2; rewrite <- !app_assoc in C2; exact C2|].
      apply Forall_app. split.
      + rewrite Forall_forall in *. intros p Hp. destruct (Fg p Hp) as (A1 & A2 & A3 & c & A4). split; [exact A1|]. split; [exact A2|]. split; [exact A3|]. exists c. rewrite O2; [rewrite O1; [exact A4|]|].
        * intros (_ & _ & y & Hy & [= E]). destruct (Fi y Hy) as [_ Ny]. apply Ny. rewrite <- E. eapply in_use_content; [exact T|exact A4].
        * intros (_ & B & _). exact (types_differ k (eq_sym B)).
      + apply (items_ok t2 ids cp Fr). eapply Forall_impl; [|exact C1]. intros p Hp. rewrite O2; [exact Hp|]. intros (_ & B & _). exact (types_differ k (eq_sym B)).
    - intros r' n l Nn. rewrite O2; [apply O1|].
      + intros (A & B & C). apply Nn. split; [exact A|]. right. split; assumption.
      + intros (A & B & C). apply Nn. split; [exact A|]. left. split; assumption.
  Qed.
End Adding.

(** ** Removing *)
Lemma remove_content t root name language : three_levels t ->
  exists t' b, remove_language t root name language = Ok (t', b) /\ three_levels t' /\ (b = true <-> content t root name language <> None) /\ content t' root name language = None /\
    forall r n l, ~ (l = language /\ r = root /\ n = name) -> content t' r n l = content t r n l.
Proof.
  intros T. destruct (remove_language_ok t root name language T) as (t' & b & E & T' & B & H). exists t', b. split; [exact E|]. split; [exact T'|]. split; [|split].
  - rewrite B. unfold content. destruct (data_total t T language root name) as [D|[v D]]; rewrite D; unfold not_there; cbn [found]; split; try congruence; try (intros [v' [=]]); eauto.
  - unfold content. rewrite H. destruct (rname_dec root root); [|congruence]. destruct (rname_dec name name); [|congruence]. destruct (Z.eq_dec language language); [reflexivity|congruence].
  - intros r n l N. unfold content. rewrite H. destruct (rname_dec r root); [|reflexivity]. destruct (rname_dec n name); [|reflexivity]. destruct (Z.eq_dec l language); [|reflexivity]. destruct N. auto.
Qed.
Lemma number_at k d i e id : good_picture e -> is_u16 id -> holds d (6 + 14 * i) (group_record k e id) -> rd_le d (6 + i * 14 + 12) 2 = Ok id.
Proof.
  intros G I H. unfold is_u16 in I. apply rd_le_ok'; [change (256 ^ Z.of_nat 2) with (2^16); lia|].
  assert (S : exists a, group_record k e id = a ++ le 2 id).
  { unfold group_record. destruct k; rewrite ?app_assoc; eauto. }
  destruct S as [a Ea]. pose proof (zlen_group_record k e id G) as L. rewrite Ea in H, L. rewrite zlen_app, zlen_le in L. apply holds_app in H as [_ H]. replace (6 + i * 14 + 12) with (6 + 14 * i + zlen a) by lia. exact H.
Qed.
Lemma remove_loop k d language : forall items i t, three_levels t ->
  (forall j p, nth_error items j = Some p -> good_picture (fst p) /\ is_u16 (snd p) /\ holds d (6 + 14 * (i + Z.of_nat j)) (group_record k (fst p) (snd p))) ->
  exists t', mfold (fun t i => id <- rd_le d (6 + i * 14 + 12) 2 ;; ' (t', _) <- remove_language t (image_type k) (Ided id) language ;; Ok t') (from i (length items)) t = Ok t' /\ three_levels t' /\
    (forall p, In p items -> content t' (image_type k) (Ided (snd p)) language = None) /\
    (forall r n l, ~ (l = language /\ r = image_type k /\ exists x, In x (map snd items) /\ n = Ided x) -> content t' r n l = content t r n l).
Proof.
  induction items as [|[e id] items IH]; intros i t T H.
  - exists t. split; [reflexivity|]. split; [exact T|]. split; [intros p []|reflexivity].
  - cbn [length]. rewrite from_S. cbn [mfold]. destruct (H 0%nat _ eq_refl) as (G & I & R). cbn [fst snd] in *. replace (i + Z.of_nat 0) with i in R by lia. rewrite (number_at k d i e id G I R). cbn [bind].
    destruct (remove_content t (image_type k) (Ided id) language T) as (t1 & b & -> & T1 & _ & C1 & O1). cbn [bind].
    destruct (IH (i + 1) t1 T1) as (t' & E' & T' & C' & O'); [intros j p Ep; pose proof (H (S j) p Ep) as Hj; replace (i + 1 + Z.of_nat j) with (i + Z.of_nat (S j)) by lia; exact Hj|].
    exists t'. split; [exact E'|]. split; [exact T'|]. split.
    + intros p [<-|Hp]; [cbn [snd]|apply C'; exact Hp]. destruct (in_dec Z.eq_dec id (map snd items)) as [J|J].
      * apply in_map_iff in J as (q & <- & Hq). apply C', Hq.
      * rewrite O'; [exact C1|]. intros (_ & _ & y & Hy & [= ->]). exact (J Hy).
    + intros r n l Nt. rewrite O'; [apply O1|]; intros (A & B & C); apply Nt; (split; [exact A|split; [exact B|]]); cbn [map snd]; [exists id; split; [left; reflexivity|exact C]|]. destruct C as (y & Hy & C). exists y. split; [right; exact Hy|exact C].
Qed.
Lemma remove_group_ok t k name language codepage r ty items : three_levels t -> holds_group t k name language codepage r ty items ->
  exists t', remove_group t k name language = Ok (t', true) /\ three_levels t' /\ content t' (group_type k) name language = None /\
    (forall x, In x (map snd items) -> content t' (image_type k) (Ided x) language = None) /\ only_group t t' k name language (map snd items).
Proof.
  intros T Hg. destruct (group_parts _ _ _ _ _ _ _ _ Hg) as (d & Cd & Ld & _ & Rl & R). destruct Hg as (Hr0 & Ht0 & Hi & (rest & Cc) & Fg). pose proof (zlen_nonneg items) as Zi.
  unfold remove_group. rewrite Cd. cbn [bind]. unfold remove_images. replace (zlen d <? 6) with false by lia. cbn [throw_if bind]. rewrite Rl. cbn [bind]. replace (zlen d <? 6 + zlen items * 14) with false by lia. cbn [throw_if bind].
  replace (zrange (zlen items)) with (from 0 (length items)) by (rewrite zrange_from; unfold zlen; rewrite Nat2Z.id; reflexivity).
  destruct (remove_loop k d language items 0 t T) as (t1 & -> & T1 & C1 & O1).
  { intros j p E. rewrite Forall_forall in Fg. destruct (Fg p (nth_error_In _ _ E)) as (A1 & A2 & A3 & _). split; [exact A1|]. split; [exact A3|]. apply R. exact E. }
  cbn [bind]. destruct (remove_content t1 (group_type k) name language T1) as (t2 & b & E2 & T2 & B & C2 & O2). exists t2. split; [|split; [exact T2|split; [exact C2|split]]].
  - rewrite E2. do 2 f_equal. apply B. rewrite O1; [congruence|]. intros (_ & D & _). exact (types_differ k D).
  - intros x Hx. apply in_map_iff in Hx as (p & <- & Hp). rewrite O2; [apply C1, Hp|]. intros (_ & D & _). exact (types_differ k (eq_sym D)).
  - intros r' n l Nn. rewrite O2; [apply O1|].
    + intros (A & D & C). apply Nn. split; [exact A|]. right. split; assumption.
    + intros (A & D & C). apply Nn. split; [exact A|]. left. split; assumption.
Qed.
