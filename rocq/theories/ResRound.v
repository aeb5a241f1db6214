(** Proofs: reading what was written, and the writer as a whole (C39, C40, C61). *)
From Verif Require Import StoreFacts ResFacts ResDataFacts.
From Verif Require Export ResWrite.

Definition counted_child (e : rentry) : rentry := (fst e, counted (snd e)).
Lemma counted_dir h l : counted (RDir h l) = RDir (mk_rhead (r_chars h) (r_time h) (r_major h) (r_minor h) (count_named l) (count_ids l)) (map counted_child l).
Proof. reflexivity. Qed.
Lemma counted_counts l : count_named (map counted_child l) = count_named l /\ count_ids (map counted_child l) = count_ids l.
Proof.
  unfold count_named, count_ids. induction l as [|e l [IH1 IH2]]; [split; reflexivity|]. cbn [map filter]. change (is_named (counted_child e)) with (is_named e).
  destruct (is_named e); cbn [negb]; rewrite ?zlen_cons; lia.
Qed.
Lemma name_bytes_wide s : name_bytes s = wide s.
Proof. apply flat_map_concat_map. Qed.

(** ** Reading *)
Section Read.
  Variables (p : pe) (va base : Z) (d v : list Z) (R : Z -> Prop).
  Hypothesis Bl : block p va v.
  Hypothesis Hb : 0 <= base.
  Hypothesis Hx : forall off bs, held d R off bs -> 0 < zlen bs -> holds v off bs.
  Let Lv : va + zlen v < 2^32. Proof. destruct Bl as (_ & _ & H & _). exact H. Qed.
  Let Va : 0 <= va. Proof. exact (block_base _ _ _ Bl). Qed.
  Lemma held_range off bs : held d R off bs -> 0 < zlen bs -> 0 <= off /\ off + zlen bs <= zlen v.
  Proof. intros H Hn. apply (holds_range _ _ _ (Hx _ _ H Hn)). Qed.
  Lemma held_read off bs n : held d R off bs -> n = zlen bs -> 0 < n -> read_rva p (va + off) n VirtData true = Ok bs.
  Proof. intros H E Hn. apply (block_holds p va v); [exact Bl|apply Hx; [exact H|lia]|exact E|exact Hn]. Qed.
  Lemma read_name nm w : valid_rname nm -> storable_rname nm -> is_u32 w -> kept_name d R base nm w -> read_rname p (va + base) w = Ok nm.
  Proof.
    intros V S Hw K. destruct nm as [s|id]; cbn [valid_rname storable_rname kept_name] in *; unfold read_rname, flag31, low31.
    - destruct K as (q & -> & Hq & H). pose proof (zlen_nonneg s) as Zs. assert (Hn : 0 < zlen (le 2 (zlen s) ++ name_bytes (s ++ [0]))) by (rewrite zlen_app, zlen_le, zlen_name_bytes, zlen_app; change (zlen [0]) with 1; lia).
      pose proof (held_range _ _ H Hn) as [_ Hr].
      rewrite zlen_app, zlen_le, zlen_name_bytes, zlen_app in Hr. change (zlen [0]) with 1 in Hr.
      replace (2^31 <=? 2^31 + q) with true by lia. replace ((2^31 + q) mod 2^31) with q by lia. rewrite (u32_small (va + base + 2)) by lia.
      replace (is_sum_safe (va + base + 2) q) with true by (unfold is_sum_safe; change max_dword with (2^32 - 1); rewrite u32_small by lia; lia). cbn [negb throw_if bind].
      rewrite (u32_small (va + base + q)) by lia. apply Hx in H; [|exact Hn]. apply holds_app in H as [H1 H2]. rewrite zlen_le in H2.
      replace (va + base + q) with (va + (base + q)) by lia. rewrite (block_holds p va v (base + q) _ 2 Bl H1) by (rewrite ?zlen_le; lia). cbn [bind].
      rewrite unle_le_small by (change (256 ^ Z.of_nat 2) with (2^16); lia). rewrite (u32_small (va + (base + q) + 2)) by lia. cbv zeta.
      replace (va + (base + q) + 2) with (va + (base + q + 2)) by lia. rewrite (block_length p va v) by (try assumption; lia). cbn [bind].
      replace (zlen v - (base + q + 2) <? zlen s) with false by lia. cbn [throw_if bind]. rewrite (block_ptr p va v) by (try assumption; lia). cbn [bind].
      unfold name_bytes in H2. rewrite flat_map_app in H2. apply holds_app in H2 as [H2 _]. change (flat_map (le 2) s) with (name_bytes s) in H2. rewrite name_bytes_wide in H2. rewrite rd_units_ok; [reflexivity|exact V|exact H2].
    - subst w. replace (2^31 <=? id) with false by (unfold is_u32 in *; lia). unfold u16. rewrite Z.mod_small by (unfold is_u32 in *; lia). reflexivity.
  Qed.
  Lemma read_data data cp w q : data <> [] -> is_u32 cp -> 0 <= w -> 0 <= q -> held d R (base + w) (enc_fields [4; 4; 4; 4]%nat [va + q; zlen data; cp; 0]) -> held d R q data ->
    read_rdata p (va + base) w = Ok (RData data cp).
  Proof.
    intros Nd Hc Hw Hq H1 H2. assert (Zd : 0 < zlen data) by (destruct data; [congruence|rewrite zlen_cons; pose proof (zlen_nonneg data); lia]).
    assert (Le : zlen (enc_fields [4; 4; 4; 4]%nat [va + q; zlen data; cp; 0]) = 16) by (apply enc_fields_length; reflexivity).
    pose proof (held_range _ _ H1 ltac:(lia)) as [_ G1]. pose proof (held_range _ _ H2 Zd) as [_ G2]. rewrite Le in G1.
    unfold read_rdata. rewrite (u32_small (va + base + w)) by lia. replace (va + base + w) with (va + (base + w)) by lia. rewrite (held_read _ _ 16 H1) by lia. cbn [bind].
    rewrite <- (app_nil_r (enc_fields _ _)). rewrite dec_enc_fields by (cbn [fits]; change (256 ^ Z.of_nat 4) with (2^32); unfold is_u32 in *; lia).
    rewrite (block_length p va v) by (try assumption; lia). cbn [bind]. replace (zlen v - q <? zlen data) with false by lia. cbn [throw_if bind].
    rewrite (block_ptr p va v) by (try assumption; lia). cbn [bind]. rewrite (rd_holds v q data) by (try apply Hx; auto). reflexivity.
  Qed.
  Lemma kept_le n : forall o e, kept d R va base n o e -> o + 16 <= e.
  Proof.
    induction n as [|x c|h l F] using rnode_ind2; intros o e; try contradiction. rewrite kept_dir. intros [_ K].
    enough (G : forall this e0, kept_list d R va base e l this e0 -> e0 <= e) by (apply G in K; pose proof (zlen_nonneg l); lia).
    clear K. induction l as [|[nm c] l IH]; intros this e0; cbn [kept_list]; [lia|]. apply Forall_cons_iff in F as [Fc F]. cbn [snd] in Fc.
    intros (w1 & w2 & e1 & _ & _ & _ & _ & H3 & H4). apply (IH F) in H4. destruct c as [|data cp|h2 l2]; [destruct H3 as (_ & _ & [])|lia|]. destruct H3 as (_ & _ & Q). apply Fc in Q. lia.
  Qed.
  Lemma kept_list_le e l : forall this e0, kept_list d R va base e l this e0 -> e0 <= e.
  Proof.
    induction l as [|[nm c] l IH]; intros this e0; cbn [kept_list]; [lia|].
    intros (w1 & w2 & e1 & _ & _ & _ & _ & H3 & H4). apply IH in H4. destruct c as [|data cp|h2 l2]; [destruct H3 as (_ & _ & [])|lia|]. destruct H3 as (_ & _ & Q). apply kept_le in Q. lia.
  Qed.
  Lemma kept_list_room e l : forall this e0, kept_list d R va base e l this e0 -> base + this <= zlen v -> base + this + 8 * zlen l <= zlen v.
  Proof.
    induction l as [|[nm c] l IH]; intros this e0; cbn [kept_list]; [intros _ H; change (@zlen rentry []) with 0; lia|].
    intros (w1 & w2 & e1 & _ & _ & H1 & _ & _ & H4) H. apply held_range in H1; [|rewrite zlen_app, !zlen_le; lia]. rewrite zlen_app, !zlen_le in H1. rewrite zlen_cons. apply IH in H4; lia.
  Qed.
  Definition reads (k : Z) (f : Z * list Z -> res (rnode * list Z)) : Prop :=
    forall n o e seen, valid_tree n -> storable_tree n -> kept d R va base n o e -> 0 <= o -> Forall (fun x => x < o) seen -> e - o < k ->
      exists seen', f (o, seen) = Ok (counted n, seen') /\ Forall (fun x => x < e) seen'.
  Lemma reads_list k f o e : reads k f -> 0 <= o -> e - o < k + 1 -> forall l i this e0 l1 sn,
    Forall (fun x => valid_rname (fst x) /\ valid_tree (snd x)) l -> Forall (fun x => storable_rname (fst x) /\ storable_tree (snd x)) l ->
    kept_list d R va base e l this e0 -> this = o + 16 + 8 * Z.of_nat i -> o < e0 -> Forall (fun x => x < e0) sn ->
    exists sn', mfold (read_rentry p (va + base) o f) (map Z.of_nat (seq i (length l))) (l1, sn) = Ok (l1 ++ map counted_child l, sn') /\ Forall (fun x => x < e) sn'.
  Proof.
    intros Hf Ho He. induction l as [|[nm c] l IH]; intros i this e0 l1 sn V S K Et H0 Sn.
    - cbn [kept_list] in K. subst e0. exists sn. cbn [length seq map mfold]. rewrite app_nil_r. split; [reflexivity|exact Sn].
    - apply Forall_cons_iff in V as [[Vn Vc] V]. apply Forall_cons_iff in S as [[Sn' Sc] S]. cbn [fst snd] in *. cbn [kept_list] in K.
      destruct K as (w1 & w2 & e1 & U1 & U2 & H1 & H2 & H3 & H4). cbn [length seq map mfold].
      pose proof (held_range _ _ H1 ltac:(rewrite zlen_app, !zlen_le; lia)) as [_ G1]. rewrite zlen_app, !zlen_le in G1. pose proof (kept_list_le _ _ _ _ H4) as Le1.
      assert (E : exists sn1, read_rentry p (va + base) o f (l1, sn) (Z.of_nat i) = Ok (l1 ++ [(nm, counted c)], sn1) /\ Forall (fun x => x < e1) sn1 /\ e0 <= e1).
      { unfold read_rentry. rewrite (u32_small (va + base + 16 + Z.of_nat i * 8 + o)) by lia. replace (va + base + 16 + Z.of_nat i * 8 + o) with (va + (base + this)) by lia.
        rewrite (held_read _ _ 8 H1) by (rewrite ?zlen_app, ?zlen_le; lia). cbn [bind].
        assert (slice (le 4 w1 ++ le 4 w2) 0 4 = le 4 w1) as -> by reflexivity. assert (slice (le 4 w1 ++ le 4 w2) 4 4 = le 4 w2) as -> by reflexivity.
        rewrite !unle_le_small by (change (256 ^ Z.of_nat 4) with (2^32); unfold is_u32 in *; lia). rewrite (read_name nm w1) by assumption. cbn [bind]. unfold flag31, low31.
        destruct c as [|data cp|h2 l2]; [destruct Vc| |].
        - destruct H3 as (-> & L2 & q & Q0 & Q1 & Q2). replace (2^31 <=? w2) with false by lia. rewrite (read_data data cp w2 q) by (try assumption; try apply Vc; unfold is_u32 in *; lia). cbn [bind].
          exists sn. split; [reflexivity|]. split; [exact Sn|lia].
        - destruct H3 as (-> & L2 & Q). replace (2^31 <=? 2^31 + e0) with true by lia. replace ((2^31 + e0) mod 2^31) with e0 by lia.
          pose proof (kept_le _ _ _ Q). destruct (Hf (RDir h2 l2) e0 e1 sn Vc Sc Q ltac:(lia) Sn ltac:(lia)) as (sn1 & -> & Sn1). cbn [bind]. exists sn1. split; [reflexivity|]. split; [exact Sn1|lia]. }
      destruct E as (sn1 & -> & Sn1 & Le0). cbn [bind].
      destruct (IH (Datatypes.S i) (this + 8) e1 (l1 ++ [(nm, counted c)]) sn1 V S H4 ltac:(lia) ltac:(lia) Sn1) as (sn' & -> & Sn2). exists sn'. rewrite <- app_assoc. split; [reflexivity|exact Sn2].
  Qed.
  Lemma reads_step k f : 0 <= k -> reads k f -> reads (k + 1) (read_rdir p (va + base) f).
  Proof.
    intros Hk Hf n o e seen V S K Ho Sn He. destruct n as [|x c|h l]; try contradiction. apply kept_dir in K as [H1 K]. apply valid_dir in V as (V1 & V2 & V3 & V4 & V). apply storable_dir in S as (S1 & S2 & _ & S).
    assert (Le : zlen (enc_fields rdir_widths [r_chars h; r_time h; r_major h; r_minor h; count_named l; count_ids l]) = 16) by (apply enc_fields_length; reflexivity).
    pose proof (held_range _ _ H1 ltac:(lia)) as [_ G1]. rewrite Le in G1. pose proof (kept_list_room _ _ _ _ K ltac:(lia)) as G2. pose proof (zlen_nonneg l) as Zl.
    pose proof (zlen_nonneg (filter is_named l)) as N1. fold (count_named l) in N1. pose proof (zlen_nonneg (filter (fun e => negb (is_named e)) l)) as N2. fold (count_ids l) in N2. pose proof (counts l) as Cn.
    unfold read_rdir. replace (existsb (Z.eqb o) seen) with false.
    2: { symmetry. apply not_true_iff_false. intros X. apply existsb_exists in X as (y & Hy & Ey). rewrite Forall_forall in Sn. specialize (Sn y Hy). cbv beta in Sn. lia. }
    assert (Ss : forall a b, 0 <= a -> 0 <= b -> a + b < 2^32 -> is_sum_safe a b = true) by (intros a b A1 A2 A3; unfold is_sum_safe; change max_dword with (2^32-1); rewrite u32_small by lia; lia).
    cbn [throw_if bind]. rewrite (Ss (va + base) o) by lia. cbn [negb throw_if bind]. replace (va + base + o) with (va + (base + o)) by lia. rewrite (held_read _ _ 16 H1) by lia. cbn [bind].
    rewrite <- (app_nil_r (enc_fields _ _)). rewrite dec_enc_fields by (cbn [fits rdir_widths]; change (256 ^ Z.of_nat 4) with (2^32); change (256 ^ Z.of_nat 2) with (2^16); unfold is_u32, is_u16 in *; lia).
    replace (count_ids l + count_named l) with (zlen l) by lia. rewrite (Ss (count_ids l)) by lia. cbn [negb orb]. change (max_dword / 8 + 16) with 536870927. replace (536870927 <=? zlen l) with false by lia. cbn [throw_if bind].
    rewrite (Ss o (16 + zlen l * 8)) by lia. rewrite (u32_small (o + 16 + zlen l * 8)) by lia. rewrite Ss by lia. cbn [negb orb throw_if bind].
    destruct (reads_list k f o e Hf Ho He l 0%nat (o + 16) _ [] (o :: seen) V S K ltac:(lia) ltac:(lia)) as (sn' & E & Sn').
    { constructor; [lia|]. apply (Forall_impl _ (P := fun x => x < o)); [intros; lia|exact Sn]. }
    unfold zrange. replace (Z.to_nat (zlen l)) with (length l) by (unfold zlen; lia). rewrite E. cbn [bind app]. exists sn'. split; [|exact Sn'].
    rewrite counted_dir. destruct (counted_counts l) as [-> ->]. rewrite !u32_small by lia. reflexivity.
  Qed.
  Lemma reads_all n e : valid_tree n -> storable_tree n -> kept d R va base n 0 e -> e < 2^33 -> exists seen, process_resources p (va + base) (0, []) = Ok (counted n, seen).
  Proof.
    intros V S K He. assert (G : reads (0 + Zpos big_fuel) (process_resources p (va + base))).
    { apply (pfun_ind (read_rdir p (va + base)) reads); [apply reads_step|lia|]. intros m o e' seen _ _ K' _ _ H. apply kept_le in K'. lia. }
    destruct (G n 0 e [] V S K ltac:(lia) ltac:(constructor)) as (seen & E & _); [change (0 + Z.pos big_fuel) with (2^33 + 1); lia|]. eauto.
  Qed.
End Read.

(** ** The writer as a whole *)
Lemma holds_prefix d z off bs : holds d off bs -> holds (d ++ z) off bs.
Proof.
  intros (A & B & C). pose proof (zlen_nonneg z) as Zz. pose proof (zlen_nonneg bs) as Zb. apply nth_holds; [exact A|rewrite zlen_app; lia|]. intros k Hk. rewrite app_nth1 by (unfold zlen in *; lia).
  apply holds_nth; [split; [exact A|split; assumption]|lia].
Qed.
Lemma nth_firstn' (l : list Z) : forall n k, (k < n)%nat -> nth k (firstn n l) 0 = nth k l 0.
Proof. induction l as [|x l IH]; intros [|n] [|k] H; try lia; try reflexivity. cbn [firstn nth]. apply IH. lia. Qed.
Lemma same_out_within d d' (T : Z -> Prop) a b : same_out d d' T -> (forall k, T k -> a <= k < b) -> 0 <= a <= b -> b <= zlen d -> within d d' a b.
Proof.
  intros [L S] H Hab Hb. split; [exact L|]. unfold ztake, zdrop. split.
  - apply (nth_ext _ _ 0 0); [rewrite !firstn_length; unfold zlen in *; lia|]. intros n Hn. rewrite firstn_length in Hn. rewrite !nth_firstn' by lia.
    replace n with (Z.to_nat (Z.of_nat n)) by lia. apply S; [lia|]. intros X. apply H in X. lia.
  - apply (nth_ext _ _ 0 0); [rewrite !skipn_length; unfold zlen in *; lia|]. intros n Hn. rewrite !nth_skipn.
    replace (Z.to_nat b + n)%nat with (Z.to_nat (b + Z.of_nat n)) by lia. apply S; [lia|]. intros X. apply H in X. lia.
Qed.
Lemma root_dir t : full_root t -> is_dir t.
Proof. destruct t as [| |h [|e l]]; cbn; tauto. Qed.
Lemma sizes_ok t off : valid_tree t -> full_root t -> 0 <= off -> resource_end off t < 2^32 ->
  let base := ceil_mult off 4 in let structs := base - off + table_size t in
  align_up off 4 = base /\ u32 (base - off) = base - off /\ tables_space t (base - off, 0) = Ok (structs, text_size t) /\
  u32 (base + structs) = base + structs /\ u32 (base + structs + text_size t) = base + structs + text_size t /\
  data_space t (0, base + structs + text_size t) = Ok (resource_end off t - (base + structs + text_size t), resource_end off t) /\
  u32 (u32 (structs + text_size t) + (resource_end off t - (base + structs + text_size t))) = resource_end off t - base /\
  base + structs + text_size t <= resource_end off t.
Proof.
  intros V F Ho He base structs. pose proof (root_dir _ F) as D. pose proof (ceil_mult_least off 4 ltac:(lia)) as Cm. fold base in Cm.
  pose proof (table_size_nonneg t) as Z1. pose proof (text_size_nonneg t) as Z2.
  assert (Er : resource_end off t = data_end t (base + structs + text_size t)) by (unfold resource_end; fold base; f_equal; unfold structs; lia).
  pose proof (data_end_ge t (base + structs + text_size t)) as G. rewrite <- Er in G. unfold structs in *.
  split; [apply align4; fold base; lia|]. split; [apply u32_small; lia|]. split; [rewrite (tables_ok t V D) by lia; do 2 f_equal; lia|]. split; [apply u32_small; lia|]. split; [apply u32_small; lia|].
  split; [rewrite (space_ok t V D) by (rewrite <- ?Er; lia); rewrite <- Er; do 2 f_equal; lia|]. split; [|exact G]. rewrite (u32_small (base - off + table_size t + text_size t)) by lia. rewrite u32_small by lia. lia.
Qed.
Lemma root_check t (x : res (pe * (Z * Z) * rnode)) : full_root t -> (throw_if (match t with RDir _ (_ :: _) => false | _ => true end) incorrect_resource_directory ;;; x) = x.
Proof. destruct t as [| |h [|e l]]; cbn [full_root]; try contradiction. reflexivity. Qed.
Lemma rebuild_resources_strong p start i t off save strip s : let base := ceil_mult off 4 in let stop := resource_end off t in
  0 <= off -> valid_tree t -> full_root t -> ordered_tree t \/ even_tree t -> room p start i stop -> dirs_ok p -> dir_resource < nrva p <= 16 -> nth_error (p_sections p) i = Some s ->
  exists p' out, rebuild_resources p t i off save strip = Ok (p', (s_va s + base, stop - base), sort_tree t) /\ zlen out = stop - base /\ only_section p p' i base out /\
    same_headers p p' /\ image_ok p' start /\ (if save then only_directory p p' dir_resource (s_va s + base, stop - base) else h_dirs (p_nt p') = h_dirs (p_nt p)) /\
    (exists v, block p' (s_va s) v /\ holds v base out) /\ (save = true -> directory_at p' dir_resource (s_va s + base) (stop - base)) /\
    (storable_tree t -> forall r v, block r (s_va s) v -> holds v base out -> get_directory_rva r dir_resource = Ok (s_va s + base) -> directory_exists r dir_resource = Ok true -> get_resources r = Ok (counted (sort_tree t))).
Proof.
  intros base stop Ho V F Hoe R D N Hs. pose proof R as (IO & Tt & s' & Hs' & Hz0 & Hf & _). rewrite Hs in Hs'. injection Hs' as <-.
  destruct (sizes_ok t off V F Ho ltac:(fold stop; lia)) as (E1 & E2 & E3 & E4 & E5 & E6 & E7 & E8). fold base stop in E1, E2, E3, E4, E5, E6, E7, E8.
  set (structs := base - off + table_size t) in *. pose proof (ceil_mult_least off 4 ltac:(lia)) as Cm. fold base in Cm. pose proof (text_size_nonneg t) as Z2.
  assert (T16 : 16 <= table_size t).
  { destruct t as [| |h l]; try contradiction. rewrite table_dir. pose proof (tables_of_nonneg l). pose proof (zlen_nonneg l). lia. }
  pose proof IO as ((Ps & Pf & L) & W & _).
  destruct (open_room_ok p start i stop stop R ltac:(pose proof (ceil_mult_least stop (falign p) (pow2_pos _ Pf)); lia)) as (s' & d0 & Hs' & Eo & Pd & L1 & L2 & L3).
  rewrite Hs in Hs'. injection Hs' as <-.
  assert (Hr : zlen (raw_view s) <= 2^31 /\ s_va s + zlen (raw_view s) < 2^32 /\ s_va s + stop < 2^32).
  { pose proof IO as (_ & W' & _ & _ & Ch & Ce). pose proof (chain_upper _ _ _ (pow2_pos _ Ps) W' Ch) as Up. pose proof (nth_Forall _ _ _ _ Up Hs) as Us. cbn beta in Us. unfold send in Us.
    destruct R as (_ & _ & s2 & Hs2 & _ & _ & _ & Hr & Rr). rewrite Hs in Hs2. injection Hs2 as <-. split; [lia|]. split; [lia|].
    destruct (Nat.eqb (Datatypes.S i) (length (p_sections p))); [pose proof (ceil_mult_least stop (salign p) (pow2_pos _ Ps)); lia|lia]. }
  unfold rebuild_resources. assert (section_attached p i = true) as -> by (unfold section_attached; apply Nat.ltb_lt, (nth_lt _ _ _ Hs)). cbn [negb throw_if bind]. rewrite (root_check t) by exact F.
  rewrite E1. cbv zeta. rewrite E2, E3. cbn [bind]. rewrite E4, E5, E6. cbn [bind]. rewrite E7. replace (stop - base + base) with stop by lia. rewrite (u32_small stop) by lia. rewrite Eo. cbn [bind].
  destruct (opened_fields s d0) as (_ & _ & O3 & _ & _ & O6 & _).
  pose proof (nodes_ok (opened s d0) base (base + structs) (base + structs + text_size t) (zlen d0) ltac:(lia) ltac:(lia) ltac:(rewrite O3; lia) (sort_tree t) (sort_valid _ V) (sort_is_dir _ (root_dir _ F))) as K.
  unfold node_ok, fits_in in K. rewrite sort_table, sort_text in K.
  set (w := mk_rout d0 base (base + structs + text_size t) (base + structs)).
  specialize (K w). cbn [w w_data w_struct w_pos w_text] in K. rewrite sort_data_end in K by (try assumption; lia).
  assert (Er : data_end t (base + structs + text_size t) = stop) by (unfold stop, resource_end; fold base; f_equal; unfold structs; lia). rewrite Er in K. rewrite O3 in K.
  destruct K as (w' & Ew & S1 & B1 & _ & _ & P1 & K1); [unfold structs in *; lia|].
  assert (s_data (opened s d0) = d0) as -> by exact O6. fold w. rewrite Ew. cbn [bind].
  assert (Wi : within d0 (w_data w') base stop).
  { apply (same_out_within _ _ _ _ _ S1); [|lia|lia]. unfold ranges, w; cbn [w_data w_struct w_pos w_text]. unfold structs in *. lia. }
  pose proof (within_splice _ _ _ _ Wi ltac:(lia) ltac:(lia)) as Es. set (out := slice (w_data w') base (stop - base)) in *.
  assert (Bd : bytes d0) by (apply (padded_bytes _ _ Pd), bytes_raw_view, (nth_Forall _ _ _ _ W Hs)).
  assert (Lo : zlen out = stop - base) by (unfold out; apply zlen_slice; rewrite ?(proj1 S1); lia).
  destruct (finish_ok p start i stop stop s d0 base out strip save dir_resource (stop - base) R ltac:(pose proof (ceil_mult_least stop (falign p) (pow2_pos _ Pf)); lia) Hs Eo ltac:(lia) ltac:(lia) ltac:(lia) ltac:(unfold out; apply bytes_slice, B1, Bd) D ltac:(unfold dir_resource in *; lia) ltac:(lia))
    as (p' & t' & Ef & F1 & F2 & F3 & F4 & F5 & F6 & F7 & F8 & F9 & F10 & F11 & F12).
  rewrite <- Es in Ef. rewrite Ef. cbn [bind]. exists p', out. split; [reflexivity|]. split; [exact Lo|]. split; [exact F1|]. split; [exact F2|]. split; [exact F3|]. split; [destruct save; [apply F4|exact F4]|].
  rewrite <- Es in F12. pose proof (proj1 S1) as Ld. cbn [w w_data] in Ld.
  split; [eexists; split; [exact F12|]; apply holds_prefix; split; [lia|]; split; [lia|rewrite Lo; reflexivity]|]. split; [intros ->; apply F4|].
  intros St r v Bv Hv G2 G1. unfold get_resources. rewrite G1. cbn [bind]. rewrite G2. cbn [bind]. destruct (K1 (sort_storable _ St)) as [P2 Kp].
  replace (base - base) with 0 in Kp by lia.
  match type of Kp with kept _ ?T _ _ _ _ _ => assert (HR : forall k, T k -> base <= k < stop) by (intros k Hk; unfold ranges, w in Hk; cbn [w_data w_struct w_pos w_text] in Hk; unfold structs in *; lia) end.
  edestruct (reads_all r (s_va s) base (w_data w') v) as (seen & ->); [exact Bv|lia| |exact (sort_valid _ V)|exact (sort_storable _ St)|exact Kp|unfold structs in *; lia|reflexivity].
  intros o bs [Hh Hk] Hn. apply (holds_part v (w_data w') base (stop - base)); [exact Hv|lia|lia|lia|exact Hh|apply HR, Hk; lia|].
  pose proof (HR (o + zlen bs - 1) ltac:(apply Hk; lia)). lia.
Qed.
Lemma rebuild_resources_ok p start i t off save strip s : let base := ceil_mult off 4 in let stop := resource_end off t in
  0 <= off -> valid_tree t -> full_root t -> ordered_tree t \/ even_tree t -> room p start i stop -> dirs_ok p -> dir_resource < nrva p <= 16 -> nth_error (p_sections p) i = Some s ->
  exists p' out, rebuild_resources p t i off save strip = Ok (p', (s_va s + base, stop - base), sort_tree t) /\ zlen out = stop - base /\ only_section p p' i base out /\
    same_headers p p' /\ image_ok p' start /\ (if save then only_directory p p' dir_resource (s_va s + base, stop - base) else h_dirs (p_nt p') = h_dirs (p_nt p)) /\
    (save = true -> storable_tree t -> get_resources p' = Ok (counted (sort_tree t))).
Proof.
  intros base stop Ho V F Hoe R D N Hs. destruct (rebuild_resources_strong p start i t off save strip s Ho V F Hoe R D N Hs) as (p' & out & E & E1 & E2 & E3 & E4 & E5 & (v & Bv & Hv) & E6 & E7).
  exists p', out. do 5 (split; [assumption|]). split; [assumption|]. intros Sv St. destruct (E6 Sv) as (G1 & G2 & _). apply (E7 St p' v Bv Hv G2 G1).
Qed.
Lemma resources_detached p t i off save strip : nth_error (p_sections p) i = None -> rebuild_resources p t i off save strip = Throw section_is_not_attached.
Proof.
  intros H. unfold rebuild_resources, section_attached. apply nth_error_None in H. replace (Nat.ltb i (length (p_sections p))) with false by (symmetry; apply Nat.ltb_ge; exact H). reflexivity.
Qed.
Lemma resources_full p t i off save strip : 0 <= off -> valid_tree t -> full_root t -> resource_end off t < 2^32 -> no_room p i (resource_end off t) ->
  rebuild_resources p t i off save strip = Throw insufficient_space.
Proof.
  intros Ho V F He Nr. destruct (sizes_ok t off V F Ho He) as (E1 & E2 & E3 & E4 & E5 & E6 & E7 & E8). pose proof (ceil_mult_least off 4 ltac:(lia)) as Cm.
  pose proof (table_size_nonneg t). pose proof (text_size_nonneg t).
  unfold rebuild_resources. assert (section_attached p i = true) as ->.
  { unfold section_attached. apply Nat.ltb_lt. destruct Nr as (_ & Hl & _). lia. }
  cbn [negb throw_if bind]. rewrite (root_check t) by exact F. rewrite E1. cbv zeta. rewrite E2, E3. cbn [bind]. rewrite E4, E5, E6. cbn [bind]. rewrite E7.
  replace (resource_end off t - ceil_mult off 4 + ceil_mult off 4) with (resource_end off t) by lia. rewrite (u32_small (resource_end off t)) by lia. rewrite open_room_full by exact Nr. reflexivity.
Qed.
Lemma resources_empty p h i off save strip s : nth_error (p_sections p) i = Some s -> rebuild_resources p (RDir h []) i off save strip = Throw incorrect_resource_directory.
Proof. intros H. unfold rebuild_resources. assert (section_attached p i = true) as -> by (unfold section_attached; apply Nat.ltb_lt, (nth_lt _ _ _ H)). reflexivity. Qed.
