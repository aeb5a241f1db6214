(** Proofs about the debug directory reader: the directory and safety. *)
From Verif Require Export DebugDir.

(** ** Entries *)
Lemma entry_dec b a : bytes b -> zlen b = 28 -> entry_ok (debug_of b a) /\ b = entry_bytes (debug_of b a).
Proof.
  intros B L. split.
  - unfold entry_ok, debug_of, dd_type, dd_size, dd_ptr. cbn [d_chars d_time d_major d_minor d_type d_size d_addr d_ptr].
    repeat apply conj; (apply (field_bound b _ 4 B) || apply (field_bound b _ 2 B)); lia.
  - assert (holds b 0 (entry_bytes (debug_of b a))) as H.
    { unfold entry_bytes, debug_of, dd_type, dd_size, dd_ptr. cbn [d_chars d_time d_major d_minor d_type d_size d_addr d_ptr]. rewrite !holds_app, !zlen_le.
      change (0 + Z.of_nat 4) with 4. change (4 + Z.of_nat 4) with 8. change (8 + Z.of_nat 2) with 10. change (10 + Z.of_nat 2) with 12. change (12 + Z.of_nat 4) with 16. change (16 + Z.of_nat 4) with 20. change (20 + Z.of_nat 4) with 24.
      split; [apply (holds_field b 0 4 B); lia|]. split; [apply (holds_field b 4 4 B); lia|]. split; [apply (holds_field b 8 2 B); lia|]. split; [apply (holds_field b 10 2 B); lia|].
      split; [apply (holds_field b 12 4 B); lia|]. split; [apply (holds_field b 16 4 B); lia|]. split; [apply (holds_field b 20 4 B); lia|apply (holds_field b 24 4 B); lia]. }
    apply holds_start in H as [r E]. assert (zlen (entry_bytes (debug_of b a)) = 28) as L28 by (unfold entry_bytes; rewrite !zlen_app, !zlen_le; reflexivity).
    assert (zlen r = 0) as Lr by (apply (f_equal zlen) in E; rewrite zlen_app in E; lia). apply zlen_zero in Lr. rewrite Lr, app_nil_r in E. exact E.
Qed.
Lemma entry_len e : zlen (entry_bytes e) = 28.
Proof. unfold entry_bytes. rewrite !zlen_app, !zlen_le. reflexivity. Qed.
Lemma entry_fields e : entry_ok e -> let b := entry_bytes e in debug_of b (d_adv e) = e /\ dd_ptr b = d_ptr e /\ dd_type b = d_type e.
Proof.
  intros (U1 & U2 & U3 & U4 & U5 & U6 & U7 & U8) b. pose proof (holds_self b) as H. unfold b in H at 2. unfold entry_bytes in H. rewrite !holds_app, !zlen_le in H.
  change (0 + Z.of_nat 4) with 4 in H. change (4 + Z.of_nat 4) with 8 in H. change (8 + Z.of_nat 2) with 10 in H. change (10 + Z.of_nat 2) with 12 in H. change (12 + Z.of_nat 4) with 16 in H. change (16 + Z.of_nat 4) with 20 in H. change (20 + Z.of_nat 4) with 24 in H.
  destruct H as (H1 & H2 & H3 & H4 & H5 & H6 & H7 & H8).
  apply (field4 b) in H1, H2, H5, H6, H7, H8; try assumption. apply (field_of b 8 2 _ U3) in H3. apply (field_of b 10 2 _ U4) in H4. change (Z.of_nat 2) with 2 in *.
  unfold debug_of, dd_ptr, dd_type, dd_size. rewrite H1, H2, H3, H4, H5, H6, H7, H8. destruct e. split; [reflexivity|]. split; reflexivity.
Qed.

(** ** Raw data *)
Lemma map_find_some m k d : map_find m k = Some d <-> exists a b, m = a ++ (k, d) :: b /\ ~ In k (map fst a).
Proof.
  unfold map_find. induction m as [|[k' d'] m IH]; cbn [find option_map].
  - split; [discriminate|]. intros (a & b & E & _). destruct a; discriminate.
  - cbn [fst]. destruct (Z.eqb_spec k' k) as [->|N]; cbn [option_map snd].
    + split.
      * intros E. assert (d' = d) as -> by congruence. exists [], m. split; [reflexivity|intros []].
      * intros (a & b & E & Na). destruct a as [|x a]; cbn [app] in E; [congruence|]. assert (x = (k, d')) as -> by congruence. exfalso. apply Na. left. reflexivity.
    + rewrite IH. split.
      * intros (a & b & -> & Na). exists ((k', d') :: a), b. split; [reflexivity|]. intros [K|K]; [exact (N K)|exact (Na K)].
      * intros (a & b & E & Na). destruct a as [|x a]; cbn [app] in E; [congruence|]. exists a, b. split; [congruence|]. intros K. apply Na. right. exact K.
Qed.
Lemma raw_data_find p k d : map_find (p_debug p) k = Some d <-> raw_data p k d.
Proof. apply map_find_some. Qed.
Lemma raw_bytes p k d : raw_ok p -> map_find (p_debug p) k = Some d -> bytes d.
Proof.
  intros R H. apply map_find_some in H as (a & b & E & _). unfold raw_ok in R. rewrite E in R. apply Forall_app in R as [_ R]. inversion R; assumption.
Qed.
Lemma advanced_spec p b a : raw_ok p -> (advanced_info p b = Ok a <->
  (forall d, raw_data p (dd_ptr b) d -> describes (dd_type b) d a) /\ ((forall d, ~ raw_data p (dd_ptr b) d) -> a = AdvNone)).
Proof.
  intros R. unfold advanced_info. destruct (map_find (p_debug p) (dd_ptr b)) as [d|] eqn:E.
  - pose proof (raw_bytes _ _ _ R E) as B. assert (U : forall d', raw_data p (dd_ptr b) d' <-> d' = d).
    { intros d'. rewrite <- raw_data_find, E. split; congruence. }
    assert (K : (if dd_type b =? 1 then coff_info d else if dd_type b =? 2 then codeview_info d else if dd_type b =? 4 then misc_info d else Ok AdvNone) = Ok a <-> describes (dd_type b) d a).
    { destruct (Z.eqb_spec (dd_type b) 1) as [->|N1]; [apply coff_info_spec, B|]. destruct (Z.eqb_spec (dd_type b) 2) as [->|N2]; [split; [apply codeview_to, B|apply codeview_from]|].
      destruct (Z.eqb_spec (dd_type b) 4) as [->|N4]; [split; [apply misc_to, B|apply misc_from]|]. split; [intros H; assert (a = AdvNone) as -> by congruence; apply d_other; assumption|].
      intros H. destruct H; try (exfalso; lia). reflexivity. }
    rewrite K. split.
    + intros H. split; [intros d' Hd; apply U in Hd; subst d'; exact H|]. intros F. exfalso. apply (F d), U. reflexivity.
    + intros [H _]. apply H, U. reflexivity.
  - assert (U : forall d', ~ raw_data p (dd_ptr b) d') by (intros d' H; apply raw_data_find in H; congruence). split.
    + intros H. split; [intros d Hd; exfalso; exact (U d Hd)|congruence].
    + intros [_ H]. rewrite (H U). reflexivity.
Qed.
Lemma advanced_safe p b : raw_ok p -> safe (advanced_info p b).
Proof.
  intros R. unfold advanced_info. destruct (map_find (p_debug p) (dd_ptr b)) as [d|] eqn:E; [|exact I]. pose proof (raw_bytes _ _ _ R E) as B.
  case_if C1; [apply coff_info_safe, B|]. case_if C2; [apply codeview_safe|]. case_if C3; [apply misc_safe, B|exact I].
Qed.

(** ** The directory *)
Section Dir.
Variables (p : pe) (rva size : Z).
Hypothesis (R : readable p) (Rw : raw_ok p) (Hr : is_u32 rva) (Hz : is_u32 size) (Hs : rva + size < 2^32).
Lemma debug_loop_safe b : safe (mloop big_fuel (debug_step p rva size) (rva, b, [])).
Proof.
  pose proof R as (_ & _ & W & _).
  apply (mloop_safe (debug_step p rva size) big_fuel (fun st => is_u32 (fst (fst st))) (fun st => 2^32 - fst (fst st))).
  - intros [[pos c] acc] Hp. cbn [fst] in *. pose proof Hp as Hp'. unfold is_u32 in Hp'. split; [lia|]. unfold debug_step. case_if C; [|exact I].
    pose proof (advanced_safe p c Rw) as Sa. destruct (advanced_info p c) as [a| | |]; cbn [bind]; try contradiction; [|exact I].
    unfold sizeof_debug_directory. rewrite sum_safe by (unfold is_u32; lia). case_throw T; [exact I|]. cbn [bind]. rewrite u32_small by lia.
    pose proof (read_rva_safe p (pos + 28) 28 VirtData true W ltac:(unfold is_u32; lia) ltac:(lia)) as Sr.
    destruct (read_rva p (pos + 28) 28 VirtData true) as [b'| | |]; cbn [bind]; try contradiction; [|exact I]. cbn [fst]. unfold is_u32. lia.
  - exact Hr.
  - cbn [fst]. unfold is_u32 in Hr. unfold big_fuel. lia.
Qed.
Lemma debug_to : forall k pos b acc r, is_u32 pos -> read_rva p pos 28 VirtData true = Ok b -> nloop k (debug_step p rva size) (pos, b, acc) = Ok (inr r) ->
  exists l, r = acc ++ l /\ debug_table p (rva + size) pos l.
Proof.
  induction k as [|k IH]; intros pos b acc r Hp E H; [discriminate|]. cbn [nloop] in H. unfold debug_step at 1 in H. rewrite (u32_small (rva + size)) in H by (unfold is_u32 in *; lia).
  pose proof (read_rva_bytes _ _ _ _ _ _ R E) as B. pose proof (read_rva_len _ _ _ _ _ _ E) as L. unfold is_u32 in Hp.
  destruct (negb (dd_ptr b =? 0) && (pos <? rva + size)) eqn:C.
  - apply andb_true_iff in C as [C1 C2]. destruct (advanced_info p b) as [a| | |] eqn:Ea; cbn [bind] in H; try discriminate. unfold sizeof_debug_directory in H. rewrite sum_safe in H by (unfold is_u32; lia).
    destruct (throw_if _ _) as [[]| | |] eqn:T; cbn [bind] in H; try discriminate. unfold throw_if in T. destruct (negb (pos + 28 <? 2^32)) eqn:T1; try discriminate. rewrite (u32_small (pos + 28)) in H by lia.
    destruct (read_rva p (pos + 28) 28 VirtData true) as [b'| | |] eqn:Eb; cbn [bind] in H; try discriminate.
    apply (IH (pos + 28) _ _ _ ltac:(unfold is_u32; lia) Eb) in H as (l & -> & T2). eexists. split; [rewrite <- app_assoc; reflexivity|]. cbn [app].
    destruct (entry_dec b a B L) as [Ok_ Eq]. apply (advanced_spec p b a Rw) in Ea as [A1 A2].
    apply debug_entry; try assumption; try lia; [unfold shows; rewrite entry_len, <- Eq; exact E|change (d_ptr (debug_of b a)) with (dd_ptr b); lia].
  - injection H as <-. exists []. split; [rewrite app_nil_r; reflexivity|]. destruct (entry_dec b AdvNone B L) as [Ok_ Eq]. apply (debug_end p (rva + size) pos (debug_of b AdvNone) Ok_).
    + unfold shows. rewrite entry_len, <- Eq. exact E.
    + change (d_ptr (debug_of b AdvNone)) with (dd_ptr b). lia.
Qed.
Lemma debug_from pos l : debug_table p (rva + size) pos l -> is_u32 pos -> forall acc, exists b k, read_rva p pos 28 VirtData true = Ok b /\
  28 * Z.of_nat k <= 2^32 - pos + 28 /\ nloop k (debug_step p rva size) (pos, b, acc) = Ok (inr (acc ++ l)).
Proof.
  induction 1 as [pos e Oe Sh D|pos e l Oe Sh D Hl A1 A2 Hp28 _ IH]; intros Hp acc; unfold shows in Sh; rewrite entry_len in Sh; pose proof Hp as Hp'; unfold is_u32 in Hp'; destruct (entry_fields e Oe) as (F1 & F2 & F3).
  - exists (entry_bytes e), 1%nat. split; [exact Sh|]. split; [lia|]. cbn [nloop]. unfold debug_step. rewrite (u32_small (rva + size)) by (unfold is_u32 in *; lia). rewrite F2.
    replace (negb (d_ptr e =? 0) && (pos <? rva + size)) with false by lia. rewrite app_nil_r. reflexivity.
  - destruct (IH ltac:(unfold is_u32; lia) (acc ++ [e])) as (b & k & Rb & Hk & Ek). exists (entry_bytes e), (Datatypes.S k). split; [exact Sh|]. split; [lia|]. cbn [nloop]. unfold debug_step at 1. rewrite (u32_small (rva + size)) by (unfold is_u32 in *; lia). rewrite F2.
    replace (negb (d_ptr e =? 0) && (pos <? rva + size)) with true by lia.
    assert (advanced_info p (entry_bytes e) = Ok (d_adv e)) as -> by (apply advanced_spec; [exact Rw|rewrite F2, F3; split; assumption]). cbn [bind].
    unfold sizeof_debug_directory. rewrite sum_safe by (unfold is_u32; lia). replace (pos + 28 <? 2^32) with true by lia. cbn [negb throw_if bind]. rewrite (u32_small (pos + 28)) by lia. rewrite Rb. cbn [bind]. rewrite F1, Ek, <- app_assoc. reflexivity.
Qed.
End Dir.
Lemma debug_safe p : readable p -> raw_ok p -> safe (get_debug_information p).
Proof.
  intros R Rw. pose proof R as (_ & _ & W & _). unfold get_debug_information. destruct (directory_exists_safe p dir_debug R ltac:(unfold dir_debug; lia)) as [b ->]. cbn [bind].
  destruct b; [|exact I]. destruct (dir_get p dir_debug R ltac:(unfold dir_debug; lia)) as (rva & size & Hr & Hz & _ & -> & -> & _).
  case_if C; [exact I|]. cbn [bind]. apply safe_bind; [apply length_rva_safe, W|]. intros n _. case_throw D1; [exact I|]. cbn [bind].
  apply safe_bind; [apply read_rva_safe; [exact W|exact Hr|unfold sizeof_debug_directory; lia]|]. intros b _. rewrite sum_safe by exact Hz. case_throw D2; [exact I|]. cbn [bind].
  apply debug_loop_safe; try assumption; lia.
Qed.
Lemma debug_exact p : readable p -> raw_ok p -> forall rva size n l, dir_is p dir_debug (rva, size) -> dir_debug < nrva p -> rva <> 0 ->
  length_rva p rva rva VirtData true = Ok n -> 28 <= n -> rva + size < 2^32 ->
  (get_debug_information p = Ok l <-> debug_table p (rva + size) rva l).
Proof.
  intros R Rw rva size n l D N Hr HL Hn Hs. unfold get_debug_information.
  destruct (dir_get p dir_debug R ltac:(unfold dir_debug; lia)) as (rva' & size' & Ur & Uz & D' & Er & Ez & Ex).
  assert (rva' = rva /\ size' = size) as [-> ->] by (unfold dir_is in *; destruct D as [_ D], D' as [_ D']; split; congruence).
  rewrite (Ex N), Er, Ez. replace (nrva p <=? dir_debug) with false by lia. cbn [bind]. replace (rva =? 0) with false by lia. cbn [negb].
  rewrite HL. cbn [bind]. unfold sizeof_debug_directory at 1. replace (n <? 28) with false by lia. cbn [throw_if bind]. rewrite sum_safe by exact Uz. replace (rva + size <? 2^32) with true by lia. cbn [negb throw_if bind].
  change sizeof_debug_directory with 28. split.
  - intros H. bnd H b Eb. cbn [bind] in H. rewrite mloop_nloop in H. destruct (nloop (Pos.to_nat big_fuel) (debug_step p rva size) (rva, b, [])) as [[st|r]| | |] eqn:K; try discriminate. injection H as <-.
    destruct (debug_to p rva size R Rw Ur Uz Hs _ _ _ _ _ Ur Eb K) as (l & -> & T). exact T.
  - intros T. destruct (debug_from p rva size Rw Ur Uz Hs rva l T Ur []) as (b & k & Rb & Hk & Ek). rewrite Rb. cbn [bind]. apply (mloop_exec _ _ k); [exact Ek|]. unfold is_u32 in Ur. unfold big_fuel. lia.
Qed.
