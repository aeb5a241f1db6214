(** Proof of C80. *)
From Verif Require Export KeepRealign RelocFacts ExportFacts ImportFacts ResRound.

(** ** The rebuilders do not look at the cached header bytes *)
Definition rmap {A B} (f : A -> B) (x : res A) : res B := y <- x ;; Ok (f y).
Lemma rmap_bind {A B C} (f : B -> C) (x : res A) (k : A -> res B) : rmap f (bind x k) = bind x (fun y => rmap f (k y)).
Proof. destruct x; reflexivity. Qed.
Lemma bind_rmap {A B C} (f : A -> B) (x : res A) (k : B -> res C) : bind (rmap f x) k = bind x (fun y => k (f y)).
Proof. destruct x; reflexivity. Qed.
Lemma bind_ext {A B} (x : res A) (f g : A -> res B) : (forall y, x = Ok y -> f y = g y) -> bind x f = bind x g.
Proof. intros H. destruct x; cbn [bind]; auto. Qed.
Lemma mfold_rmap {A S} (g : S -> S) (f : S -> A -> res S) l : (forall s x, In x l -> f (g s) x = rmap g (f s x)) -> forall s, mfold f l (g s) = rmap g (mfold f l s).
Proof.
  induction l as [|x l IH]; intros H s; [reflexivity|]. cbn [mfold]. rewrite (H s x (or_introl eq_refl)). rewrite bind_rmap, rmap_bind. apply bind_ext. intros y _.
  apply IH. intros s' x' Hx. apply H. right; exact Hx.
Qed.
Notation hl := sections_only.
Definition hl1 {A} (x : pe * A) : pe * A := (hl (fst x), snd x).
Lemma image_size_hl p : update_image_size (hl p) = hl (update_image_size p).
Proof. unfold update_image_size. change (p_sections (hl p)) with (p_sections p). destruct (rev (p_sections p)); reflexivity. Qed.
Lemma resize_hl p i v : set_section_virtual_size (hl p) i v = rmap hl (set_section_virtual_size p i v).
Proof.
  unfold set_section_virtual_size. rewrite rmap_bind. apply bind_ext. intros _ _. rewrite rmap_bind. apply bind_ext. intros s _.
  destruct (v =? 0); [rewrite rmap_bind; apply bind_ext; intros _ _|]; unfold rmap; cbn [bind]; f_equal; exact (image_size_hl (put_section p i _)).
Qed.
Lemma recalc_hl p i strip : recalculate_section_sizes (hl p) i strip = rmap hl (recalculate_section_sizes p i strip).
Proof.
  unfold recalculate_section_sizes. rewrite rmap_bind. apply bind_ext. intros s _. rewrite rmap_bind. apply bind_ext. intros t _.
  change (length (p_sections (hl p))) with (length (p_sections p)). change (salign (hl p)) with (salign p). change (falign (hl p)) with (falign p).
  cbv zeta. destruct (_ <? _); [|reflexivity]. exact (resize_hl (put_section p i _) i _).
Qed.
Lemma set_dir_hl p id rva size : set_directory (hl p) id rva size = rmap hl (set_directory p id rva size).
Proof.
  unfold set_directory, set_directory_rva, set_directory_size. change (nrva (hl p)) with (nrva p). destruct (nrva p <=? id); [reflexivity|]. cbn [throw_if bind].
  change (h_dirs (p_nt (hl p))) with (h_dirs (p_nt p)). destruct (nth_ub (h_dirs (p_nt p)) id); try reflexivity. cbn [bind].
  change (nrva (store_dir (hl p) id (rva, snd a))) with (nrva (store_dir p id (rva, snd a))). destruct (nrva (store_dir p id (rva, snd a)) <=? id); [reflexivity|]. cbn [throw_if bind].
  change (h_dirs (p_nt (store_dir (hl p) id (rva, snd a)))) with (h_dirs (p_nt (store_dir p id (rva, snd a)))). destruct (nth_ub (h_dirs (p_nt (store_dir p id (rva, snd a)))) id); reflexivity.
Qed.
Lemma finish_hl p i s d pos size id save strip : finish_directory (hl p) i s d pos size id save strip = rmap hl1 (finish_directory p i s d pos size id save strip).
Proof.
  unfold finish_directory. change (put_section (hl p) i (set_s_data d s)) with (hl (put_section p i (set_s_data d s))). rewrite recalc_hl, bind_rmap, rmap_bind. apply bind_ext. intros q _. cbv zeta.
  destruct save; [|reflexivity]. rewrite set_dir_hl, bind_rmap, rmap_bind. apply bind_ext. reflexivity.
Qed.
Lemma exports_hl p info l i off save strip : rebuild_exports (hl p) info l i off save strip = rmap hl1 (rebuild_exports p info l i off save strip).
Proof.
  unfold rebuild_exports. rewrite rmap_bind. apply bind_ext. intros _ _. rewrite rmap_bind. apply bind_ext. intros [[[[nn base] top] ns] fs] _. cbv zeta.
  rewrite rmap_bind. apply bind_ext. intros s _. do 2 (rewrite rmap_bind; apply bind_ext; intros ? _). rewrite rmap_bind. apply bind_ext. intros [[[[d3 ?] ?] ?] m] _.
  rewrite rmap_bind. apply bind_ext. intros [[[d4 ?] ?] ?] _. apply finish_hl.
Qed.
Lemma resources_hl p t i off save strip : rebuild_resources (hl p) t i off save strip = rmap (fun x => (hl1 (fst x), snd x)) (rebuild_resources p t i off save strip).
Proof.
  unfold rebuild_resources. do 2 (rewrite rmap_bind; apply bind_ext; intros _ _). cbv zeta. rewrite rmap_bind. apply bind_ext. intros [st ss] _. rewrite rmap_bind. apply bind_ext. intros [n ?] _.
  do 2 (rewrite rmap_bind; apply bind_ext; intros ? _). rewrite finish_hl, bind_rmap, rmap_bind. apply bind_ext. reflexivity.
Qed.
Lemma relocations_hl p l i off save strip : rebuild_relocations (hl p) l i off save strip = rmap hl1 (rebuild_relocations p l i off save strip).
Proof.
  unfold rebuild_relocations. cbv zeta. rewrite rmap_bind. apply bind_ext. intros s _. rewrite rmap_bind. apply bind_ext. intros [d ?] _.
  change (put_section (hl p) i (set_s_data d s)) with (hl (put_section p i (set_s_data d s))). rewrite recalc_hl, bind_rmap, rmap_bind. apply bind_ext. intros q _.
  destruct save; [|reflexivity]. rewrite set_dir_hl, bind_rmap, rmap_bind. apply bind_ext. reflexivity.
Qed.
(** *** Imports *)
Definition hl3 (st : import_state) : import_state := let '(p, a, b, c) := st in (hl p, a, b, c).
Definition hl4 (st : import_state * Z) : import_state * Z := (hl3 (fst st), snd st).
Lemma wr_hl p i pos bs : wr_section (hl p) i pos bs = rmap hl (wr_section p i pos bs).
Proof. unfold wr_section. do 2 (rewrite rmap_bind; apply bind_ext; intros ? _). reflexivity. Qed.
Lemma thunk_hl i p pos v : put_thunk i false (hl p) pos v = rmap hl1 (put_thunk i false p pos v).
Proof. unfold put_thunk. rewrite wr_hl, bind_rmap, rmap_bind. apply bind_ext. reflexivity. Qed.
Lemma import_hl i sv wo st f : write_import i sv wo false false (hl3 st) f = rmap hl3 (write_import i sv wo false false st f).
Proof.
  destruct st as [[[p str] ip] op]. unfold write_import. cbn [hl3]. rewrite rmap_bind. apply bind_ext. intros s _. cbv zeta.
  change (snap_flag (hl p)) with (snap_flag p). change (base_mod (hl p)) with (base_mod p).
  set (v := if by_name f then _ else _).
  match goal with |- bind ?A ?F = rmap _ (bind ?B ?G) => assert (E : A = rmap hl1 B) end.
  { destruct sv; [reflexivity|]. destruct wo; [apply thunk_hl|]. destruct (by_name f || false); [apply thunk_hl|]. rewrite thunk_hl, bind_rmap, rmap_bind. apply bind_ext. intros [q ?] _. reflexivity. }
  rewrite E, bind_rmap, rmap_bind. apply bind_ext. intros [q iq] _. cbn [hl1 fst snd].
  match goal with |- bind ?A ?F = rmap _ (bind ?B ?G) => assert (E2 : A = rmap hl1 B) end.
  { destruct wo; [apply thunk_hl|reflexivity]. }
  rewrite E2, bind_rmap, rmap_bind. apply bind_ext. intros [q2 iq2] _. cbn [hl1 fst snd]. destruct (by_name f); [|reflexivity].
  rewrite wr_hl, bind_rmap, rmap_bind. apply bind_ext. intros q3 _. rewrite wr_hl, bind_rmap, rmap_bind. apply bind_ext. reflexivity.
Qed.
Lemma library_hl i o st l : stays o l && o_rewrite o = false -> write_library i o (hl4 st) l = rmap hl4 (write_library i o st l).
Proof.
  intros H. destruct st as [[[[p str] [a ip]] [b op]] dp]. unfold write_library. cbn [hl4 hl3 fst snd]. change (get_section (hl p) i) with (get_section p i). rewrite rmap_bind. apply bind_ext. intros s _. cbv zeta.
  change (stays o l) with (o_save o && negb (l_iat l =? 0)) in H. set (save := o_save o && negb (l_iat l =? 0)) in *. rewrite H. cbn [andb negb].
  set (wo := (negb save && o_build o) || o_fill o || false). set (sv := save && true). set (oft := if o_build o then _ else _). set (ft := if save then _ else _).
  rewrite wr_hl, bind_rmap, rmap_bind. apply bind_ext. intros q1 _. rewrite wr_hl, bind_rmap, rmap_bind. apply bind_ext. intros q2 _.
  set (str1 := u32 (str + _)). change (hl q2, str1, (ft, ip), (oft, op)) with (hl3 (q2, str1, (ft, ip), (oft, op))).
  rewrite (mfold_rmap hl3 (write_import i sv wo false false) (l_funcs l) (fun st f _ => import_hl i sv wo st f)).
  rewrite bind_rmap, rmap_bind. apply bind_ext. intros [[[q3 s3] i3] o3] _. cbn [hl3].
  match goal with |- bind ?A ?F = rmap _ (bind ?B ?G) => assert (E : A = rmap hl1 B) end.
  { destruct sv; [reflexivity|apply thunk_hl]. }
  rewrite E, bind_rmap, rmap_bind. apply bind_ext. intros [q4 i4] _. cbn [hl1 fst snd].
  match goal with |- bind ?A ?F = rmap _ (bind ?B ?G) => assert (E2 : A = rmap hl1 B) end.
  { destruct wo; [apply thunk_hl|reflexivity]. }
  rewrite E2, bind_rmap, rmap_bind. apply bind_ext. intros [q5 o5] _. reflexivity.
Qed.
Lemma imports_hl p libs i o : Forall (fun l => stays o l && o_rewrite o = false) libs -> rebuild_imports (hl p) libs i o = rmap hl1 (rebuild_imports p libs i o).
Proof.
  intros H. rewrite Forall_forall in H. unfold rebuild_imports. cbv zeta. change (thunk_size (hl p)) with (thunk_size p). rewrite rmap_bind. apply bind_ext. intros s _.
  set (ip := align_up _ _). set (op := u32 (ip + _)). set (dp := u32 (import_string_size libs + o_offset o)).
  change (put_section (hl p) i s, o_offset o, (0, ip), (0, op), dp) with (hl4 (put_section p i s, o_offset o, (0, ip), (0, op), dp)).
  rewrite (mfold_rmap hl4 (write_library i o) libs (fun st l Hl => library_hl i o st l (H l Hl))).
  rewrite bind_rmap, rmap_bind. apply bind_ext. intros [[[[q1 s1] i1] [o1 o2]] d1] _. cbn [hl4 hl3 fst snd].
  rewrite wr_hl, bind_rmap, rmap_bind. apply bind_ext. intros q2 _. change (get_section (hl q2) i) with (get_section q2 i). rewrite rmap_bind. apply bind_ext. intros s2 _.
  change (put_section (hl q2) i (set_s_data (resize (s_data s2) o2) s2)) with (hl (put_section q2 i (set_s_data (resize (s_data s2) o2) s2))). rewrite recalc_hl, bind_rmap, rmap_bind. apply bind_ext. intros q3 _.
  rewrite rmap_bind.
  match goal with |- bind ?A ?F = bind ?B ?G => assert (E : A = rmap hl B) end.
  { destruct (o_headers o); [|reflexivity]. rewrite set_dir_hl, bind_rmap, rmap_bind. apply bind_ext. intros q4 _. destruct (o_zero_iat o); [apply set_dir_hl|reflexivity]. }
  rewrite E, bind_rmap. apply bind_ext. reflexivity.
Qed.

(** ** The edited image *)
Lemma same_headers_relocs p p' : same_headers p p' -> same_but_relocs p p'.
Proof. intros H. exact (f_equal (with_nt (fun h => set_h_chars 0 (set_h_dllchars 0 h))) H). Qed.
Lemma room_hl p start i n : room p start i n -> room (hl p) start i n.
Proof.
  intros (A & B & s & H1 & H2 & H3 & H4). split; [exact A|]. split; [exact B|]. exists s. split; [exact H1|]. split; [exact H2|]. split; [change (zlen (p_full (hl p))) with 0; lia|exact H4].
Qed.
Lemma nth_dirs_ok p p' : dirs_ok p -> (forall j, (16 <= j)%nat -> nth_error (h_dirs (p_nt p')) j = None) ->
  (forall j, (j < 16)%nat -> exists e, nth_error (h_dirs (p_nt p')) j = Some e /\ is_u32 (fst e) /\ is_u32 (snd e)) -> dirs_ok p'.
Proof.
  intros D N H. pose proof (N 16%nat ltac:(lia)) as N1. apply nth_error_None in N1. destruct (H 15%nat ltac:(lia)) as (e & He & _). apply nth_lt in He.
  split; [lia|]. apply Forall_forall. intros x Hx. apply In_nth_error in Hx as (j & Hj). pose proof (nth_lt _ _ _ Hj). destruct (H j ltac:(lia)) as (y & Hy & R). congruence.
Qed.
Lemma directories_ok p p' (ids : Z -> Prop) : dirs_ok p -> (forall id, ids id \/ ~ ids id) -> (forall id, ids id -> exists d, dir_is p' id d /\ is_u32 (fst d) /\ is_u32 (snd d) /\ 0 <= id < 16) ->
  (forall j e, ~ ids j -> (dir_is p' j e <-> dir_is p j e)) -> dirs_ok p'.
Proof.
  intros D Dec H K. pose proof D as [L F]. apply (nth_dirs_ok p p' D).
  - intros j Hj. destruct (nth_error (h_dirs (p_nt p')) j) as [e|] eqn:E; [|reflexivity]. exfalso.
    destruct (Dec (Z.of_nat j)) as [I|I]; [destruct (H _ I) as (? & _ & _ & _ & ?); lia|].
    assert (X : dir_is p (Z.of_nat j) e) by (apply (K _ _ I); split; [lia|rewrite Nat2Z.id; exact E]).
    destruct X as [_ X]. rewrite Nat2Z.id in X. apply nth_lt in X. lia.
  - intros j Hj. destruct (Dec (Z.of_nat j)) as [I|I].
    + destruct (H _ I) as (d & [_ E] & R1 & R2 & _). rewrite Nat2Z.id in E. exists d. tauto.
    + destruct (nth_error (h_dirs (p_nt p)) j) as [e|] eqn:E; [|apply nth_error_None in E; lia].
      assert (X : dir_is p' (Z.of_nat j) e) by (apply (K _ _ I); split; [lia|rewrite Nat2Z.id; exact E]). destruct X as [_ X]. rewrite Nat2Z.id in X. exists e. split; [exact X|]. exact (nth_Forall _ _ _ _ F E).
Qed.
Lemma directory_ok p p' id d : dirs_ok p -> 0 <= id < 16 -> is_u32 (fst d) -> is_u32 (snd d) -> only_directory p p' id d -> dirs_ok p'.
Proof.
  intros D Hi R1 R2 [O1 O2]. apply (directories_ok p p' (fun j => j = id) D); [intros j; lia| |exact O2]. intros j ->. exists d. tauto.
Qed.
Lemma fits_flags plus h h' : set_h_chars 0 (set_h_dllchars 0 (set_h_dirs [] h')) = set_h_chars 0 (set_h_dllchars 0 (set_h_dirs [] h)) -> is_u16 (h_chars h') -> is_u16 (h_dllchars h') ->
  fits (nt_widths plus) (nt_fields plus h) -> fits (nt_widths plus) (nt_fields plus h').
Proof.
  intros E A B F. unfold is_u16 in *. destruct h, h'. cbn [PeModel.h_chars PeModel.h_dllchars set_h_chars set_h_dllchars set_h_dirs] in *. injection E; clear E; intros; subst.
  destruct plus; cbn [nt_widths nt_fields fits] in *; match goal with K : _ /\ _ /\ _ /\ _ |- _ => revert K end; intros K; repeat (destruct K as [? K]; split; [assumption || (cbn; lia)|]); exact K.
Qed.
Lemma edited_ready a p p' start i t : editable a p -> image_ok p start -> image_ok p' start -> same_but_relocs p p' -> is_u16 (h_chars (p_nt p')) -> is_u16 (h_dllchars (p_nt p')) -> dirs_ok p' ->
  length (p_sections p') = length (p_sections p) -> (forall j, j <> i -> nth_error (p_sections p') j = nth_error (p_sections p) j) -> nth_error (p_sections p') i = Some t -> well_sized p t ->
  editable a p'.
Proof.
  intros (((Wm & Wd & Wz & Wl & Wst & Wf & _ & Wn & _ & Wb & Wfl) & L1 & L2 & L3 & L4 & L5 & G & L6 & (start0 & S1 & S2 & S3 & S4)) & U & R & Pa & Ha) (_ & _ & Sd & Sr & Ch & Ce) (G' & W' & Sd' & _ & Ch' & Ce') Sb Hc Hd D' Len Oth Ht (O & Vt & Rt & Ct).
  pose proof (f_equal p_magic Sb : p_magic p' = p_magic p) as B1. pose proof (f_equal p_dosmid Sb : p_dosmid p' = p_dosmid p) as B2. pose proof (f_equal p_lfanew Sb : p_lfanew p' = p_lfanew p) as B3.
  pose proof (f_equal p_stub Sb : p_stub p' = p_stub p) as B4. pose proof (f_equal p_plus Sb : p_plus p' = p_plus p) as B5. pose proof (f_equal p_full Sb : p_full p' = p_full p) as B6.
  pose proof (f_equal p_nt Sb : set_h_chars 0 (set_h_dllchars 0 (set_h_dirs [] (p_nt p'))) = set_h_chars 0 (set_h_dllchars 0 (set_h_dirs [] (p_nt p)))) as B7.
  pose proof (f_equal h_nrva B7 : nrva p' = nrva p) as B8. pose proof (f_equal h_salign B7 : salign p' = salign p) as B9. pose proof (f_equal h_falign B7 : falign p' = falign p) as B10.
  pose proof (f_equal h_hdrsize B7 : hdrsize p' = hdrsize p) as B11. pose proof (f_equal h_signature B7 : h_signature (p_nt p') = h_signature (p_nt p)) as B12.
  pose proof (f_equal h_magic B7 : h_magic (p_nt p') = h_magic (p_nt p)) as B13. pose proof (f_equal h_basedata B7 : h_basedata (p_nt p') = h_basedata (p_nt p)) as B14.
  assert (Es : start = start0).
  { destruct (p_sections p) as [|s l]; [change (zlen (@nil section)) with 0 in L6; lia|]. destruct Ch as [<- _]. destruct S3 as [<- _]. reflexivity. }
  subst start0.
  split; [|split; [|split]].
  - split.
    { unfold image_wf. rewrite B1, B2, B3, B4, B5, B6, B8. repeat (split; [assumption|]). split; [apply (fits_flags _ (p_nt p)); assumption|]. repeat (split; [assumption|]). exact Wfl. }
    rewrite B1, B4, B5, B12, B13, B14. repeat (split; [assumption|]). split; [unfold zlen in *; rewrite Len; exact L6|]. exists start. rewrite B11. repeat (split; [assumption|]). exact Ce'.
  - unfold unmapped in *. apply Forall_forall. intros x Hx. apply In_nth_error in Hx as (j & Hj). destruct (Nat.eq_dec j i) as [->|Nj]; [congruence|].
    rewrite (Oth j Nj) in Hj. exact (nth_Forall _ _ _ _ U Hj).
  - intros j s Hs. rewrite B9, Len. destruct (Nat.eq_dec j i) as [->|Nj]; [|rewrite (Oth j Nj) in Hs; exact (R j s Hs)].
    rewrite Ht in Hs. injection Hs as <-. split; [exact (nth_Forall _ _ _ _ W' Ht)|]. split; [exact Vt|]. split; [lia|].
    destruct G as (Ps & Pf & Lf). pose proof (pow2_pos _ Ps) as Ps0. pose proof (pow2_pos _ Pf) as Pf0. pose proof (pow2_pos _ Pa) as Pa0.
    pose proof (ceil_mult_least (s_rawsize t) (falign p) Pf0) as (_ & C2 & _). pose proof (ceil_mult_least (s_rawsize t) a Pa0) as (_ & C3 & _ & C4).
    split; [lia|]. split; [|lia]. apply C4; [|lia]. apply (Z.divide_trans _ (salign p)); [apply pow2_divide; try assumption; lia|]. unfold span. replace (s_vsize t =? 0) with false by lia.
    apply (ceil_mult_least (s_vsize t) (salign p) Ps0).
  - rewrite B9. split; [exact Pa|exact Ha].
Qed.
Lemma saved_tables a p r : editable a p -> 0 < nrva p -> saved p a r -> tables_kept p r.
Proof.
  intros (L & U & R & Pa & Ha) N (p1 & strip & chg & save & q & out & E & T & NS & B & H). exact (realign_written p a p1 strip chg save q out r L Pa Ha U R N E T NS B H).
Qed.
Lemma fits_flags_of plus h : fits (nt_widths plus) (nt_fields plus h) -> is_u16 (h_chars h) /\ is_u16 (h_dllchars h).
Proof. unfold is_u16. destruct plus, h; cbn [nt_widths nt_fields fits PeModel.h_chars PeModel.h_dllchars]; intros H; repeat match goal with K : _ /\ _ |- _ => destruct K end; cbn in *; lia. Qed.

(** ** From an edit to the file *)
Lemma flags_of a p : editable a p -> is_u16 (h_chars (p_nt p)) /\ is_u16 (h_dllchars (p_nt p)).
Proof. intros (((_ & _ & _ & _ & _ & F & _) & _) & _). exact (fits_flags_of _ _ F). Qed.
Lemma ready_headers a p p' start i t : editable a p -> image_ok p start -> image_ok p' start -> same_headers p p' -> dirs_ok p' ->
  length (p_sections p') = length (p_sections p) -> (forall j, j <> i -> nth_error (p_sections p') j = nth_error (p_sections p) j) -> nth_error (p_sections p') i = Some t -> well_sized p t ->
  editable a p'.
Proof.
  intros Ed I1 I2 Sh D L O Ht Sz. destruct (flags_of a p Ed) as [F1 F2]. pose proof (f_equal p_nt Sh : set_h_dirs [] (p_nt p') = set_h_dirs [] (p_nt p)) as N.
  apply (edited_ready a p p' start i t); try assumption; [apply same_headers_relocs, Sh| |].
  - rewrite (f_equal h_chars N : h_chars (p_nt p') = h_chars (p_nt p)). exact F1.
  - rewrite (f_equal h_dllchars N : h_dllchars (p_nt p') = h_dllchars (p_nt p)). exact F2.
Qed.
Lemma headers_nrva p p' : same_headers p p' -> nrva p' = nrva p.
Proof. intros H. exact (f_equal (fun q => h_nrva (p_nt q)) H). Qed.
Lemma where_range p start i n s pos size : room p start i n -> nth_error (p_sections p) i = Some s -> 0 <= pos -> 0 <= size -> pos + size <= n -> is_u32 (s_va s + pos) /\ is_u32 size.
Proof.
  intros (IO & T & s' & H1 & H2 & H3 & H4 & H5 & R) Hs Hp Hz Hn. rewrite Hs in H1. injection H1 as <-. destruct IO as ((Ps & _) & W & _ & _ & Ch & Ce). pose proof (pow2_pos _ Ps) as P0.
  pose proof (chain_upper _ _ _ P0 W Ch) as Up. pose proof (nth_Forall _ _ _ _ Up Hs) as Us. cbn beta in Us. unfold send in Us. unfold is_u32.
  destruct (Nat.eqb (S i) (length (p_sections p))); [pose proof (ceil_mult_least n (salign p) P0); lia|lia].
Qed.
Theorem exports_saved p start i info l off strip s a : editable a p ->
  0 <= off -> l <> [] -> Forall valid_export l -> valid_info info -> distinct_exports l ->
  room p start i (ceil_mult off 4 + export_size (xi_name info) l) -> dir_export < nrva p <= 16 ->
  nth_error (p_sections p) i = Some s -> Forall (plain_export (s_va s + ceil_mult off 4) (export_size (xi_name info) l)) l -> ~ In 0 (xi_name info) ->
  export_names l <> [] \/ ~ (salign p | ceil_mult off 4 + export_size (xi_name info) l) ->
  exists p' where_, rebuild_exports p info l i off true strip = Ok (p', where_) /\ editable a p' /\
    forall r, saved p' a r -> exists x l' m, get_exports r true = Ok (Some x, l') /\ get_exports r false = Ok (None, l') /\ same_info l info x /\
      Permutation l m /\ StronglySorted by_ordinal m /\ Forall2 (same_export (lowest l)) m l'.
Proof.
  intros Ed A B C D E F H Hs J K M. assert (G : dirs_ok p) by (destruct Ed as (((_ & _ & _ & _ & _ & _ & G & _) & _) & _); exact G).
  destruct (rebuild_exports_ok p start i info l off true strip A B C D E F G H) as (p' & s' & out & X1 & X2 & Lo & X4 & X5 & X6 & X7 & _). rewrite Hs in X1. injection X1 as <-.
  pose proof (ceil_mult_least off 4 ltac:(lia)) as (_ & Q2 & _).
  pose proof (zlen_nonneg out) as Zo. rewrite Lo in Zo.
  destruct (where_range p start i _ s (ceil_mult off 4) (export_size (xi_name info) l) F Hs ltac:(lia) Zo ltac:(lia)) as [R1 R2].
  assert (D' : dirs_ok p') by (apply (directory_ok p p' dir_export (s_va s + ceil_mult off 4, export_size (xi_name info) l)); try assumption; unfold dir_export; lia).
  destruct X4 as (Len & Oth & s' & t & _ & Ht & _ & _ & _ & _ & Sz & _).
  assert (Ed' : editable a p') by (apply (ready_headers a p p' start i t); try assumption; apply F).
  exists p', (s_va s + ceil_mult off 4, export_size (xi_name info) l). split; [exact X2|]. split; [exact Ed'|].
  intros r Sv. destruct (saved_tables a p' r Ed' ltac:(rewrite (headers_nrva _ _ X5); unfold dir_export in H; lia) Sv) as (Kr & _).
  destruct (rebuild_exports_ok (hl p) start i info l off true strip A B C D E (room_hl _ _ _ _ F) G H) as (p2 & s2 & out2 & Y1 & Y2 & _ & _ & _ & _ & _ & Y3).
  change (p_sections (hl p)) with (p_sections p) in Y1. rewrite Hs in Y1. injection Y1 as <-. rewrite exports_hl, X2 in Y2. injection Y2 as <-.
  destruct (Y3 eq_refl J K M) as (x & l' & names & Z1 & Z2 & Z3 & (m & Z4 & Z5 & Z6) & _). exists x, l', m. split; [exact (Kr true _ Z1)|]. split; [exact (Kr false _ Z2)|]. tauto.
Qed.
Theorem resources_saved p start i t off strip s a : editable a p ->
  0 <= off -> valid_tree t -> storable_tree t -> full_root t -> ordered_tree t \/ even_tree t -> room p start i (resource_end off t) -> dir_resource < nrva p <= 16 ->
  nth_error (p_sections p) i = Some s ->
  exists p' where_ sorted, rebuild_resources p t i off true strip = Ok (p', where_, sorted) /\ editable a p' /\
    forall r, saved p' a r -> exists t', get_resources r = Ok t' /\ canonical t t'.
Proof.
  intros Ed A B C D E F H Hs. assert (G : dirs_ok p) by (destruct Ed as (((_ & _ & _ & _ & _ & _ & G & _) & _) & _); exact G).
  destruct (rebuild_resources_ok p start i t off true strip s A B D E F G H Hs) as (p' & out & X2 & Lo & X4 & X5 & X6 & X7 & _).
  pose proof (ceil_mult_least off 4 ltac:(lia)) as (_ & Q2 & _).
  pose proof (zlen_nonneg out) as Zo. rewrite Lo in Zo.
  destruct (where_range p start i _ s (ceil_mult off 4) (resource_end off t - ceil_mult off 4) F Hs ltac:(lia) Zo ltac:(lia)) as [R1 R2].
  assert (D' : dirs_ok p') by (apply (directory_ok p p' dir_resource (s_va s + ceil_mult off 4, resource_end off t - ceil_mult off 4)); try assumption; unfold dir_resource; lia).
  destruct X4 as (Len & Oth & s' & t1 & _ & Ht & _ & _ & _ & _ & Sz & _).
  assert (Ed' : editable a p') by (apply (ready_headers a p p' start i t1); try assumption; apply F).
  eexists p', _, _. split; [exact X2|]. split; [exact Ed'|].
  intros r Sv. destruct (saved_tables a p' r Ed' ltac:(rewrite (headers_nrva _ _ X5); unfold dir_resource in H; lia) Sv) as (_ & _ & _ & _ & _ & Kr & _).
  destruct (rebuild_resources_ok (hl p) start i t off true strip s A B D E (room_hl _ _ _ _ F) G H Hs) as (p2 & out2 & Y2 & _ & _ & _ & _ & _ & Y3).
  rewrite resources_hl, X2 in Y2. injection Y2 as <-.
  exists (counted (sort_tree t)). split; [exact (Kr _ (Y3 eq_refl C))|apply canonical_sorted; assumption].
Qed.
Lemma recalc_flags p i strip q : recalculate_section_sizes p i strip = Ok q -> h_chars (p_nt q) = h_chars (p_nt p) /\ h_dllchars (p_nt q) = h_dllchars (p_nt p).
Proof.
  intros E. unfold recalculate_section_sizes in E. bnd E s Es. bnd E s1 E1. destruct (_ <? _) in E; [|injection E as <-; split; reflexivity].
  unfold set_section_virtual_size in E. thr E A. bnd E s2 E2. match type of E with (if ?c then _ else _) = _ => destruct c end; [thr E B|]; injection E as <-; unfold update_image_size; destruct (rev _); split; reflexivity.
Qed.
Lemma set_dir_flags p id rva size q : set_directory p id rva size = Ok q -> h_chars (p_nt q) = h_chars (p_nt p) /\ h_dllchars (p_nt q) = h_dllchars (p_nt p).
Proof. intros E. unfold set_directory, set_directory_rva, set_directory_size in E. bnd E q1 E1. thr E1 A. bnd E1 d Ed. injection E1 as <-. thr E B. bnd E d2 Ed2. injection E as <-. split; reflexivity. Qed.
Lemma lor_u16 x y : 0 <= x < 2^16 -> 0 <= y < 2^16 -> 0 <= Z.lor x y < 2^16.
Proof.
  intros Hx Hy. split; [apply Z.lor_nonneg; lia|]. destruct (Z.eq_dec (Z.lor x y) 0) as [->|N]; [lia|]. pose proof (proj2 (Z.lor_nonneg x y) (conj (proj1 Hx) (proj1 Hy))).
  apply Z.log2_lt_pow2; [lia|]. rewrite Z.log2_lor by lia.
  assert (forall z, 0 <= z < 2^16 -> Z.log2 z < 16). { intros z Hz. destruct (Z.eq_dec z 0) as [->|]; [cbn; lia|]. apply Z.log2_lt_pow2; lia. }
  apply Z.max_lub_lt; auto.
Qed.
Lemma land_u16 x y : 0 <= x < 2^16 -> 0 <= y -> 0 <= Z.land x y < 2^16.
Proof.
  intros Hx Hy. split; [apply Z.land_nonneg; lia|]. replace (Z.land x y) with ((Z.land x y) mod 2^16); [apply Z.mod_pos_bound; lia|].
  rewrite <- Z.land_ones by lia. rewrite <- Z.land_assoc, (Z.land_comm y), Z.land_assoc. rewrite Z.land_ones by lia. rewrite Z.mod_small by lia. reflexivity.
Qed.
Lemma reloc_flags p l i off strip q w : rebuild_relocations p l i off true strip = Ok (q, w) -> is_u16 (h_chars (p_nt p)) -> is_u16 (h_dllchars (p_nt p)) -> is_u16 (h_chars (p_nt q)) /\ is_u16 (h_dllchars (p_nt q)).
Proof.
  intros E C D. unfold rebuild_relocations in E. cbv zeta in E. bnd E s Es. bnd E dd Ed. destruct dd as [d ?]. bnd E p2 E2. bnd E p3 E3. injection E as <- <-.
  destruct (recalc_flags _ _ _ _ E2) as [A1 A2]. destruct (set_dir_flags _ _ _ _ _ E3) as [B1 B2]. cbn [put_section set_p_sections p_nt] in A1, A2.
  unfold is_u16 in *. cbn [p_nt with_nt set_p_nt]. split.
  - change (0 <= Z.land (h_chars (p_nt p3)) (u16 (Z.lnot image_file_relocs_stripped)) < 2^16). apply land_u16; [rewrite B1, A1; exact C|vm_compute; discriminate].
  - change (0 <= Z.lor (h_dllchars (p_nt p3)) image_dllcharacteristics_dynamic_base < 2^16). apply lor_u16; [rewrite B2, A2; exact D|split; vm_compute; congruence].
Qed.
Theorem relocations_saved p start i tables off strip a : editable a p ->
  0 <= off -> tables <> [] -> Forall valid_table tables -> room p start i (2 * ceil_mult off 4 - off + blocks_size tables) -> dir_basereloc < nrva p <= 16 ->
  exists p' where_, rebuild_relocations p tables i off true strip = Ok (p', where_) /\ editable a p' /\
    forall r, saved p' a r -> get_relocations r true = Ok (map with_padding tables) /\ get_relocations r false = Ok (map without_absolute tables).
Proof.
  intros Ed A B C F H. assert (G : dirs_ok p) by (destruct Ed as (((_ & _ & _ & _ & _ & _ & G & _) & _) & _); exact G).
  destruct (rebuild_relocations_ok p start i tables off true strip A B C F G H) as (p' & s & Hs & X2 & X4 & X5 & X6 & X7 & _).
  pose proof (ceil_mult_least off 4 ltac:(lia)) as (_ & Q2 & _). pose proof (blocks_size_pos tables) as [Zo _].
  destruct (where_range p start i _ s (ceil_mult off 4) (blocks_size tables) F Hs ltac:(lia) Zo ltac:(lia)) as [R1 R2].
  assert (D' : dirs_ok p') by (apply (directory_ok p p' dir_basereloc (s_va s + ceil_mult off 4, blocks_size tables)); try assumption; unfold dir_basereloc; lia).
  destruct X4 as (Len & Oth & s' & t1 & _ & Ht & _ & _ & _ & _ & Sz & _). destruct (flags_of a p Ed) as [F1 F2]. destruct (reloc_flags _ _ _ _ _ _ _ X2 F1 F2) as [F3 F4].
  assert (Ed' : editable a p') by (apply (edited_ready a p p' start i t1); try assumption; apply F).
  exists p', (s_va s + ceil_mult off 4, blocks_size tables). split; [exact X2|]. split; [exact Ed'|].
  intros r Sv. assert (N' : 0 < nrva p'). { pose proof (f_equal (fun q => h_nrva (p_nt q)) X5 : nrva p' = nrva p) as ->. unfold dir_basereloc in H; lia. }
  destruct (saved_tables a p' r Ed' N' Sv) as (_ & _ & Kr & _).
  destruct (rebuild_relocations_ok (hl p) start i tables off true strip A B C (room_hl _ _ _ _ F) G H) as (p2 & s2 & Y1 & Y2 & _ & _ & _ & _ & Y3).
  change (p_sections (hl p)) with (p_sections p) in Y1. rewrite Hs in Y1. injection Y1 as <-. rewrite relocations_hl, X2 in Y2. injection Y2 as <-.
  destruct (Y3 eq_refl F1) as [Z1 Z2]. split; [exact (Kr true _ Z1)|exact (Kr false _ Z2)].
Qed.
Lemma editable_views a p : editable a p -> addressable p /\ viewable p.
Proof.
  intros ((_ & _ & _ & _ & _ & _ & (Ps & _ & L) & _ & (start & _ & _ & Ch & Ce)) & U & R & _).
  split; [|apply unmapped_viewable, U]. apply Forall_forall. intros s Hs. apply In_nth_error in Hs as (j & Hj). destruct (R j s Hj) as (W & V & _ & Z & _).
  assert (Ws : Forall wf_section (p_sections p)) by (apply Forall_forall; intros x Hx; apply In_nth_error in Hx as (k & Hk); apply (R k x Hk)).
  pose proof (chain_upper _ _ _ (pow2_pos _ Ps) Ws Ch) as Up. pose proof (nth_Forall _ _ _ _ Up Hj) as Us. cbn beta in Us. unfold send in Us.
  pose proof (nth_Forall _ _ _ _ U Hj) as O. cbn beta in O. destruct (wf_ranges _ W) as (W1 & W2 & W3 & _). unfold is_u32 in *.
  assert (Av : aligned_vsize (salign p) s = span (salign p) s) by (apply aligned_vsize_span; try assumption; unfold is_u32; lia).
  rewrite raw_view_unmapped in Z by exact O. rewrite virt_view_unmapped by exact O. rewrite Av, zlen_app, zlen_zeros_max. lia.
Qed.
Theorem imports_saved p libs i o start s a : let off := o_offset o in let base := s_va s + (off + total library_text_size libs) in editable a p ->
  0 <= off -> Forall (fun l => stays o l && o_rewrite o = false) libs -> Forall valid_library libs -> room p start i (off + import_size p libs o) ->
  dir_import < nrva p <= 16 -> (o_zero_iat o = true -> dir_iat < nrva p) -> o_headers o = true ->
  nth_error (p_sections p) i = Some s -> base < 2^31 -> Forall (recoverable (sections_only p) i o) libs ->
  exists p' where_, rebuild_imports p libs i o = Ok (p', where_) /\ editable a p' /\
    forall r, saved p' a r -> exists ms, get_imports r = Ok ms /\ Forall2 (same_library p o) libs ms.
Proof.
  intros off base Ed A Nr V F H H2 Hh Hs Hb Rc. assert (G : dirs_ok p) by (destruct Ed as (((_ & _ & _ & _ & _ & _ & G & _) & _) & _); exact G).
  destruct (rebuild_imports_ok p libs i o start A Nr V F G H H2) as (p' & s' & Hs' & X2 & X4 & X5 & X6 & X7 & _). rewrite Hs in Hs'. injection Hs' as <-. fold off base in X2, X7.
  pose proof (ImportFacts.total_nonneg library_text_size libs ltext_nonneg) as T0. pose proof (zlen_nonneg libs) as L0.
  pose proof (ImportFacts.total_nonneg (library_table_size p) libs (ImportFacts.table_size_nonneg p)) as TS0.
  assert (Z0 : 0 <= import_size p libs o - total library_text_size libs) by (unfold import_size; destruct (o_build o || o_fill o); lia).
  fold off in F. destruct (where_range p start i _ s (off + total library_text_size libs) (import_size p libs o - total library_text_size libs) F Hs ltac:(lia) Z0 ltac:(lia)) as [R1 R2].
  assert (D' : dirs_ok p').
  { unfold import_directories in X7. rewrite Hh in X7. destruct X7 as (X7 & X8 & X9).
    apply (directories_ok p p' (fun j => j = dir_import \/ o_zero_iat o = true /\ j = dir_iat) G).
    - intros j. destruct (o_zero_iat o); lia.
    - intros j [->|[Hz ->]]; [eexists; split; [exact X7|]; cbn [fst snd]; unfold dir_import; split; [exact R1|split; [exact R2|lia]]|].
      eexists; split; [exact (X8 Hz)|]. cbn [fst snd]. unfold is_u32, dir_iat. lia.
    - intros j e Nj. apply X9; tauto. }
  destruct X4 as (Len & Oth & s' & t & _ & Ht & _ & _ & _ & _ & Sz & _).
  assert (Ed' : editable a p') by (apply (ready_headers a p p' start i t); try assumption; apply F).
  eexists p', _. split; [exact X2|]. split; [exact Ed'|].
  intros r Sv. destruct (saved_tables a p' r Ed' ltac:(rewrite (headers_nrva _ _ X5); unfold dir_import in H; lia) Sv) as (_ & Kr & _).
  destruct (editable_views a p Ed) as [Ad Vw].
  assert (Rd : readable (hl p)). { pose proof Ed as (((_ & _ & _ & _ & _ & _ & _ & Wn & Ws & _) & _) & _). split; [exact G|]. split; [exact Wn|]. split; [exact Ws|]. split; [apply Forall_nil|reflexivity]. }
  destruct (imports_round (hl p) libs i o start s A Nr V (room_hl _ _ _ _ F) H H2 Hh Rd Ad Vw Hs Hb Rc) as (p2 & w2 & ms & Y2 & Y3 & Y4).
  rewrite imports_hl, X2 in Y2 by exact Nr. injection Y2 as <-. exists ms. split; [exact (Kr _ Y3)|exact Y4].
Qed.

(** ** Which images can be edited *)
Theorem consistent_editable p a : consistent p -> unmapped p -> power_of_two a -> 512 <= a <= salign p -> editable a p.
Proof.
  intros (W & L1 & L2 & L3 & L4 & L5 & Al & L6 & Ch & Ld) U Pa Ha. pose proof Al as (Ps & Pf & A1 & A2 & _).
  assert (Ls : salign p < 2^32). { destruct W as (_ & _ & _ & _ & _ & F & _). clear -F. unfold salign. destruct (p_plus p), (p_nt p); cbn [nt_widths nt_fields fits PeModel.h_salign] in *; repeat match goal with K : _ /\ _ |- _ => destruct K end; cbn in *; lia. }
  assert (G : good_align p) by (split; [exact Ps|split; [exact Pf|unfold falign, salign in *; lia]]).
  split; [|split; [exact U|split; [|split; [exact Pa|exact Ha]]]].
  - repeat (split; [assumption|]). exact Ch.
  - intros i s Hs. pose proof (nth_Forall _ _ _ _ Ld Hs) as (V & R & C). split; [|split; [exact V|]].
    + destruct W as (_ & _ & _ & _ & _ & _ & _ & _ & Ws & _). exact (nth_Forall _ _ _ _ Ws Hs).
    + pose proof (pow2_pos _ Ps) as P0. pose proof (pow2_pos _ Pf) as F0. pose proof (pow2_pos _ Pa) as A0. pose proof (ceil_le_2_31 _ _ Ps Ls (proj2 V)) as C31.
      pose proof (ceil_mult_least (s_rawsize s) (falign p) F0) as (_ & C2 & _). pose proof (ceil_mult_least (s_rawsize s) a A0) as (_ & C3 & _ & C4).
      unfold span. replace (s_vsize s =? 0) with false by lia. change (h_salign (p_nt p)) with (salign p) in *. split; [lia|]. split; [lia|]. split; [|lia].
      apply C4; [|lia]. apply (Z.divide_trans _ (salign p)); [apply pow2_divide; try assumption; lia|]. apply (ceil_mult_least (s_vsize s) (salign p) P0).
Qed.
Lemma empty_raw s : wf_section s -> sec_empty s = true <-> raw_view s = [].
Proof.
  intros W. assert (N : forall l : list Z, zlen l = 0 <-> l = []) by (intros [|x l]; unfold zlen; cbn [length]; split; intros; (reflexivity || discriminate || lia)).
  unfold sec_empty, raw_view, unmap_virtual. destruct (s_old s) as [n|] eqn:E.
  - unfold wf_section in W. rewrite E in W. cbn [set_s_data set_s_old s_data]. rewrite Z.eqb_eq, <- N. unfold resize. replace (n <=? zlen (s_data s)) with true by lia. rewrite zlen_ztake by lia. reflexivity.
  - rewrite Z.eqb_eq. apply N.
Qed.
Lemma find_first before s after : Forall wf_section before -> wf_section s -> Forall (fun t => raw_view t = []) before -> raw_view s <> [] ->
  find (fun t => negb (sec_empty t)) (before ++ s :: after) = Some s.
Proof.
  intros Wb W1 Eb Ne. induction before as [|t before IH]; cbn [app find].
  - destruct (sec_empty s) eqn:X; [apply (empty_raw s W1) in X; congruence|reflexivity].
  - inversion_clear Eb as [|? ? B1 B2]. inversion_clear Wb as [|? ? V1 V2]. apply (empty_raw t V1) in B1. rewrite B1. cbn [negb]. auto.
Qed.
Theorem header_bytes plus from_mem read_debug f f' p : wf_stream f -> load plus from_mem read_debug f = (f', Ok p) ->
  p_full p = ztake (zlen (p_full p)) (i_data f) /\
  (forall before s after, p_sections p = before ++ s :: after -> Forall (fun t => raw_view t = []) before -> raw_view s <> [] -> zlen (p_full p) = Z.min (hdrsize p) (s_rawptr s)) /\
  (Forall (fun t => raw_view t = []) (p_sections p) -> zlen (p_full p) = Z.min (hdrsize p) (zlen (i_data f) mod 2^32)).
Proof.
  intros W E. pose proof (load_full _ _ _ _ _ _ W E) as L. unfold full_headers_size in L. destruct (load_ok _ _ _ _ _ _ W E) as (_ & Wf & Ff & _).
  assert (Ws : Forall wf_section (p_sections p)) by (unfold image_wf in Wf; tauto). split; [unfold image_from_file in Ff; exact (proj2 (proj2 (proj2 (proj2 (proj2 (proj2 (proj2 (proj2 Ff))))))))|].
  split.
  - intros before s after Es Eb Ne. rewrite Es in Ws, L. apply Forall_app in Ws as [Wb Ws]. inversion_clear Ws as [|? ? W1 W2].
    rewrite (find_first before s after Wb W1 Eb Ne) in L. exact L.
  - intros Em. replace (find (fun t => negb (sec_empty t)) (p_sections p)) with (@None section) in L; [exact L|]. clear -Em Ws.
    induction (p_sections p) as [|t l IH]; [reflexivity|]. inversion_clear Em as [|? ? B1 B2]. inversion_clear Ws as [|? ? V1 V2]. cbn [find]. apply (empty_raw t V1) in B1. rewrite B1. cbn [negb]. auto.
Qed.
