(** Proof of C79 and C80 for the tables that are read from the data of the file: load configuration and bound imports. *)
From Verif Require Export KeepEdit SpecRaw BoundFacts ConfigFacts.

(** The data of [t] are those of [s], with zeros behind them. *)
Definition longer (s t : section) : Prop := exists z, raw_view t = raw_view s ++ zeros z.
Lemma rd_app l m o n v : rd l o n = Ok v -> rd (l ++ m) o n = Ok v.
Proof.
  intros E. destruct (rd_ok_range _ _ _ _ E) as (A & B & C). unfold rd in *. rewrite zlen_app. pose proof (zlen_nonneg m).
  replace ((0 <=? o) && (0 <=? n) && (o + n <=? zlen l)) with true in E by lia. replace ((0 <=? o) && (0 <=? n) && (o + n <=? zlen l + zlen m)) with true by lia.
  rewrite slice_app_l by lia. exact E.
Qed.
Lemma c_scan_app l m : forall n n' name, c_scan l n = Ok (Some name) -> n <= n' -> c_scan (l ++ m) n' = Ok (Some name).
Proof.
  induction l as [|x l IH]; intros n n' name E H; cbn [c_scan app] in *.
  - destruct (n <=? 0); discriminate E.
  - destruct (n <=? 0) eqn:N; [discriminate E|]. replace (n' <=? 0) with false by lia. destruct (x =? 0); [exact E|].
    destruct (c_scan l (n - 1)) as [[nm|]| | |] eqn:F; cbn [bind option_map] in E; try discriminate E. rewrite (IH _ (n' - 1) _ F) by lia. exact E.
Qed.
Lemma c_scan_nil n name : c_scan [] n = Ok (Some name) -> False.
Proof. cbn [c_scan]. destruct (n <=? 0); discriminate. Qed.
Lemma c_string_app d m o n n' name : c_string d o n = Ok (Some name) -> n <= n' -> c_string (d ++ m) o n' = Ok (Some name).
Proof.
  unfold c_string. destruct (o <? 0) eqn:O; [discriminate|]. intros E H. destruct (Z_le_dec o (zlen d)) as [L|L].
  - rewrite zdrop_app_l by lia. apply (c_scan_app _ _ _ _ _ E H).
  - rewrite zdrop_all in E by lia. exfalso. exact (c_scan_nil _ _ E).
Qed.
Lemma bound_name_app d m o len len' k : len <= len' -> sub (bound_name d o len k) (bound_name (d ++ m) o len' k).
Proof.
  intros H v. unfold bound_name. destruct (len <=? k) eqn:E; cbn [throw_if bind]; [discriminate|]. replace (len' <=? k) with false by lia. cbn [throw_if bind].
  destruct (c_string d (o + k) (len - k)) as [[nm|]| | |] eqn:C; cbn [bind]; try discriminate. intros X. rewrite (c_string_app _ m _ _ (len' - k) _ C) by lia. exact X.
Qed.
Lemma bound_refs_app d m o len len' : len <= len' -> forall n pos, sub (bound_refs d o len n pos) (bound_refs (d ++ m) o len' n pos).
Proof.
  intros H. induction n as [|n IH]; intros pos; cbn [bound_refs]; [apply sub_refl|]. intros v. destruct (len <? pos + 8) eqn:E; cbn [throw_if bind]; [discriminate|]. replace (len' <? pos + 8) with false by lia. cbn [throw_if bind].
  revert v. change (sub (t <- rd d (o + pos) 8 ;; name <- bound_name d o len (unle (slice t 4 2)) ;; ' (pos', refs) <- bound_refs d o len n (u32 (pos + 8)) ;; Ok (pos', (name, unle (slice t 0 4)) :: refs))
    (t <- rd (d ++ m) (o + pos) 8 ;; name <- bound_name (d ++ m) o len' (unle (slice t 4 2)) ;; ' (pos', refs) <- bound_refs (d ++ m) o len' n (u32 (pos + 8)) ;; Ok (pos', (name, unle (slice t 0 4)) :: refs))).
  apply sub_bind; [intros v; apply rd_app|]. intros t. apply sub_bind; [apply bound_name_app, H|]. intros name. apply sub_bind; [apply IH|]. intros [pos' refs]. apply sub_refl.
Qed.
Lemma bound_loop_app d m o len len' : len <= len' -> sub (bound_loop d o len) (bound_loop (d ++ m) o len').
Proof.
  intros H. unfold bound_loop. apply sub_mloop. intros [pos acc]. apply sub_bind; [intros v; apply rd_app|]. intros t. destruct (_ =? 0); [apply sub_refl|].
  apply sub_bind; [apply bound_name_app, H|]. intros name. apply sub_bind; [apply sub_refl|]. intros _. apply sub_bind; [apply bound_refs_app, H|]. intros [pos' refs].
  intros v. destruct (len <? pos' + 8) eqn:E; cbn [throw_if bind]; [discriminate|]. replace (len' <? pos' + 8) with false by lia. cbn [throw_if bind]. intros X. exact X.
Qed.

Section Longer.
Context (p r : pe) (A : alike false p r) (F : p_full r = p_full p) (L : Forall2 longer (p_sections p) (p_sections r)).
Lemma longer_at i s t : get_section p i = Ok s -> get_section r i = Ok t -> longer s t.
Proof.
  unfold get_section. intros H1 H2. destruct (nth_error (p_sections p) i) as [x|] eqn:E1; [|discriminate H1]. injection H1 as ->. destruct (nth_error (p_sections r) i) as [y|] eqn:E2; [|discriminate H2]. injection H2 as ->.
  clear A F. revert i E1 E2. induction L as [|a b l m H L' IH]; intros [|i] E1 E2; try discriminate; [cbn in E1, E2; congruence|]. exact (IH L' i E1 E2).
Qed.
Lemma sub_raw a n h : sub (read_rva p a n RawData h) (read_rva r a n RawData h).
Proof.
  intros v E. unfold read_rva in *. rewrite F, (al_from false p r A). destruct (h && is_sum_safe a n && (a + n <? zlen (p_full p))); [exact E|].
  destruct (section_from_rva p a) as [i| | |] eqn:G; try discriminate E. destruct (al_at false p r A a i G) as (s & t & G1 & G2 & H & _). cbn [bind] in *. rewrite G1 in E. rewrite G2. cbn [bind view] in *.
  destruct (longer_at i s t G1 G2) as [z Z]. destruct H as (-> & _). rewrite Z. destruct (zlen (raw_view s) <? u32 (a - s_va s) + n) eqn:C; cbn [throw_if bind] in E; [discriminate E|].
  replace (zlen (raw_view s ++ zeros z) <? u32 (a - s_va s) + n) with false by (rewrite zlen_app; pose proof (zlen_nonneg (zeros z)); lia). cbn [throw_if bind]. apply rd_app, E.
Qed.
Lemma sub_va va n h : sub (read_va p va n RawData h) (read_va r va n RawData h).
Proof. unfold read_va. rewrite (va_eq false p r A). apply sub_bind; [apply sub_refl|]. intros rva. apply sub_raw. Qed.
Lemma longer_config : same_dir p r dir_load_config -> sub (get_config p) (get_config r).
Proof.
  intros S. unfold get_config, config_size. pose proof (base_size_eq false p r A) as Bs. pose proof (base_mod_eq false p r A) as Bm. assert (W : config_widths r = config_widths p) by (unfold config_widths; rewrite Bs, (al_plus false p r A); reflexivity).
  rewrite (exists_eq p r _ S), (rva_eq p r _ S), W, Bm, Bs, (al_plus false p r A). do 2 (apply sub_bind; [apply sub_refl|]; intros ?). apply sub_bind; [apply sub_refl|]. intros rva. apply sub_bind; [apply (sub_read false p r A); reflexivity|]. intros e.
  destruct (dec_fields (config_widths p) e) as [|a1 [|a2 [|a3 [|a4 [|a5 [|a6 [|a7 [|a8 [|a9 [|a10 [|a11 [|a12 [|a13 [|a14 [|a15 [|a16 [|a17 [|a18 [|a19 [|a20 [|]]]]]]]]]]]]]]]]]]]]]; try apply sub_throw.
  do 2 (apply sub_bind; [apply sub_refl|]; intros ?). apply sub_bind.
  - unfold config_handlers. rewrite Bm. apply sub_mloop. intros [i acc]. destruct (i =? a20); [apply sub_refl|]. apply sub_bind; [apply sub_va|intros; apply sub_refl].
  - intros hs. apply sub_bind; [destruct (a10 =? 0); [apply sub_refl|]|intros; apply sub_refl].
    unfold va_list. rewrite Bm, Bs. apply sub_mloop. intros [k acc]. apply sub_bind; [apply sub_va|]. intros bs. destruct (unle bs =? 0); [apply sub_refl|]. rewrite (va_eq false p r A). apply sub_refl.
Qed.
Lemma longer_bound : Forall (fun t => zlen (raw_view t) < 2^32) (p_sections r) -> same_dir p r dir_bound_import -> sub (get_bound_imports p) (get_bound_imports r).
Proof.
  intros Sz S. unfold get_bound_imports. rewrite (exists_eq p r _ S), (rva_eq p r _ S), (size_eq p r _ S). apply sub_bind; [apply sub_refl|]. intros [|]; [|apply sub_refl].
  apply sub_bind; [apply sub_refl|]. intros rva v. unfold length_rva, ptr_rva. rewrite F, (al_from false p r A). cbn [andb].
  destruct (rva <? zlen (p_full p)) eqn:Hd; cbn [andb]; [intros E; exact E|].
  destruct (section_from_rva p rva) as [i| | |] eqn:G; try (intros E0; discriminate E0). destruct (al_at false p r A rva i G) as (s & t & G1 & G2 & H & _). cbn [bind]. rewrite G1, G2. cbn [bind view data_length].
  destruct (longer_at i s t G1 G2) as [z Z]. destruct H as (-> & _). destruct (rva <? s_va s) eqn:Lo; cbn [throw_if bind]; [intros E0; discriminate E0|]. rewrite Z, zlen_app. pose proof (zlen_nonneg (zeros z)) as Hz. pose proof (zlen_nonneg (raw_view s)) as Hs.
  assert (Bt : zlen (raw_view s) + zlen (zeros z) < 2^32).
  { unfold get_section in G2. destruct (nth_error (p_sections r) i) as [y|] eqn:E2; [|discriminate G2]. injection G2 as ->. pose proof (nth_Forall _ _ _ _ Sz E2) as B. cbn beta in B. rewrite Z, zlen_app in B. exact B. }
  set (len := if _ <? 0 then 0 else u32 (zlen (raw_view s) + s_va s - rva)). set (len' := if _ <? 0 then 0 else u32 (zlen (raw_view s) + zlen (zeros z) + s_va s - rva)).
  assert (Le : len <= len').
  { unfold len, len'. destruct (zlen (raw_view s) + s_va s - rva <? 0) eqn:C1; destruct (zlen (raw_view s) + zlen (zeros z) + s_va s - rva <? 0) eqn:C2; try lia; [apply u32_pos|]. rewrite !u32_small by lia. lia. }
  destruct (get_directory_size p dir_bound_import) as [size| | |]; cbn [bind]; try (intros E0; discriminate E0).
  destruct (len <? size) eqn:C1; cbn [throw_if bind]; [intros E0; discriminate E0|]. replace (len' <? size) with false by lia. cbn [throw_if bind].
  destruct (len <? 8) eqn:C2; cbn [throw_if bind]; [intros E0; discriminate E0|]. replace (len' <? 8) with false by lia. cbn [throw_if bind]. apply bound_loop_app, Le.
Qed.
End Longer.

(** ** Realigning *)
Lemma zeros_nil_or n : zeros n = [] \/ exists m, zeros n = m ++ [0].
Proof.
  unfold zeros. generalize (Z.to_nat n). intros [|k]; [left; reflexivity|right]. exists (repeat 0 k). apply repeat_cons.
Qed.
Lemma last_split {B} (l : list B) i x : nth_error l i = Some x -> S i = length l -> exists before, l = before ++ [x].
Proof.
  revert i. induction l as [|y l IH]; intros i H E; [destruct i; discriminate H|]. destruct i as [|i]; cbn in *.
  - destruct l; [|discriminate E]. injection H as ->. exists []. reflexivity.
  - injection E as E. destruct (IH i H E) as [b ->]. exists (y :: b). reflexivity.
Qed.
Section RealignRaw.
Context (p : pe) (a : Z) (p' : pe) (G : good_align p) (Pa : power_of_two a) (Ha : 512 <= a <= salign p) (U : unmapped p) (R : realignable a p) (T : tight_end p) (E : realign_file p a = Ok p').
Lemma realign_longer : Forall2 (fun s t => longer s t /\ zlen (raw_view t) < 2^32) (p_sections p) (p_sections p').
Proof.
  destruct G as (Ps & Pf & Lf). destruct (realign_file_spec p a G Pa Ha) as (q & Eq & H1 & H2 & H3).
  { intros i s Hs. destruct (R i s Hs) as (R1 & R2 & R3 & R4 & R5 & R6). split; [exact R1|]. split; [|split; [exact R3|exact R6]].
    unfold span in R4. replace (s_vsize s =? 0) with false in R4 by lia. pose proof (ceil_le_2_31 _ _ Ps (proj2 Lf) (proj2 R2)). lia. }
  rewrite E in Eq. injection Eq as <-. apply Forall2_nth; [symmetry; exact H2|]. intros i s Hs. destruct (H3 i s Hs) as (t & Ht & Hr & Wt). exists t. split; [exact Ht|].
  destruct (R i s Hs) as (R1 & R2 & R3 & R4 & R5 & R6). unfold span in R4, R5. replace (s_vsize s =? 0) with false in R4, R5 by lia. pose proof (ceil_le_2_31 _ _ Ps (proj2 Lf) (proj2 R2)) as C.
  unfold realigned in Hr. do 9 (destruct Hr as [_ Hr]). destruct Hr as [_ Hr]. 
  match type of Hr with if ?c then _ else _ => destruct c eqn:La end.
  - destruct Hr as [[n Hn] _]. assert (Li : S i = length (p_sections p)) by lia. destruct (last_split _ _ _ Hs Li) as [before Hb].
    destruct (zeros_nil_or n) as [Zn|[m Zn]].
    + rewrite Zn, app_nil_r in Hn. split; [exists 0; rewrite Hn; change (zeros 0) with (@nil Z); rewrite app_nil_r; reflexivity|rewrite <- Hn; lia].
    + exfalso. rewrite Zn, app_assoc in Hn. exact (T _ _ _ _ Hb Hn eq_refl).
  - destruct Hr as [[n Hn] Hz]. split; [exists n; exact Hn|lia].
Qed.
Lemma realign_lists : Forall2 longer (p_sections p) (p_sections p') /\ Forall (fun t => zlen (raw_view t) < 2^32) (p_sections p').
Proof. pose proof realign_longer as H. split; induction H as [|? ? ? ? [H1 H2]]; constructor; assumption. Qed.
Context (W : image_wf p).
Lemma realign_config : sub (get_config p) (get_config p') /\ sub (get_config (sections_only p)) (get_config (sections_only p')).
Proof.
  destruct (realign_alike p a p' G Pa Ha U R W E) as [A _]. destruct (realign_nt p a p' G Pa Ha U R E) as (_ & _ & F & _). destruct realign_lists as [L _]. pose proof (proj1 (realign_dirs p a p' G Pa Ha U R E dir_load_config)) as S.
  split; [exact (longer_config p p' A F L S)|exact (longer_config (sections_only p) (sections_only p') (alike_only _ _ _ A) eq_refl L S)].
Qed.
Lemma realign_bound : sub (get_bound_imports p) (get_bound_imports p') /\ sub (get_bound_imports (sections_only p)) (get_bound_imports (sections_only p')).
Proof.
  destruct (realign_alike p a p' G Pa Ha U R W E) as [A _]. destruct (realign_nt p a p' G Pa Ha U R E) as (_ & _ & F & _). destruct realign_lists as [L Z]. pose proof (proj1 (realign_dirs p a p' G Pa Ha U R E dir_bound_import)) as S.
  split; [exact (longer_bound p p' A F L Z S)|exact (longer_bound (sections_only p) (sections_only p') (alike_only _ _ _ A) eq_refl L Z S)].
Qed.
End RealignRaw.
Theorem realign_raw p a p' : editable a p -> tight_end p -> realign_file p a = Ok p' ->
  (forall c, get_config p = Ok c -> get_config p' = Ok c) /\ (forall l, get_bound_imports p = Ok l -> get_bound_imports p' = Ok l).
Proof.
  intros (L & U & R & Pa & Ha) T E. pose proof L as (W & _ & _ & _ & _ & _ & G & _). split; [exact (proj1 (realign_config p a p' G Pa Ha U R T E W))|exact (proj1 (realign_bound p a p' G Pa Ha U R T E W))].
Qed.
Theorem config_kept a p r : editable a p -> 0 < nrva p -> tight_end p -> saved p a r -> still_reads get_config p r.
Proof.
  intros (L & U & R & Pa & Ha) N T (p1 & strip & chg & save & q & out & E & Tt & NS & B & H) x X. pose proof L as (W & _ & _ & _ & _ & _ & G & _). destruct (realign_consistent p a p1 L Pa Ha U R E) as [C U'].
  destruct (realign_nt p a p1 G Pa Ha U R E) as (Nt & _). assert (N' : 0 < nrva p1) by (unfold nrva; rewrite Nt; exact N).
  destruct (written_kept p1 strip chg save q out C U' N' Tt NS B r H) as (_ & _ & _ & _ & K & _). apply K. exact (proj2 (realign_config p a p1 G Pa Ha U R T E W) x X).
Qed.
Theorem bound_kept a p r : editable a p -> 0 < nrva p -> tight_end p -> saved_in_place p a r -> still_reads get_bound_imports p r.
Proof.
  intros (L & U & R & Pa & Ha) N T (p1 & strip & chg & q & out & E & Tt & NS & B & H) x X. pose proof L as (W & _ & _ & _ & _ & _ & G & _). destruct (realign_consistent p a p1 L Pa Ha U R E) as [C U'].
  destruct (realign_nt p a p1 G Pa Ha U R E) as (Nt & _). assert (N' : 0 < nrva p1) by (unfold nrva; rewrite Nt; exact N).
  assert (Bs : bound_saved false p1 = false) by (unfold bound_saved; repeat (match goal with |- context [match ?x with _ => _ end] => destruct x end); reflexivity).
  apply (written_bound p1 strip chg false q out C U' N' Tt NS B r Bs H). exact (proj2 (realign_bound p a p1 G Pa Ha U R T E W) x X).
Qed.

(** ** Rebuilding *)
Lemma config_hl p c i off h l save strip : rebuild_config (hl p) c i off h l save strip = rmap hl1 (rebuild_config p c i off h l save strip).
Proof.
  unfold rebuild_config. cbv zeta. repeat (rewrite rmap_bind; apply bind_ext; intros ? _). apply finish_hl.
Qed.
Lemma bound_hl p l i off save strip : rebuild_bound_imports (hl p) l i off save strip = rmap hl1 (rebuild_bound_imports p l i off save strip).
Proof.
  unfold rebuild_bound_imports. cbv zeta. rewrite rmap_bind; apply bind_ext; intros ? _. rewrite rmap_bind; apply bind_ext; intros [[d ?] ?] _. apply finish_hl.
Qed.
Theorem config_saved p start i c off handlers locks strip s a : let pos := ceil_mult off (Z.of_nat (word_size p)) in let size := config_bytes p c handlers locks in editable a p ->
  0 <= off -> valid_config p c -> zlen (c_handlers c) < 2^32 -> room p start i (pos + size) -> dir_load_config < nrva p <= 16 -> base_ok p ->
  nth_error (p_sections p) i = Some s -> imagebase p + s_va s + (pos + size) < base_mod p - 1 -> strip = false \/ S i = length (p_sections p) -> kept_lists (sections_only p) i c handlers locks ->
  exists p' where_, rebuild_config p c i off handlers locks true strip = Ok (p', where_) /\ editable a p' /\
    forall r, tight_end p' -> saved p' a r -> exists c', get_config r = Ok c' /\ same_fields c c' /\ c_count c' = zlen (c_handlers c) /\
       same_list handlers sorted_list (c_table c) (c_table c') (c_handlers c) (c_handlers c') /\
       same_list locks eq (c_lock_table c) (c_lock_table c') (c_locks c) (c_locks c').
Proof.
  intros pos size Ed A V Hz F H B Hs Hb St K. assert (G : dirs_ok p) by (destruct Ed as (((_ & _ & _ & _ & _ & _ & G & _) & _) & _); exact G).
  destruct (rebuild_config_ok p start i c off handlers locks true strip s A V Hz F G H B Hs Hb) as (p' & out & X2 & _ & X4 & X5 & X6 & X7 & _). fold pos size in X2, X4, X7.
  assert (Ps : 0 <= pos) by (unfold pos; pose proof (ceil_mult_least off (Z.of_nat (word_size p)) ltac:(unfold word_size; destruct (p_plus p); lia)); lia).
  assert (Sz : 0 <= config_size p <= size).
  { unfold size, config_bytes. rewrite config_size_eq. pose proof (zlen_nonneg (c_handlers c)). pose proof (zlen_nonneg (c_locks c)). destruct (p_plus p), handlers, locks; lia. }
  destruct (where_range p start i _ s pos (config_size p) F Hs Ps ltac:(lia) ltac:(lia)) as [R1 R2].
  assert (D' : dirs_ok p') by (apply (directory_ok p p' dir_load_config (s_va s + pos, config_size p)); try assumption; unfold dir_load_config; lia).
  destruct X4 as (Len & Oth & s' & t1 & _ & Ht & _ & _ & _ & _ & Sz1 & _).
  assert (Ed' : editable a p') by (apply (ready_headers a p p' start i t1); try assumption; apply F).
  exists p', (s_va s + pos, config_size p). split; [exact X2|]. split; [exact Ed'|].
  intros r T Sv. assert (N' : 0 < nrva p') by (rewrite (headers_nrva _ _ X5); unfold dir_load_config in H; lia).
  destruct (rebuild_config_ok (hl p) start i c off handlers locks true strip s A V Hz (room_hl _ _ _ _ F) G H B Hs Hb) as (p2 & out2 & Y2 & _ & _ & _ & _ & _ & Y3).
  rewrite config_hl, X2 in Y2. injection Y2 as <-. destruct (Y3 eq_refl St K) as (c' & Z1 & Z2). exists c'. split; [exact (config_kept a p' r Ed' N' T Sv c' Z1)|exact Z2].
Qed.
Theorem bound_saved_back p start i imports off strip a : let pos := ceil_mult off 4 in editable a p ->
  0 <= off -> Forall valid_bound imports -> room p start i (pos + bound_size imports) -> dir_bound_import < nrva p <= 16 -> strip = false \/ S i = length (p_sections p) -> bound_size imports <= 2^16 ->
  forall s, nth_error (p_sections p) i = Some s -> byte_of s (pos + bound_structs imports + 4) = 0 -> byte_of s (pos + bound_structs imports + 5) = 0 ->
  exists p' where_, rebuild_bound_imports p imports i off true strip = Ok (p', where_) /\ editable a p' /\
    forall r, tight_end p' -> saved_in_place p' a r -> get_bound_imports r = Ok imports.
Proof.
  intros pos Ed A V F H St Hz s Hs B1 B2. assert (G : dirs_ok p) by (destruct Ed as (((_ & _ & _ & _ & _ & _ & G & _) & _) & _); exact G).
  destruct (rebuild_bound_ok p start i imports off true strip A V F G H) as (p' & s0 & out & Hs0 & X2 & Lo & X4 & X5 & X6 & X7 & _). rewrite Hs in Hs0. injection Hs0 as <-. fold pos in X2, X4, X7.
  assert (Ps : 0 <= pos) by (unfold pos; pose proof (ceil_mult_least off 4 ltac:(lia)); lia). pose proof (zlen_nonneg out) as Zo.
  destruct (where_range p start i _ s pos (bound_size imports) F Hs Ps ltac:(lia) ltac:(lia)) as [R1 R2].
  assert (D' : dirs_ok p') by (apply (directory_ok p p' dir_bound_import (s_va s + pos, bound_size imports)); try assumption; unfold dir_bound_import; lia).
  destruct X4 as (Len & Oth & s' & t1 & _ & Ht & _ & _ & _ & _ & Sz1 & _).
  assert (Ed' : editable a p') by (apply (ready_headers a p p' start i t1); try assumption; apply F).
  exists p', (s_va s + pos, bound_size imports). split; [exact X2|]. split; [exact Ed'|].
  intros r T Sv. assert (N' : 0 < nrva p') by (rewrite (headers_nrva _ _ X5); unfold dir_bound_import in H; lia).
  destruct (rebuild_bound_ok (hl p) start i imports off true strip A V (room_hl _ _ _ _ F) G H) as (p2 & s2 & out2 & Y1 & Y2 & _ & _ & _ & _ & _ & Y3).
  change (p_sections (hl p)) with (p_sections p) in Y1. rewrite Hs in Y1. injection Y1 as <-.
  rewrite bound_hl, X2 in Y2. injection Y2 as <-. exact (bound_kept a p' r Ed' N' T Sv _ (Y3 eq_refl St Hz B1 B2)).
Qed.
