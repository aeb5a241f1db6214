(** Proofs about what a failed rebuild of imports leaves behind, continued: bounds and exceptions (C83). *)
From Verif Require Export FailImport.

Lemma heads_refl p : same_heads p p.
Proof. split; [reflexivity|]. induction (p_sections p); constructor; [repeat split|assumption]. Qed.
Lemma forall2_trans {A} (R : A -> A -> Prop) : (forall a b c, R a b -> R b c -> R a c) -> forall l1 l2 l3, Forall2 R l1 l2 -> Forall2 R l2 l3 -> Forall2 R l1 l3.
Proof. intros T l1 l2 l3 H. revert l3. induction H; intros l3 K; inversion K; subst; constructor; eauto. Qed.
Lemma header_trans a b c : same_header a b -> same_header b c -> same_header a c.
Proof. unfold same_header. intuition congruence. Qed.
Lemma heads_trans p q r : same_heads p q -> same_heads q r -> same_heads p r.
Proof. intros [A1 A2] [B1 B2]. split; [congruence|]. exact (forall2_trans _ header_trans _ _ _ A2 B2). Qed.
Lemma forall2_put (l : list section) i s t : nth_error l i = Some s -> same_header s t -> Forall2 same_header l (firstn i l ++ t :: skipn (S i) l).
Proof.
  revert i. induction l as [|a l IH]; intros [|i] H K; cbn in H; try discriminate H.
  - injection H as ->. cbn. constructor; [exact K|]. clear. induction l; constructor; [repeat split|assumption].
  - cbn. constructor; [repeat split|]. apply IH; assumption.
Qed.
Lemma heads_put p i s t : nth_error (p_sections p) i = Some s -> same_header s t -> same_heads p (put_section p i t).
Proof. intros H K. split; [reflexivity|]. unfold put_section. cbn [set_p_sections p_sections]. pose proof (forall2_put _ _ _ _ H K) as F.
  match goal with |- Forall2 _ _ ?x => assert (E : x = firstn i (p_sections p) ++ t :: skipn (S i) (p_sections p)) end. 2: rewrite E; exact F.
  clear F K. revert i H. induction (p_sections p) as [|a l IH]; intros [|i] H; cbn in *; try discriminate H; [reflexivity|]. rewrite IH by exact H. reflexivity.
Qed.
Lemma header_put s d : same_header s (set_s_data d (unmap_virtual s)).
Proof. destruct (unmap_fields s) as (A & B & C & D & E & F & G & H & I1 & J). unfold same_header. cbn. intuition congruence. Qed.

(** Section [i] of [q] is not mapped, and the image has the headers of [p]. *)
Definition near (p : pe) (i : nat) (q : pe) : Prop := same_heads p q /\ exists t, nth_error (p_sections q) i = Some t /\ s_old t = None.
Lemma near_put p i q j s d : near p i q -> nth_error (p_sections q) j = Some s -> near p i (put_section q j (set_s_data d (unmap_virtual s))).
Proof.
  intros [H (t & T1 & T2)] K. split; [apply (heads_trans _ q); [exact H|]; exact (heads_put _ _ _ _ K (header_put s d))|].
  destruct (Nat.eq_dec j i) as [->|N].
  - exists (set_s_data d (unmap_virtual s)). split; [apply put_get; exact (nth_lt _ _ _ T1)|]. cbn [set_s_data s_old]. apply unmap_old.
  - exists t. split; [|exact T2]. unfold put_section. cbn [set_p_sections p_sections]. rewrite nth_error_upd_other by congruence. exact T1.
Qed.
Lemma near_full p i q d : near p i q -> near p i (set_p_full d q).
Proof. intros [[H1 H2] K]. split; [split; [exact H1|exact H2]|exact K]. Qed.
Lemma near_thunk p i q : near p i q -> thunk_size q = thunk_size p.
Proof. intros [[H _] _]. pose proof (f_equal thunk_size H) as E. exact E. Qed.

Definition leaves {A} (p : pe) (i : nat) (may : bool) (post : A -> Prop) (m : pe * res A) : Prop :=
  match snd m with Ok a => near p i (fst m) /\ post a | Throw _ => may = true /\ near p i (fst m) | _ => True end.
Lemma leaves_step {A B} p i may (P : A -> Prop) (Q : B -> Prop) (m : op A) (k : A -> op B) q :
  leaves p i may P (m q) -> (forall a q', near p i q' -> P a -> leaves p i may Q (k a q')) -> leaves p i may Q (step m k q).
Proof. unfold leaves at 1. unfold step. destruct (m q) as [q' [a|e|u|]]; cbn [fst snd]; intros H K; [apply K; apply H|exact H|exact H|exact H]. Qed.
Lemma leaves_ret {A} p i may (P : A -> Prop) a q : near p i q -> P a -> leaves p i may P (pass (Ok a) q).
Proof. intros H K. split; assumption. Qed.
Lemma leaves_edit p i may (f : pe -> res pe) q : near p i q -> match f q with Ok q' => near p i q' | Throw _ => may = true | _ => True end -> leaves p i may (fun _ => True) (edit f q).
Proof. intros N H. unfold edit, step, look, pass, change, leaves. destruct (f q); cbn [fst snd]; auto. Qed.
Lemma leaves_wr p i may pos bs q : near p i q -> leaves p i may (fun _ => True) (edit (fun p => wr_section p i pos bs) q).
Proof.
  intros N. apply leaves_edit; [exact N|]. unfold wr_section. destruct N as [H (t & T1 & T2)]. rewrite (get_section_ok _ _ _ T1). cbn [bind].
  pose proof (quiet_wr (s_data (unmap_virtual t)) pos bs) as K. destruct (wr (s_data (unmap_virtual t)) pos bs) as [d|e|u|]; cbn [bind]; [|contradiction K|exact Logic.I|exact Logic.I].
  apply near_put; [split; [exact H|exists t; split; assumption]|exact T1].
Qed.
Lemma leaves_poke p i rva bs q : near p i q -> leaves p i true (fun _ => True) (edit (fun p => poke p rva bs) q).
Proof.
  intros N. apply leaves_edit; [exact N|]. unfold poke. destruct (rva <? zlen (p_full q)).
  - pose proof (quiet_wr (p_full q) rva bs) as K. destruct (wr (p_full q) rva bs) as [d|e|u|]; cbn [bind]; [|reflexivity|exact Logic.I|exact Logic.I]. apply near_full, N.
  - destruct (section_from_rva q rva) as [j|e|u|]; cbn [bind]; [|reflexivity|exact Logic.I|exact Logic.I]. destruct (get_section q j) as [s|e|u|] eqn:G; cbn [bind]; [|reflexivity|exact Logic.I|exact Logic.I]. apply get_section_inv in G.
    destruct (zlen (s_data (unmap_virtual s)) =? 0); cbn [throw_if bind]; [reflexivity|]. destruct (wr (s_data (unmap_virtual s)) (rva - s_va s) bs) as [d|e|u|]; cbn [bind]; [|reflexivity|exact Logic.I|exact Logic.I]. apply near_put; assumption.
Qed.
Lemma leaves_weak {A} p i may (P Q : A -> Prop) m : leaves p i may P m -> (forall a, P a -> Q a) -> leaves p i may Q m.
Proof. unfold leaves. destruct (snd m); intros H K; try exact H. split; [apply H|apply K, H]. Qed.
Definition steps_on (n : Z) (pos pos' : Z * Z) : Prop := 0 <= snd pos' <= snd pos + n.
Lemma leaves_thunk p i may (rw : bool) pos v q : near p i q -> (rw = true -> may = true) -> 0 <= snd pos -> leaves p i may (steps_on (thunk_size p) pos) (run_put_thunk i rw pos v q).
Proof.
  intros N R Hp. assert (W : 0 <= thunk_size p) by (unfold thunk_size; destruct (p_plus p); lia). pose proof (near_thunk _ _ _ N) as Et. unfold run_put_thunk. unfold step at 1. unfold look at 1. rewrite Et. destruct rw.
  - rewrite (R eq_refl). apply (leaves_step _ _ _ (fun _ => True)).
    { destruct (length_rva q (fst pos) (fst pos) RawData true); cbn; auto. }
    intros len q' N' _. apply (leaves_step _ _ _ (fun _ => True)). { destruct (len <=? thunk_size p); cbn; auto. }
    intros [] q2 N2 _. apply (leaves_step _ _ _ (fun _ => True)); [apply leaves_poke; exact N2|]. intros [] q3 N3 _. apply leaves_ret; [exact N3|]. unfold steps_on. cbn [snd]. lia.
  - apply (leaves_step _ _ _ (fun _ => True)); [apply leaves_wr; exact N|]. intros [] q3 N3 _. apply leaves_ret; [exact N3|]. unfold steps_on. cbn [snd]. unfold u32. lia.
Qed.
Lemma leaves_get {B} p i may (Q : B -> Prop) (k : section -> op B) q : near p i q -> (forall s, leaves p i may Q (k s q)) -> leaves p i may Q (step (pass (get_section q i)) k q).
Proof. intros [H (t & T1 & T2)] K. unfold step at 1. unfold pass. rewrite (get_section_ok _ _ _ T1). apply K. Qed.
(** One function moves the second position on by at most one thunk. *)
Definition room1 (sz : Z) (wo : bool) (n : Z) (st st' : Z * (Z * Z) * (Z * Z)) : Prop := 0 <= snd (snd (fst st')) /\ 0 <= snd (snd st') <= snd (snd st) + (if wo then sz * n else 0).
Lemma leaves_import p i may sv wo ri ro st f q : near p i q -> (ri || ro = true -> may = true) -> 0 <= snd (snd (fst st)) -> 0 <= snd (snd st) ->
  leaves p i may (room1 (thunk_size p) wo 1 st) (run_write_import i sv wo ri ro st f q).
Proof.
  intros N R. destruct st as [[str ipos] opos]. cbn [fst snd]. intros Hi Hp. assert (Ri : ri = true -> may = true) by (intros ->; apply R; reflexivity). assert (Ro : ro = true -> may = true) by (intros ->; apply R; apply orb_true_r).
  unfold run_write_import. unfold step at 1. unfold look at 1. apply leaves_get; [exact N|]. intros s. cbv zeta. set (v := if by_name f then _ else _). clearbody v.
  apply (leaves_step _ _ _ (fun x => 0 <= snd x)).
  { destruct sv; [apply leaves_ret; assumption|]. assert (T : forall v, leaves p i may (fun x => 0 <= snd x) (run_put_thunk i ri ipos v q)) by (intros w; eapply leaves_weak; [apply leaves_thunk; assumption|]; intros a [Ha _]; exact Ha).
    destruct wo; [apply T|]. destruct (by_name f || ri); [apply T|]. eapply leaves_step; [apply T|]. intros _ q' N' _. apply leaves_ret; assumption. }
  intros ipos1 q1 N1 Hi1. apply (leaves_step _ _ _ (fun x => 0 <= snd x <= snd opos + (if wo then thunk_size p * 1 else 0))).
  { destruct wo; [|apply leaves_ret; [exact N1|lia]]. eapply leaves_weak; [apply leaves_thunk; assumption|]. intros a Ha. unfold steps_on in Ha. lia. }
  intros opos1 q2 N2 Ho1. destruct (by_name f); [|apply leaves_ret; [exact N2|split; cbn [fst snd]; assumption]].
  apply (leaves_step _ _ _ (fun _ => True)); [apply leaves_wr; exact N2|]. intros [] q3 N3 _. apply (leaves_step _ _ _ (fun _ => True)); [apply leaves_wr; exact N3|]. intros [] q4 N4 _. apply leaves_ret; [exact N4|split; cbn [fst snd]; assumption].
Qed.
Lemma leaves_imports p i may sv wo ri ro l : (ri || ro = true -> may = true) -> forall st q, near p i q -> 0 <= snd (snd (fst st)) -> 0 <= snd (snd st) ->
  leaves p i may (room1 (thunk_size p) wo (zlen l) st) (loop (run_write_import i sv wo ri ro) l st q).
Proof.
  intros R. induction l as [|f l IH]; intros st q N Hi Hp; cbn [loop].
  - apply leaves_ret; [exact N|]. split; [exact Hi|]. change (zlen []) with 0. destruct wo; lia.
  - apply (leaves_step _ _ _ (room1 (thunk_size p) wo 1 st)); [apply leaves_import; assumption|]. intros st1 q1 N1 [A1 A2]. eapply leaves_weak; [apply IH; [exact N1|exact A1|lia]|].
    intros st2 [B1 B2]. split; [exact B1|]. rewrite zlen_cons. destruct wo; lia.
Qed.
(** The tables of some library are written over. *)
Definition over (o : import_settings) (l : library) : bool := stays o l && o_rewrite o.
Definition room2 (p : pe) (o : import_settings) (l : list library) (st st' : Z * (Z * Z) * (Z * Z) * Z) : Prop :=
  0 <= snd (snd (fst (fst st'))) /\ 0 <= snd (snd (fst st')) <= snd (snd (fst st)) + (if o_build o || o_fill o then total (library_table_size p) l else 0).
Lemma leaves_library p i may o st l q : near p i q -> (over o l = true -> may = true) -> 0 <= snd (snd (fst (fst st))) -> 0 <= snd (snd (fst st)) ->
  leaves p i may (room2 p o [l] st) (run_write_library i o st l q).
Proof.
  intros N R. destruct st as [[[str [x ipos]] [y opos]] dpos]. cbn [fst snd]. intros Hi Hp.
  unfold run_write_library. unfold step at 1. unfold look at 1. apply leaves_get; [exact N|]. intros s. cbv zeta. fold (stays o l). fold (over o l).
  set (ro := over o l && o_build o && negb (l_oiat l =? 0)). set (wo := negb (stays o l) && o_build o || o_fill o || ro).
  assert (Ro : ro = true -> may = true) by (unfold ro; intros H; apply R; destruct (over o l); [reflexivity|discriminate H]).
  assert (Rr : over o l || ro = true -> may = true) by (intros H; apply orb_true_iff in H as [H|H]; auto).
  assert (Wt : wo = true -> o_build o || o_fill o = true) by (unfold wo, ro; destruct (stays o l), (o_build o), (o_fill o), (over o l); cbn; auto).
  assert (Sz : thunk_size p = Z.of_nat (word_size p)) by reflexivity. pose proof (zlen_nonneg (l_funcs l)) as Zn.
  set (oft := if o_build o then _ else _). clearbody oft. set (ft := if stays o l then _ else _). clearbody ft.
  apply (leaves_step _ _ _ (fun _ => True)); [apply leaves_wr; exact N|]. intros [] q1 N1 _. apply (leaves_step _ _ _ (fun _ => True)); [apply leaves_wr; exact N1|]. intros [] q2 N2 _.
  eapply leaves_step; [apply leaves_imports; [exact Rr|exact N2|exact Hi|exact Hp]|]. intros [[str1 ipos1] opos1] q3 N3 [A1 A2]. cbn [fst snd] in A1, A2.
  apply (leaves_step _ _ _ (fun x => 0 <= snd x)).
  { match goal with |- context [if ?c then _ else _] => destruct c end; [apply leaves_ret; assumption|]. eapply leaves_weak; [apply leaves_thunk; assumption|]. intros a [Ha _]. exact Ha. }
  intros ipos2 q4 N4 Hi2. apply (leaves_step _ _ _ (fun x => 0 <= snd x <= snd opos1 + (if wo then thunk_size p else 0))).
  { destruct wo; [|apply leaves_ret; [exact N4|lia]]. eapply leaves_weak; [apply leaves_thunk; [assumption|assumption|lia]|]. intros a Ha. exact Ha. }
  intros opos2 q5 N5 Ho2. apply leaves_ret; [exact N5|]. split; cbn [fst snd]; [exact Hi2|]. cbn [total fold_right]. unfold library_table_size. destruct wo; [rewrite (Wt eq_refl); lia|]. destruct (o_build o || o_fill o); nia.
Qed.
Lemma leaves_libraries p i may o l : (existsb (over o) l = true -> may = true) -> forall st q, near p i q -> 0 <= snd (snd (fst (fst st))) -> 0 <= snd (snd (fst st)) ->
  leaves p i may (room2 p o l st) (loop (run_write_library i o) l st q).
Proof.
  induction l as [|a l IH]; intros R st q N Hi Hp; cbn [loop].
  - apply leaves_ret; [exact N|]. split; [exact Hi|]. cbn [total fold_right]. destruct (o_build o || o_fill o); lia.
  - cbn [existsb] in R. apply (leaves_step _ _ _ (room2 p o [a] st)); [apply leaves_library; try assumption; intros H; apply R; rewrite H; reflexivity|]. intros st1 q1 N1 [A1 A2].
    eapply leaves_weak; [apply IH; [intros H; apply R; rewrite H; apply orb_true_r|exact N1|exact A1|lia]|]. intros st2 [B1 B2]. split; [exact B1|]. rewrite total_cons. cbn [total fold_right] in A2. fold (total (library_table_size p) l) in *. destruct (o_build o || o_fill o); lia.
Qed.

Lemma near_nrva p i q : near p i q -> nrva q = nrva p.
Proof. intros [[H _] _]. exact (f_equal nrva H). Qed.
Lemma near_align p i q : near p i q -> good_align p -> good_align q.
Proof. intros [[H _] _]. assert (A1 := f_equal salign H). assert (A2 := f_equal falign H). change (salign q = salign p) in A1. change (falign q = falign p) in A2. unfold good_align. rewrite A1, A2. auto. Qed.
Lemma near_vsize p i q s t : near p i q -> nth_error (p_sections p) i = Some s -> nth_error (p_sections q) i = Some t -> s_vsize t = s_vsize s.
Proof.
  intros [[_ H] _]. revert i. induction H as [|a b l l' R _ IH]; intros [|i] A B; cbn in A, B; try discriminate A; [|exact (IH i A B)].
  injection A as ->. injection B as ->. unfold same_header in R. symmetry. apply R.
Qed.
Lemma set_dir_nrva p id rva size q : set_directory p id rva size = Ok q -> nrva q = nrva p.
Proof.
  unfold set_directory, set_directory_rva, set_directory_size. intros E. bnd E p1 E1. thr E1 A. bnd E1 d Ed. injection E1 as <-. thr E B. bnd E d2 Ed2. injection E as <-. reflexivity.
Qed.
(** The part after the last library does not throw. *)
Lemma ending_quiet p i s0 endpos dpos1 strip headers zero a b q e : good_align p -> nth_error (p_sections p) i = Some s0 -> 0 < s_vsize s0 <= 2^31 -> near p i q -> 0 <= endpos <= 2^31 ->
  entry_for p headers dir_import -> entry_for p (headers && zero) dir_iat ->
  snd ((edit (fun p => wr_section p i dpos1 (zeros 20)) ;~
        edit (fun p => s2 <- get_section p i ;; Ok (put_section p i (set_s_data (resize (s_data s2) endpos) s2))) ;~
        run_recalculate i strip ;~
        (if headers then run_set_directory_rva dir_import a ;~ run_set_directory_size dir_import b ;~ (if zero then run_set_directory_rva dir_iat 0 ;~ run_set_directory_size dir_iat 0 else pass (Ok tt))
         else pass (Ok tt)) ;~ pass (Ok (a, b))) q) <> Throw e.
Proof.
  intros Ga Hs Hv N He E1 E2. pose proof (leaves_wr p i false dpos1 (zeros 20) q N) as L. unfold step at 1. destruct (edit _ q) as [q1 [[]|x|u|]]; unfold leaves in L; cbn [fst snd] in L; try discriminate; [|destruct L as [L _]; discriminate L].
  destruct L as [[H1 (t & T1 & T2)] _]. unfold step at 1. unfold edit, step at 1. unfold look at 1. unfold pass at 1. rewrite (get_section_ok _ _ _ T1). cbn [bind]. unfold step at 1. unfold change at 1. cbv beta iota.
  set (t2 := set_s_data _ t). set (q2 := put_section q1 i t2). assert (N1 : near p i q1) by (split; [exact H1|exists t; split; assumption]).
  assert (G2 : good_align q2) by (exact (near_align p i q1 N1 Ga)). assert (T3 : nth_error (p_sections q2) i = Some t2) by (apply put_get; exact (nth_lt _ _ _ T1)).
  pose proof (near_vsize _ _ _ _ _ N1 Hs T1) as V. assert (Nr : nrva q2 = nrva p) by (exact (near_nrva p i q1 N1)).
  assert (Rn : forall x, recalculate_section_sizes q2 i strip <> Throw x).
  { intros x. apply (recalc_no_throw q2 i strip t2 x G2 T3); [exact T2|unfold t2; cbn [set_s_data s_vsize]; lia|unfold t2; cbn [set_s_data s_data]; rewrite zlen_resize by lia; lia]. }
  clearbody q2. unfold step at 1. pose proof (agr_recalc i strip q2) as R. destruct (recalculate_section_sizes q2 i strip) as [q3|x|u|] eqn:Er; unfold agr in R.
  2: { exfalso. exact (Rn x eq_refl). }
  2,3: destruct (run_recalculate i strip q2) as [q' r]; cbn [snd] in R; subst r; discriminate.
  rewrite R. cbn [img fst snd]. assert (Nr3 : nrva q3 = nrva p) by (destruct (recalc_dirs _ _ _ _ Er) as [_ X]; congruence). clear R Rn Er T3 Nr G2.
  unfold step at 1. destruct headers; [|discriminate]. specialize (E1 eq_refl). unfold entry_for in E2. cbn [andb] in E2. rewrite <- step_assoc. unfold step at 1.
  pose proof (agr_set_dir dir_import a b q3) as R. unfold agr in R. destruct (set_directory q3 dir_import a b) as [q4|x|u|] eqn:Ed.
  2: { exfalso. apply (set_dir_no_throw q3 dir_import a b x); [lia|exact Ed]. }
  2,3: destruct ((_ ;~ _) q3) as [q' r]; cbn [snd] in R; subst r; discriminate.
  rewrite R. cbn [img fst snd]. pose proof (set_dir_nrva _ _ _ _ _ Ed) as Nr4. destruct zero; [|discriminate]. specialize (E2 eq_refl). clear R.
  pose proof (agr_set_dir dir_iat 0 0 q4) as R. unfold agr in R. destruct (set_directory q4 dir_iat 0 0) as [q5|x|u|] eqn:Ed2.
  2: { exfalso. apply (set_dir_no_throw q4 dir_iat 0 0 x); [lia|exact Ed2]. }
  2,3: destruct ((_ ;~ _) q4) as [q' r]; cbn [snd] in R; subst r; discriminate.
  rewrite R. discriminate.
Qed.
Lemma open_header p i total len s1 : open_room p i total len = Ok s1 -> exists s, nth_error (p_sections p) i = Some s /\ same_header s s1.
Proof.
  intros E. unfold open_room in E. thr E A. bnd E s Es. thr E B. injection E as <-. apply get_section_inv in Es. exists s. split; [exact Es|].
  destruct (zlen (s_data (unmap_virtual s)) <? total); [apply header_put|]. pose proof (header_put s (s_data (unmap_virtual s))) as K. unfold same_header in *. exact K.
Qed.
Lemma imports_fail libs i o p q e : good_align p -> sized p i -> 0 <= o_offset o -> o_offset o + import_size p libs o <= 2^31 ->
  entry_for p (o_headers o) dir_import -> entry_for p (o_headers o && o_zero_iat o) dir_iat -> run_rebuild_imports libs i o p = (q, Throw e) ->
  same_heads p q /\ (existsb (over o) libs = false -> q = p).
Proof.
  intros Ga Sz Ho Hb E1 E2 H. assert (Wd : thunk_size p = Z.of_nat (word_size p)) by reflexivity. pose proof (word_size_ok p) as W.
  pose proof (total_nonneg library_text_size libs ltext_nonneg) as T4. pose proof (total_nonneg (library_table_size p) libs (table_size_nonneg p)) as T5. pose proof (zlen_nonneg libs) as Zn.
  unfold import_size in Hb. assert (B1 : total library_text_size libs < 2^32) by (destruct (o_build o || o_fill o); lia). assert (B2 : total (library_table_size p) libs < 2^32) by (destruct (o_build o || o_fill o); lia).
  unfold run_rebuild_imports in H. unfold step at 1 in H. unfold look at 1 in H. cbv zeta in H. rewrite Wd in H. rewrite (string_size_ok libs B1), (iat_size_ok p libs B2) in H.
  set (needed := u32 (u32 _ + _ + _ + _)) in H. set (ipos := align_up _ _) in H.
  unfold step at 1 in H. rewrite run_open in H. destruct (open_room p i _ _) as [s1|x|u|] eqn:Eo; try discriminate H.
  2: { injection H as <- _. split; [apply heads_refl|reflexivity]. }
  assert (U : 0 <= u32 (needed + o_offset o) < 2^32) by (unfold u32; lia). destruct (open_sized p i _ _ s1 Ga Sz (proj1 U) (or_introl eq_refl) (proj2 U) Eo) as (Li & O1 & O2 & _).
  destruct (open_header _ _ _ _ _ Eo) as (s & Hs & Hh). set (p1 := put_section p i s1) in *.
  assert (N1 : near p1 i p1) by (split; [apply heads_refl|exists s1; split; [apply put_get; exact Li|exact O1]]). pose proof (heads_put _ _ _ _ Hs Hh) as Hp1. fold p1 in Hp1.
  assert (Ip : 0 <= ipos <= o_offset o + total library_text_size libs + 20 * (zlen libs + 1) + (Z.of_nat (word_size p) - 1)).
  { unfold ipos. rewrite u32_small by (destruct (o_build o || o_fill o); lia). assert (Pw : power_of_two (Z.of_nat (word_size p))) by (unfold word_size; destruct (p_plus p); [exists 3|exists 2]; split; lia).
    pose proof (ceil_mult_least (total library_text_size libs + o_offset o + (1 + zlen libs) * 20) (Z.of_nat (word_size p)) ltac:(lia)) as (_ & D2 & D3 & _). rewrite align_up_small by (try assumption; destruct (o_build o || o_fill o); lia). lia. }
  assert (Op : 0 <= u32 (ipos + total (library_table_size p) libs) <= ipos + total (library_table_size p) libs) by (unfold u32; lia). clearbody ipos.
  unfold step at 1 in H. match type of H with context [loop (run_write_library i o) libs ?x p1] => pose proof (leaves_libraries p1 i (existsb (over o) libs) o libs (fun h => h) x p1 N1 (proj1 Ip) (proj1 Op)) as L; destruct (loop (run_write_library i o) libs x p1) as [q1 [w|x'|u|]]; unfold leaves in L; cbn [fst snd] in L end; try discriminate H.
  - exfalso. destruct w as [[[str1 ipos1] [y endpos]] dpos1]. destruct L as [N2 [_ L]]. cbn [fst snd] in L. change (total (library_table_size p1) libs) with (total (library_table_size p) libs) in L.
    match type of H with ?m = _ => apply (f_equal snd) in H; cbn [snd] in H end. revert H. apply (ending_quiet p1 i s1); try assumption; [apply put_get; exact Li|].
    destruct (o_build o || o_fill o); lia.
  - destruct L as [M N2]. injection H as <- _. split; [exact (heads_trans _ _ _ Hp1 (proj1 N2))|]. intros F. rewrite F in M. discriminate M.
Qed.
Lemma agrees_result {A} (m : pe * res A) (f : res (pe * A)) : agrees m f -> same_result m f.
Proof.
  unfold agrees, same_result. destruct m as [q0 r]. cbn [snd]. destruct f as [[q a]|x|u|]; intros H.
  - injection H as -> ->. split; intros; split; intros H; try discriminate H; injection H as -> ->; reflexivity.
  - subst r. split; intros; split; intros H; try discriminate H; injection H as ->; reflexivity.
  - subst r. split; intros; split; intros H; discriminate H.
  - subst r. split; intros; split; intros H; discriminate H.
Qed.
Lemma imports_same libs i o p : same_result (run_rebuild_imports libs i o p) (rebuild_imports p libs i o).
Proof. apply agrees_result. exact (agr_agrees _ _ (imports_agree libs i o p)). Qed.
Lemma imports_failed libs i o p q e : good_align p -> sized p i -> 0 <= o_offset o -> o_offset o + import_size p libs o <= 2^31 ->
  entry_for p (o_headers o) dir_import -> entry_for p (o_headers o && o_zero_iat o) dir_iat -> run_rebuild_imports libs i o p = (q, Throw e) ->
  same_heads p q /\ (Forall (fun l => stays o l && o_rewrite o = false) libs -> q = p).
Proof.
  intros A B C D E F H. destruct (imports_fail libs i o p q e A B C D E F H) as [X Y]. split; [exact X|]. intros K. apply Y. clear -K. induction K as [|l ls K _ IH]; [reflexivity|]. cbn [existsb]. unfold over at 1. rewrite K. exact IH.
Qed.
