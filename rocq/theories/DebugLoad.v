(** Proofs about the raw debug data that loading keeps. *)
From Verif Require Export DebugTable LoadFacts.

Lemma wf_readable p : image_wf p -> readable p.
Proof. intros (_ & _ & _ & _ & _ & _ & D & N & W & B & L). split; [exact D|]. split; [exact N|]. split; [exact W|]. split; assumption. Qed.
Section Raw.
Variables (data : list Z) (strict : bool).
Hypothesis Hb : bytes data.
Let ok := raw_from data strict.
(** One raw read. *)
Lemma raw_read ptr n m (f : istream) : 0 <= ptr -> 0 < n -> i_data f = data -> i_strict f = strict -> (strict = false -> i_fail f = false) -> Forall ok m ->
  let r := (s_seek ptr ~; d <~ s_read_into (zeros n) 0 n ; s_check_eof error_reading_file ~; sret (map_insert m ptr d)) f in
  i_data (fst r) = data /\ i_strict (fst r) = strict /\ forall m1, snd r = Ok m1 -> (strict = false -> i_fail (fst r) = false) /\ Forall ok m1.
Proof.
  intros Hp Hn Hd Hs Hf Hm. unfold sbind, s_seek, s_read_into. rewrite zlen_zeros by lia. replace ((0 <=? 0) && (0 <=? n) && (0 + n <=? n)) with true by lia.
  assert (SG : i_data (seekg ptr f) = data /\ i_strict (seekg ptr f) = strict) by (unfold seekg; destruct (i_fail f); [split; assumption|]; destruct (_ || _); split; assumption).
  assert (INS : forall d, ok (ptr, d) -> Forall ok (map_insert m ptr d)).
  { intros d Od. unfold map_insert. destruct (existsb _ m); [exact Hm|]. apply Forall_app. split; [exact Hm|]. constructor; [exact Od|constructor]. }
  assert (CASE : (i_good (seekg ptr f) = true /\ i_pos (seekg ptr f) = ptr /\ i_fail (seekg ptr f) = false) \/ (i_good (seekg ptr f) = false /\ i_eof (seekg ptr f) = false /\ strict = true)).
  { unfold seekg. destruct (i_fail f) eqn:F.
    - right. split; [reflexivity|]. split; [reflexivity|]. destruct strict; [reflexivity|]. specialize (Hf eq_refl). discriminate.
    - destruct ((ptr <? 0) || (i_strict f && (zlen (i_data f) <? ptr))) eqn:C.
      + right. split; [reflexivity|]. split; [reflexivity|]. rewrite Hs in C. destruct strict; [reflexivity|]. cbn [andb] in C. lia.
      + left. split; [reflexivity|]. split; reflexivity. }
  destruct SG as [SD SS]. unfold is_read. destruct CASE as [(CG & CP & CF)|(CG & CE & CS)]; rewrite CG; cbv zeta.
  - rewrite SD, CP. destruct (zlen (slice data ptr n) <? n) eqn:Short.
    + unfold s_check_eof. cbn [set_i_flags set_i_pos i_eof throw_if fst snd i_data i_strict]. split; [exact SD|]. split; [exact SS|]. discriminate.
    + unfold i_good in CG. apply andb_true_iff in CG as [_ CE]. apply negb_true_iff in CE. unfold s_check_eof. cbn [set_i_pos i_eof]. rewrite CE. cbn [throw_if sret fst snd i_data i_strict set_i_pos i_fail].
      split; [exact SD|]. split; [exact SS|]. intros m1 E. split; [intros _; exact CF|]. assert (m1 = map_insert m ptr (splice (zeros n) 0 (slice data ptr n))) as -> by congruence.
      assert (Ls : zlen (slice data ptr n) = n) by (assert (zlen (slice data ptr n) <= n) by (unfold slice, zlen; rewrite firstn_length; lia); lia).
      rewrite splice_zeros by (try exact Ls; lia). apply INS. left. cbn [fst snd]. apply stands_holds. unfold holds. rewrite Ls. split; [exact Hp|].
      split; [|reflexivity]. apply slice_room; [exact Hp|lia|exact Ls].
  - unfold s_check_eof. cbn [set_i_flags i_eof]. rewrite CE. cbn [throw_if sret fst snd i_data i_strict set_i_flags i_fail]. split; [exact SD|]. split; [exact SS|].
    intros m1 E. split; [congruence|]. assert (m1 = map_insert m ptr (splice (zeros n) 0 [])) as -> by congruence. rewrite splice_nil by (rewrite zlen_zeros; lia). apply INS. right. split; [exact CS|]. cbn [snd]. rewrite zlen_zeros by lia. reflexivity.
Qed.

Definition raw_inv (st : istream * Z * list Z * list (Z * list Z)) : Prop :=
  let '(f, pos, b, m) := st in i_data f = data /\ i_strict f = strict /\ (strict = false -> i_fail f = false) /\ 0 <= pos /\ pos + 28 < 2^32 /\ bytes b /\ Forall ok m.
Lemma raw_step at_ fm p rva size st : loaded data at_ fm p -> raw_inv st ->
  match debug_body p rva size st with Ok (inl st') => raw_inv st' | Ok (inr a) => Forall ok (snd a) | _ => True end.
Proof.
  intros HL. destruct st as [[[f pos] c] mm]. intros (I1 & I2 & I3 & I4 & I5 & I6 & I7). unfold debug_body. destruct (negb (dd_ptr c =? 0) && (pos <? u32 (rva + size))); [|exact I7].
  assert (0 <= sizeof_debug_directory) as S28 by (unfold sizeof_debug_directory; lia).
  assert (0 <= dd_size c /\ 0 <= dd_ptr c) as [Hc Hq] by (split; apply unle_bound, bytes_slice, I6).
  assert (u32 (pos + sizeof_debug_directory) = pos + 28) as EP by (apply u32_small; unfold sizeof_debug_directory; lia). rewrite EP. assert (is_u32 (pos + 28)) as P28 by (unfold is_u32; lia).
  assert (NEXT : forall f1 m1, i_data f1 = data -> i_strict f1 = strict -> (strict = false -> i_fail f1 = false) -> Forall ok m1 ->
    match (match read_rva p (pos + 28) sizeof_debug_directory VirtData true with Ok b1 => Ok (inl (f1, pos + 28, b1, m1)) | Throw _ => Ok (inr (f1, m1)) | Ub k => Ub k | Fuel => Fuel end) with
    | Ok (inl st') => raw_inv st' | Ok (inr a) => Forall ok (snd a) | _ => True end).
  { intros f2 m2 J1 J2 J3 J4. destruct (read_rva p (pos + 28) sizeof_debug_directory VirtData true) as [b1|e|k|] eqn:ER2; try exact I; [|exact J4].
    destruct (loaded_read_fits data _ _ _ _ _ _ HL P28 S28 ER2) as [Lr2 Bb2]. change sizeof_debug_directory with 28 in Lr2. unfold raw_inv. repeat (split; [first [assumption|lia]|]). assumption. }
  destruct (((dd_type c =? 2) || (dd_type c =? 4) || (dd_type c =? 1)) && negb (dd_size c =? 0)) eqn:T.
  - apply andb_true_iff in T as [_ T]. pose proof (raw_read (dd_ptr c) (dd_size c) mm f Hq ltac:(lia) I1 I2 I3 I7) as RR. cbv zeta in RR.
    match type of RR with i_data (fst ?x) = _ /\ _ => destruct x as [f2 [m2|e|k|]] end; cbn [fst snd] in RR; destruct RR as (R1 & R2 & R3); try exact I; [|exact I7].
    destruct (R3 m2 eq_refl) as [R4 R5]. apply NEXT; assumption.
  - apply NEXT; assumption.
Qed.
Lemma raw_loop at_ fm p rva size n st r : loaded data at_ fm p -> raw_inv st -> mloop n (debug_body p rva size) st = Ok r -> Forall ok (snd r).
Proof.
  intros HL HI H. apply (mloop_inv (debug_body p rva size) n raw_inv (fun r => Forall ok (snd r)) st r); [|exact HI|exact H].
  intros st' Hst. exact (raw_step at_ fm p rva size st' HL Hst).
Qed.
Lemma raw_data_ok at_ fm p s m s' : loaded data at_ fm p -> i_data s = data -> i_strict s = strict -> i_fail s = false ->
  read_debug_data p s = (s', Ok m) -> Forall ok m.
Proof.
  intros HL Hd Hs Hf. pose proof HL as ((_ & _ & _ & _ & _ & _ & HD & _ & W & _) & _). unfold read_debug_data. generalize big_fuel as fuel. intros fuel.
  destruct (nth_dirs p dir_debug HD ltac:(unfold dir_debug; lia)) as (d & Ed & Hr & Hz). unfold get_directory_rva, get_directory_size. rewrite Ed. cbn [bind].
  assert (NIL : forall x, (s, Ok []) = (s', Ok x) -> Forall ok x) by (intros x E; assert (x = []) as -> by congruence; constructor).
  destruct (nrva p <=? dir_debug) eqn:C; cbn [throw_if bind]; [apply NIL|].
  destruct (length_rva p (fst d) (fst d) VirtData true) as [len|e|k|]; cbn [bind]; try discriminate; [|apply NIL].
  destruct (len <? sizeof_debug_directory); [apply NIL|].
  destruct (read_rva p (fst d) sizeof_debug_directory VirtData true) as [b|e|k|] eqn:ER; cbn [bind]; try discriminate; [|apply NIL].
  assert (0 <= sizeof_debug_directory) as S28 by (unfold sizeof_debug_directory; lia). destruct (loaded_read_fits data _ _ _ _ _ _ HL Hr S28 ER) as [Lr Bb].
  destruct (mloop fuel (debug_body p (fst d) (snd d)) (s, fst d, b, [])) as [[f1 m']|e|k|] eqn:M; try discriminate. intros H. assert (m' = m) as -> by congruence. clear H.
  apply (raw_loop at_ fm p _ _ _ _ _ HL) in M; [exact M|].
  change sizeof_debug_directory with 28 in Lr. unfold is_u32 in Hr. unfold raw_inv. repeat (split; [first [assumption|lia|intros _; assumption]|]). constructor.
Qed.
End Raw.
Lemma load_raw plus from_mem read_debug f f' p : wf_stream f -> load plus from_mem read_debug f = (f', Ok p) ->
  loaded (i_data f) (i_pos f) from_mem p /\ Forall (raw_from (i_data f) (i_strict f)) (p_debug p).
Proof.
  intros Wf E. destruct (i_good f) eqn:Hg.
  2: { destruct (not_good_dos f (fun dos => read_pe plus dos from_mem read_debug) Hg) as [e E2]. unfold load in E. rewrite E2 in E. discriminate. }
  destruct (good_cases f Hg) as [Hf He].
  pose proof (with_restore_spec f Wf (dos <~ read_dos_header ; read_pe plus dos from_mem read_debug)
    (fun p => loaded (i_data f) (i_pos f) from_mem p /\ Forall (raw_from (i_data f) (i_strict f)) (p_debug p)) false Hf He) as WR.
  assert (wp (dos <~ read_dos_header ; read_pe plus dos from_mem read_debug)
    (fun a s' => (loaded (i_data f) (i_pos f) from_mem a /\ Forall (raw_from (i_data f) (i_strict f)) (p_debug a)) /\ i_data s' = i_data f /\ i_strict s' = i_strict f /\ (false = true -> i_fail s' = false))
    (Ex (i_data f) (i_strict f)) f) as H.
  { pose proof Wf as (Hb & _ & Hp & _). apply dos_spec; [exact Wf|exact Hf|exact He|]. intros s Gs Ps Room Magic.
    apply read_pe_spec; try assumption; [rewrite Ps; assumption|]. intros q s' G' Ep NODEBUG HL _. unfold debug_tail. pose proof G' as (Hd & Hs & Hf' & _).
    destruct read_debug.
    - pose proof HL as ((_ & _ & _ & _ & _ & _ & HD & _) & _). pose proof (directory_exists_safe q dir_debug HD ltac:(unfold dir_debug; lia)) as DS.
      apply wp_bind. unfold wp at 1, slift. destruct (directory_exists q dir_debug) as [ex|e|k|] eqn:ED; try contradiction.
      + destruct ex.
        * apply wp_bind. pose proof (debug_data_spec (i_data f) (i_strict f) _ _ _ s' HL Hd Hs) as D. unfold wp in D |- * at 1.
          destruct (read_debug_data q s') as [s2 [m|e|k|]] eqn:RD; try contradiction.
          -- apply wp_ret. destruct D. split; [split; [apply set_debug_loaded; assumption|]|].
             ++ exact (raw_data_ok (i_data f) (i_strict f) _ _ _ _ _ _ HL Hd Hs Hf' RD).
             ++ split; [assumption|]. split; [assumption|discriminate].
          -- subst s2. apply G_Ex; assumption.
        * apply wp_ret. split; [split; [assumption|rewrite NODEBUG; constructor]|]. split; [assumption|]. split; [assumption|discriminate].
      + apply G_Ex; assumption.
    - apply wp_ret. split; [split; [assumption|rewrite NODEBUG; constructor]|]. split; [assumption|]. split; [assumption|]. discriminate. }
  destruct (WR H) as (_ & R & _). unfold load in E. rewrite E in R. exact (proj1 (R p eq_refl)).
Qed.
Lemma raw_from_ok data strict l : bytes data -> Forall (raw_from data strict) l -> Forall (fun e => bytes (snd e)) l.
Proof.
  intros B. apply Forall_impl. intros [ptr d] [(a & b & E & _)|[_ E]]; cbn [snd] in *.
  - rewrite E in B. unfold bytes in B. rewrite !Forall_app in B. apply B.
  - rewrite E. apply bytes_zeros.
Qed.
Lemma loaded_readable plus from_mem read_debug f f' p : wf_stream f -> load plus from_mem read_debug f = (f', Ok p) -> readable p /\ raw_ok p.
Proof.
  intros W E. destruct (load_raw _ _ _ _ _ _ W E) as [HL HR]. split.
  - apply wf_readable, HL.
  - pose proof W as (B & _). exact (raw_from_ok _ _ _ B HR).
Qed.
