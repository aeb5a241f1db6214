(** Proof of C86. *)
From Verif Require Export SpecKeepDebug KeepDone DebugLoad LoadExec.

(** ** The raw data that loading collects *)
Definition wanted (e : debug_info) : bool := ((d_type e =? 2) || (d_type e =? 4) || (d_type e =? 1)) && negb (d_size e =? 0).
Fixpoint raws (data : list Z) (l : list debug_info) (m : list (Z * list Z)) : list (Z * list Z) :=
  match l with
  | [] => m
  | e :: t => raws data t (if wanted e then map_insert m (d_ptr e) (slice data (d_ptr e) (d_size e)) else m)
  end.
Definition in_range (data : list Z) (e : debug_info) : Prop := wanted e = true -> 0 <= d_ptr e /\ 0 <= d_size e /\ d_ptr e + d_size e <= zlen data.

Section Collect.
Context (data : list Z) (strict : bool) (p : pe) (rva size : Z).
Lemma read_entry ptr n m k : 0 <= ptr -> 0 <= n -> ptr + n <= zlen data ->
  (s_seek ptr ~; d <~ s_read_into (zeros n) 0 n ; s_check_eof error_reading_file ~; sret (map_insert m ptr d)) (st data strict k) = (st data strict (ptr + n), Ok (map_insert m ptr (slice data ptr n))).
Proof. intros A B C. rewrite x_seek by lia. rewrite x_read by lia. rewrite x_eof. reflexivity. Qed.
Lemma collect : forall n pos b acc l, nloop n (debug_step p rva size) (pos, b, acc) = Ok (inr l) -> exists l', l = acc ++ l' /\
  (forall N k m f1 m1, Forall (in_range data) l' -> nloop N (debug_body p rva size) (st data strict k, pos, b, m) = Ok (inr (f1, m1)) -> m1 = raws data l' m) /\
  (forall m2, Forall (fun e => described_type e -> map_find m2 (d_ptr e) = map_find (p_debug p) (d_ptr e)) l' -> nloop n (debug_step (set_p_debug m2 p) rva size) (pos, b, acc) = Ok (inr l)).
Proof.
  induction n as [|n IH]; intros pos b acc l H; [discriminate H|]. cbn [nloop] in H. unfold debug_step at 1 in H.
  destruct (negb (dd_ptr b =? 0) && (pos <? u32 (rva + size))) eqn:C.
  - destruct (advanced_info p b) as [a| | |] eqn:Ea; cbn [bind] in H; try discriminate H. destruct (throw_if _ _) as [[]| | |] eqn:T; cbn [bind] in H; try discriminate H.
    destruct (read_rva p (u32 (pos + sizeof_debug_directory)) sizeof_debug_directory VirtData true) as [b'| | |] eqn:Eb; cbn [bind] in H; try discriminate H.
    destruct (IH _ _ _ _ H) as (l' & -> & L1 & L2). exists (debug_of b a :: l'). split; [rewrite <- app_assoc; reflexivity|]. split.
    + intros N k m f1 m1 F E. apply Forall_cons_iff in F as [F1 F2]. destruct N as [|N]; [discriminate E|]. cbn [nloop] in E. unfold debug_body at 1 in E. rewrite C in E. cbn [raws].
      change (wanted (debug_of b a)) with (((dd_type b =? 2) || (dd_type b =? 4) || (dd_type b =? 1)) && negb (dd_size b =? 0)) in *. change (d_ptr (debug_of b a)) with (dd_ptr b). change (d_size (debug_of b a)) with (dd_size b).
      unfold in_range in F1. change (wanted (debug_of b a)) with (((dd_type b =? 2) || (dd_type b =? 4) || (dd_type b =? 1)) && negb (dd_size b =? 0)) in F1.
      destruct (((dd_type b =? 2) || (dd_type b =? 4) || (dd_type b =? 1)) && negb (dd_size b =? 0)).
      * destruct (F1 eq_refl) as (G1 & G2 & G3). change (d_ptr (debug_of b a)) with (dd_ptr b) in *. change (d_size (debug_of b a)) with (dd_size b) in *.
        rewrite read_entry in E by assumption. rewrite Eb in E. exact (L1 _ _ _ _ _ F2 E).
      * rewrite Eb in E. exact (L1 _ _ _ _ _ F2 E).
    + intros m2 F. apply Forall_cons_iff in F as [F1 F2]. cbn [nloop]. unfold debug_step at 1. rewrite C.
      assert (Ea' : advanced_info (set_p_debug m2 p) b = Ok a).
      { unfold described_type in F1. change (d_ptr (debug_of b a)) with (dd_ptr b) in F1. change (d_type (debug_of b a)) with (dd_type b) in F1. unfold advanced_info in *. change (p_debug (set_p_debug m2 p)) with m2.
        destruct (Z.eqb_spec (dd_type b) 1) as [E1|N1]; [rewrite F1 by auto; exact Ea|]. destruct (Z.eqb_spec (dd_type b) 2) as [E2|N2]; [rewrite F1 by auto; exact Ea|]. destruct (Z.eqb_spec (dd_type b) 4) as [E4|N4]; [rewrite F1 by auto; exact Ea|].
        destruct (map_find m2 (dd_ptr b)), (map_find (p_debug p) (dd_ptr b)); exact Ea. }
      rewrite Ea'. cbn [bind]. rewrite T. cbn [bind]. change (read_rva (set_p_debug m2 p)) with (read_rva p). rewrite Eb. cbn [bind]. apply L2. exact F2.
  - injection H as <-. exists []. split; [rewrite app_nil_r; reflexivity|]. split.
    + intros N k m f1 m1 _ E. destruct N as [|N]; [discriminate E|]. cbn [nloop] in E. unfold debug_body in E. rewrite C in E. cbn [raws]. congruence.
    + intros m2 _. cbn [nloop]. unfold debug_step. rewrite C. reflexivity.
Qed.
End Collect.

(** ** The end of loading *)
Lemma load_tail plus fm f f' p : wf_stream f -> load plus fm true f = (f', Ok p) ->
  exists k s2 p0, p_debug p0 = [] /\ debug_tail true p0 (st (i_data f) (i_strict f) k) = (s2, Ok p).
Proof.
  intros Wf E. destruct (i_good f) eqn:Hg.
  2: { destruct (not_good_dos f (fun dos => read_pe plus dos fm true) Hg) as [e E2]. unfold load in E. rewrite E2 in E. discriminate. }
  destruct (good_cases f Hg) as [Hf He].
  set (P := fun p => exists k s2 p0, p_debug p0 = [] /\ debug_tail true p0 (st (i_data f) (i_strict f) k) = (s2, Ok p)).
  pose proof (with_restore_spec f Wf (dos <~ read_dos_header ; read_pe plus dos fm true) P false Hf He) as WR.
  assert (H : wp (dos <~ read_dos_header ; read_pe plus dos fm true) (fun a s' => P a /\ i_data s' = i_data f /\ i_strict s' = i_strict f /\ (false = true -> i_fail s' = false)) (Ex (i_data f) (i_strict f)) f).
  { pose proof Wf as (Hb & _ & Hp & _). apply dos_spec; [exact Wf|exact Hf|exact He|]. intros s Gs Ps Room Magic.
    apply read_pe_spec; try assumption; [rewrite Ps; assumption|]. intros q s' G' Ep NODEBUG HL _. pose proof G' as (Hd & Hs & Hf' & He' & _).
    assert (Es : s' = st (i_data f) (i_strict f) (i_pos s')) by (destruct s'; cbn in *; subst; reflexivity).
    pose proof HL as ((_ & _ & _ & _ & _ & _ & HD & _) & _). pose proof (directory_exists_safe q dir_debug HD ltac:(unfold dir_debug; lia)) as DS.
    destruct (debug_tail true q s') as [s2 rr] eqn:ET. unfold wp. rewrite ET. pose proof ET as ET'. unfold debug_tail, sbind, slift in ET'.
    destruct (directory_exists q dir_debug) as [ex|e|kk|] eqn:ED; try contradiction.
    - destruct ex.
      + pose proof (debug_data_spec (i_data f) (i_strict f) _ _ _ s' HL Hd Hs) as D. unfold wp in D. destruct (read_debug_data q s') as [s3 [m|e|kk|]] eqn:RD; try contradiction.
        * unfold sret in ET'. injection ET' as <- <-. destruct D as [D1 D2]. split; [exists (i_pos s'), s3, q; split; [exact NODEBUG|rewrite <- Es; exact ET]|]. split; [exact D1|]. split; [exact D2|discriminate].
        * injection ET' as <- <-. subst s3. apply G_Ex; assumption.
      + unfold sret in ET'. injection ET' as <- <-. split; [exists (i_pos s'), s', q; split; [exact NODEBUG|rewrite <- Es; exact ET]|]. split; [exact Hd|]. split; [exact Hs|discriminate].
    - injection ET' as <- <-. apply G_Ex; assumption. }
  destruct (WR H) as (_ & R & _). unfold load in E. rewrite E in R. exact (proj1 (R p eq_refl)).
Qed.
Lemma set_set m m' p : set_p_debug m (set_p_debug m' p) = set_p_debug m p. Proof. destruct p; reflexivity. Qed.
Lemma set_same p : set_p_debug (p_debug p) p = p. Proof. destruct p; reflexivity. Qed.
Definition get_with (n : positive) (p : pe) : res (list debug_info) :=
  ex <- directory_exists p dir_debug ;;
  if ex then
    rva <- get_directory_rva p dir_debug ;;
    len <- length_rva p rva rva VirtData true ;;
    throw_if (len <? sizeof_debug_directory) incorrect_debug_directory ;;;
    b <- read_rva p rva sizeof_debug_directory VirtData true ;;
    size <- get_directory_size p dir_debug ;;
    throw_if (negb (is_sum_safe rva size)) incorrect_debug_directory ;;;
    mloop n (debug_step p rva size) (rva, b, [])
  else Ok [].
Lemma get_is p : get_debug_information p = get_with big_fuel p. Proof. reflexivity. Qed.
Lemma get_loop n p l rva len b size : get_with n p = Ok l -> directory_exists p dir_debug = Ok true -> get_directory_rva p dir_debug = Ok rva -> length_rva p rva rva VirtData true = Ok len ->
  read_rva p rva sizeof_debug_directory VirtData true = Ok b -> get_directory_size p dir_debug = Ok size ->
  len <? sizeof_debug_directory = false /\ negb (is_sum_safe rva size) = false /\ nloop (Pos.to_nat n) (debug_step p rva size) (rva, b, []) = Ok (inr l).
Proof.
  intros H X1 X2 X3 X4 X5. unfold get_with in H. rewrite X1 in H. cbn [bind] in H. rewrite X2 in H. cbn [bind] in H. rewrite X3 in H. cbn [bind] in H. destruct (len <? sizeof_debug_directory); cbn [throw_if bind] in H; [discriminate H|]. split; [reflexivity|].
  rewrite X4 in H. cbn [bind] in H. rewrite X5 in H. cbn [bind] in H. destruct (negb (is_sum_safe rva size)); cbn [throw_if bind] in H; try discriminate H. split; [reflexivity|]. rewrite mloop_nloop in H. destruct (nloop _ _ _) as [[?|?]| | |]; try discriminate H. injection H as ->. reflexivity.
Qed.
Lemma get_back n p l rva len b size : directory_exists p dir_debug = Ok true -> get_directory_rva p dir_debug = Ok rva -> length_rva p rva rva VirtData true = Ok len ->
  read_rva p rva sizeof_debug_directory VirtData true = Ok b -> get_directory_size p dir_debug = Ok size ->
  len <? sizeof_debug_directory = false -> negb (is_sum_safe rva size) = false -> nloop (Pos.to_nat n) (debug_step p rva size) (rva, b, []) = Ok (inr l) -> get_with n p = Ok l.
Proof.
  intros X1 X2 X3 X4 X5 X6 X7 X8. unfold get_with. rewrite X1. cbn [bind]. rewrite X2. cbn [bind]. rewrite X3. cbn [bind]. rewrite X6. cbn [throw_if bind]. rewrite X4. cbn [bind]. rewrite X5. cbn [bind]. rewrite X7. cbn [throw_if bind]. rewrite mloop_nloop, X8. reflexivity.
Qed.
Lemma get_parts n p l : get_with n p = Ok l -> directory_exists p dir_debug = Ok true -> exists rva len b size, get_directory_rva p dir_debug = Ok rva /\ length_rva p rva rva VirtData true = Ok len /\
  read_rva p rva sizeof_debug_directory VirtData true = Ok b /\ get_directory_size p dir_debug = Ok size.
Proof.
  intros H X1. unfold get_with in H. rewrite X1 in H. cbn [bind] in H. destruct (get_directory_rva p dir_debug) as [rva| | |] eqn:X2; cbn [bind] in H; try discriminate H. destruct (length_rva p rva rva VirtData true) as [len| | |] eqn:X3; cbn [bind] in H; try discriminate H.
  destruct (throw_if _ _) as [[]| | |]; cbn [bind] in H; try discriminate H. destruct (read_rva p rva sizeof_debug_directory VirtData true) as [b| | |] eqn:X4; cbn [bind] in H; try discriminate H. destruct (get_directory_size p dir_debug) as [size| | |] eqn:X5; cbn [bind] in H; try discriminate H.
  exists rva, len, b, size. auto.
Qed.
Lemma get_none n p l : get_with n p = Ok l -> directory_exists p dir_debug = Ok true \/ directory_exists p dir_debug = Ok false /\ l = [].
Proof. unfold get_with. destruct (directory_exists p dir_debug) as [[|]| | |]; cbn [bind]; intros E; try discriminate E; [left; reflexivity|right; split; [reflexivity|injection E as <-; reflexivity]]. Qed.

Definition data_with (n : positive) (p : pe) (f : istream) : istream * res (list (Z * list Z)) :=
  match (rva <- get_directory_rva p dir_debug ;;
         len <- length_rva p rva rva VirtData true ;;
         if len <? sizeof_debug_directory then Ok None
         else
           b <- read_rva p rva sizeof_debug_directory VirtData true ;;
           size <- get_directory_size p dir_debug ;;
           Ok (Some (rva, size, b))) with
  | Ok (Some (rva, size, b)) =>
    match mloop n (debug_body p rva size) (f, rva, b, []) with
    | Ok (f1, m) => (f1, Ok m)
    | Throw e => (f, Throw e)
    | Ub k => (f, Ub k)
    | Fuel => (f, Fuel)
    end
  | Ok None => (f, Ok [])
  | Throw e => (f, Ok [])
  | Ub k => (f, Ub k)
  | Fuel => (f, Fuel)
  end.
Lemma data_loop n p f rva len b size f1 m : data_with n p f = (f1, Ok m) -> get_directory_rva p dir_debug = Ok rva -> length_rva p rva rva VirtData true = Ok len ->
  read_rva p rva sizeof_debug_directory VirtData true = Ok b -> get_directory_size p dir_debug = Ok size ->
  len <? sizeof_debug_directory = false -> nloop (Pos.to_nat n) (debug_body p rva size) (f, rva, b, []) = Ok (inr (f1, m)).
Proof.
  intros T X2 X3 X4 X5 X6. unfold data_with in T. rewrite X2 in T. cbn [bind] in T. rewrite X3 in T. cbn [bind] in T. rewrite X6, X4 in T. cbn [bind] in T. rewrite X5 in T. cbn [bind] in T. rewrite mloop_nloop in T.
  destruct (nloop _ _ _) as [[?|[f2 m2]]| | |]; try discriminate T. injection T as -> ->. reflexivity.
Qed.
Lemma loaded_raws plus fm f f' p m0 l : wf_stream f -> load plus fm true f = (f', Ok p) -> get_debug_information (set_p_debug m0 p) = Ok l -> Forall (in_range (i_data f)) l -> p_debug p = raws (i_data f) l [].
Proof.
  intros W E H F. destruct (load_tail _ _ _ _ _ W E) as (k & s2 & p0 & E0 & T). unfold debug_tail, sbind, slift in T.
  assert (Hp : exists m, p = set_p_debug m p0).
  { destruct (directory_exists p0 dir_debug) as [[|]| | |]; try discriminate T.
    - destruct (read_debug_data p0 _) as [s3 [m| | |]]; try discriminate T. injection T as _ <-. eauto.
    - injection T as _ <-. exists (p_debug p0). symmetry. apply set_same. }
  destruct Hp as [m Hp]. rewrite Hp, set_set, get_is in H. clear W E. change (read_debug_data p0) with (data_with big_fuel p0) in T. generalize dependent big_fuel. intros n H T.
  destruct (get_none _ _ _ H) as [X|[X ->]]; change (directory_exists (set_p_debug m0 p0)) with (directory_exists p0) in X; rewrite X in T.
  2: { injection T as _ <-. exact E0. }
  destruct (get_parts _ _ _ H X) as (rva & len & b & size & X2 & X3 & X4 & X5). destruct (get_loop _ _ _ _ _ _ _ H X X2 X3 X4 X5) as (X6 & _ & X7).
  change (get_directory_rva (set_p_debug m0 p0)) with (get_directory_rva p0) in X2. change (length_rva (set_p_debug m0 p0)) with (length_rva p0) in X3. change (read_rva (set_p_debug m0 p0)) with (read_rva p0) in X4. change (get_directory_size (set_p_debug m0 p0)) with (get_directory_size p0) in X5.
  destruct (collect (i_data f) (i_strict f) _ _ _ _ _ _ _ _ X7) as (l' & El & Cl & _). cbn [app] in El. subst l'.
  destruct (data_with n p0 _) as [s3 [m1| | |]] eqn:K; try discriminate T. injection T as _ Tp. rewrite <- Tp. change (p_debug (set_p_debug m1 p0)) with m1.
  pose proof (data_loop _ _ _ _ _ _ _ _ _ K X2 X3 X4 X5 X6) as K'. exact (Cl (Pos.to_nat n) k [] s3 m1 F K').
Qed.

(** ** Reading the directory of an alike image *)
Lemma alike_debug raw p r m : alike raw p r -> alike raw p (set_p_debug m r).
Proof. intros A. destruct A. constructor; assumption. Qed.
Section Read.
Context (p r : pe) (A : alike true p r) (D : dirs_ok p) (S : same_dir p r dir_debug).
Lemma keep_debug : p_debug r = p_debug p -> sub (get_debug_information p) (get_debug_information r).
Proof.
  intros Ed. destruct S as (S1 & S2 & S3). unfold get_debug_information. rewrite S1, S2, S3. apply sub_bind; [apply sub_refl|]. intros [|]; [|apply sub_refl].
  apply sub_then; [apply sub_refl|]. intros rva Hr. pose proof (rva_pos p D dir_debug rva Hr) as Hr'. apply sub_bind; [apply (sub_length true p r A); [reflexivity|exact Hr']|]. intros len. apply sub_bind; [apply sub_refl|]. intros [].
  apply sub_bind; [apply (sub_read true p r A); reflexivity|]. intros b. apply sub_bind; [apply sub_refl|]. intros size. apply sub_bind; [apply sub_refl|]. intros []. apply sub_mloop. intros [[pos e] acc]. unfold debug_step.
  destruct (negb _ && _); [|apply sub_refl]. apply sub_bind; [unfold advanced_info; rewrite Ed; apply sub_refl|]. intros a. apply sub_bind; [apply sub_refl|]. intros []. apply sub_bind; [apply (sub_read true p r A); reflexivity|]. intros e'. apply sub_refl.
Qed.
Lemma entry_ranges l : get_debug_information p = Ok l -> Forall (fun e => 0 <= d_size e /\ 0 <= d_ptr e) l.
Proof.
  rewrite get_is. generalize big_fuel as n0. intros n0 H. destruct (get_none _ _ _ H) as [X|[_ ->]]; [|constructor]. destruct (get_parts _ _ _ H X) as (rva & len & b & size & X2 & X3 & X4 & X5). destruct (get_loop _ _ _ _ _ _ _ H X X2 X3 X4 X5) as (_ & _ & X7).
  apply (read_bytes true p r A) in X4. assert (G : Forall (fun e => 0 <= d_size e /\ 0 <= d_ptr e) []) by constructor. revert X7 X4 G. generalize (@nil debug_info). generalize rva at 2. generalize (Pos.to_nat n0) as n. clear -A. intros n. revert b l.
  induction n as [|n IH]; intros b l pos acc H B G; [discriminate H|]. cbn [nloop] in H. unfold debug_step at 1 in H. destruct (negb _ && _).
  - destruct (advanced_info p b) as [a| | |]; cbn [bind] in H; try discriminate H. destruct (throw_if _ _) as [[]| | |]; cbn [bind] in H; try discriminate H. destruct (read_rva p _ sizeof_debug_directory VirtData true) as [b'| | |] eqn:Eb; cbn [bind] in H; try discriminate H.
    apply (read_bytes true p r A) in Eb. refine (IH _ _ _ _ H Eb _). apply Forall_app. split; [exact G|]. apply Forall_cons; [|constructor]. change (d_size (debug_of b a)) with (unle (slice b 16 4)). change (d_ptr (debug_of b a)) with (unle (slice b 24 4)). split; apply unle_pos, bytes_slice, B.
  - injection H as <-. exact G.
Qed.
End Read.
Lemma swap_debug p m l : get_debug_information p = Ok l -> Forall (fun e => described_type e -> map_find m (d_ptr e) = map_find (p_debug p) (d_ptr e)) l -> get_debug_information (set_p_debug m p) = Ok l.
Proof.
  rewrite (get_is p), (get_is (set_p_debug m p)). generalize big_fuel as n. intros n H F. destruct (get_none _ _ _ H) as [X|[X ->]].
  2: { change (directory_exists p dir_debug) with (directory_exists (set_p_debug m p) dir_debug) in X. unfold get_with. rewrite X. reflexivity. }
  destruct (get_parts _ _ _ H X) as (rva & len & b & size & X2 & X3 & X4 & X5). destruct (get_loop _ _ _ _ _ _ _ H X X2 X3 X4 X5) as (X6 & X7 & X8). destruct (collect [] false _ _ _ _ _ _ _ _ X8) as (l' & El & _ & Cl). cbn [app] in El. subst l'. specialize (Cl m F).
  exact (get_back n (set_p_debug m p) l rva len b size X X2 X3 X4 X5 X6 X7 Cl).
Qed.

(** ** The raw data found *)
Lemma wanted_type e : wanted e = true <-> described_type e /\ d_size e <> 0.
Proof. unfold wanted, described_type. rewrite andb_true_iff, !orb_true_iff, !Z.eqb_eq, negb_true_iff, Z.eqb_neq. tauto. Qed.
Lemma raws_same d1 d2 l m : Forall (fun e => wanted e = true -> slice d1 (d_ptr e) (d_size e) = slice d2 (d_ptr e) (d_size e)) l -> raws d1 l m = raws d2 l m.
Proof. revert m. induction l as [|e l IH]; intros m F; [reflexivity|]. apply Forall_cons_iff in F as [F1 F2]. cbn [raws]. destruct (wanted e); [rewrite F1 by reflexivity|]; apply IH, F2. Qed.
Lemma raws_find P data l : Forall (fun e => wanted e = true -> map_find P (d_ptr e) = Some (slice data (d_ptr e) (d_size e))) l -> forall m, Forall (fun kv => map_find P (fst kv) = Some (snd kv)) m ->
  Forall (fun kv => map_find P (fst kv) = Some (snd kv)) (raws data l m) /\ (forall k, In k (map fst m) -> In k (map fst (raws data l m))) /\ Forall (fun e => wanted e = true -> In (d_ptr e) (map fst (raws data l m))) l.
Proof.
  induction l as [|e l IH]; intros F m M; cbn [raws]; [split; [exact M|]; split; [auto|constructor]|]. apply Forall_cons_iff in F as [F1 F2].
  destruct (wanted e) eqn:We.
  - assert (Fm : Forall (fun kv => map_find P (fst kv) = Some (snd kv)) (map_insert m (d_ptr e) (slice data (d_ptr e) (d_size e)))).
    { unfold map_insert. destruct (existsb _ m); [exact M|]. apply Forall_app. split; [exact M|]. apply Forall_cons; [exact (F1 eq_refl)|constructor]. }
    assert (K1 : forall k, In k (map fst m) -> In k (map fst (map_insert m (d_ptr e) (slice data (d_ptr e) (d_size e))))).
    { intros k Hk. unfold map_insert. destruct (existsb _ m); [exact Hk|]. rewrite map_app. apply in_or_app. left. exact Hk. }
    assert (K2 : In (d_ptr e) (map fst (map_insert m (d_ptr e) (slice data (d_ptr e) (d_size e))))).
    { unfold map_insert. destruct (existsb _ m) eqn:X; [|rewrite map_app; apply in_or_app; right; left; reflexivity]. apply existsb_exists in X as (kv & X1 & X2). apply Z.eqb_eq in X2. rewrite <- X2. apply in_map. exact X1. }
    destruct (IH F2 _ Fm) as (I1 & I2 & I3). split; [exact I1|]. split; [intros k Hk; apply I2, K1, Hk|]. apply Forall_cons; [intros _; apply I2, K2|exact I3].
  - destruct (IH F2 _ M) as (I1 & I2 & I3). split; [exact I1|]. split; [exact I2|]. apply Forall_cons; [intros X; congruence|exact I3].
Qed.
Lemma find_in m k : In k (map fst m) -> exists d, map_find m k = Some d /\ In (k, d) m.
Proof.
  unfold map_find. induction m as [|[k' d'] m IH]; intros H; [destruct H|]. cbn [find fst]. destruct (Z.eqb_spec k' k) as [->|N]; [exists d'; split; [reflexivity|left; reflexivity]|].
  destruct H as [H|H]; [cbn [fst] in H; contradiction|]. destruct (IH H) as (d & X & Y). exists d. split; [exact X|right; exact Y].
Qed.
Lemma stands_slice out off d : stands out off d -> slice out off (zlen d) = d /\ 0 <= off /\ off + zlen d <= zlen out.
Proof. intros (a & b & -> & <-). split; [|rewrite !zlen_app; pose proof (zlen_nonneg a); pose proof (zlen_nonneg b); lia]. rewrite slice_app_r by lia. replace (zlen a - zlen a) with 0 by lia. rewrite slice_app_l by (pose proof (zlen_nonneg d); lia). apply slice_all. lia. Qed.

(** ** Writing and opening *)
Section Written.
Context (p : pe) (strip chg save : bool) (q : pe) (out : list Z) (C : consistent p) (U : unmapped p) (N : 0 < nrva p).
Context (T : data_start strip save p + data_total (falign p) (p_sections p) < 2^32) (NS : no_stale_pointers (data_start strip save p) p) (E : rebuild_pe p strip chg save = Ok (q, out)).
Lemma written_places : Forall2 same_but_place (p_sections p) (p_sections q) /\ zlen out < 2^32 /\
  forall i s, nth_error (p_sections q) i = Some s -> s_rawsize s <> 0 -> (falign p | s_rawptr s) /\ s_rawptr s + s_rawsize s <= zlen out /\ slice out (s_rawptr s) (s_rawsize s) = ztake (s_rawsize s) (raw_view s).
Proof.
  pose proof (consistent_range p C) as RR.
  assert (power_of_two (falign p) /\ falign p < 2^32) as [P Lf].
  { destruct C as (_ & _ & _ & _ & _ & _ & (A1 & A2 & A3 & A4 & _) & _). unfold falign, salign in *. split; [assumption|lia]. }
  destruct (rebuild_places p strip chg save q out RR P Lf T NS E) as (F & B & PL & _). split; [exact F|]. split; [lia|]. intros i s Hi Hs. destruct (PL i s Hi Hs) as (P1 & _ & P2 & P3). auto.
Qed.
Lemma written_stream strict : wf_stream (open_stream strict out).
Proof. apply wf_open; [exact (rebuilt_bytes p strip chg save q out C E)|destruct written_places as (_ & B & _); lia]. Qed.
Section Opened.
Context (r : pe) (O : opened_with_debug out r) (l : list debug_info) (G : get_debug_information (sections_only p) = Ok l).
Lemma opened_alike : alike true (sections_only p) r /\ same_dir (sections_only p) r dir_debug.
Proof.
  destruct O as (strict & f & F). assert (H : loaded_from out r) by (exists strict, true, f; exact F). destruct (written_facts p strip chg save q out C T NS E r H) as (R & Ur & Fr & Ck).
  split; [exact (alike_reloaded p r strip chg save C U R Ur Fr Ck)|]. apply (same_dir_reloaded p r strip chg save C R dir_debug N); [unfold dir_debug; lia|reflexivity].
Qed.
Lemma opened_entries : get_debug_information (set_p_debug (p_debug p) r) = Ok l.
Proof.
  destruct opened_alike as (A & S). assert (D : dirs_ok p) by (destruct C as (W & _); unfold image_wf in W; tauto).
  exact (keep_debug (sections_only p) (set_p_debug (p_debug p) r) (alike_debug _ _ _ _ A) D S eq_refl l G).
Qed.
Lemma opened_raws : Forall (in_range out) l -> p_debug r = raws out l [].
Proof.
  intros F. destruct O as (strict & f & H). pose proof (written_stream strict) as W. destruct (factory_step false true _ W) as [(plus & _ & X)|(e & f2 & _ & X)]; rewrite X in H; [|discriminate H].
  exact (loaded_raws plus false _ f r (p_debug p) l W H opened_entries F).
Qed.
Theorem debug_written : Forall (raw_stored p out) l -> get_debug_information r = Ok l.
Proof.
  intros F. assert (K : Forall (fun e => wanted e = true -> map_find (p_debug p) (d_ptr e) = Some (slice out (d_ptr e) (d_size e)) /\ 0 <= d_ptr e /\ 0 <= d_size e /\ d_ptr e + d_size e <= zlen out) l).
  { eapply Forall_impl; [|exact F]. intros e He We. apply wanted_type in We as [We _]. destruct (He We) as (_ & d & R & L & S). apply stands_slice in S as (S1 & S2 & S3). rewrite <- L, S1. split; [apply raw_data_find, R|]. pose proof (zlen_nonneg d). lia. }
  assert (Er : p_debug r = raws out l []) by (apply opened_raws; eapply Forall_impl; [|exact K]; intros e He We; exact (proj2 (He We))).
  destruct (raws_find (p_debug p) out l) with (m := @nil (Z * list Z)) as (I1 & _ & I3); [eapply Forall_impl; [|exact K]; intros e He We; exact (proj1 (He We))|constructor|]. rewrite <- Er in I1, I3.
  rewrite <- (set_same r). rewrite <- (set_set (p_debug r) (p_debug p) r). apply swap_debug; [exact opened_entries|]. change (p_debug (set_p_debug (p_debug p) r)) with (p_debug p).
  rewrite Forall_forall in F, I1, I3 |- *. intros e He Te. assert (We : wanted e = true) by (apply wanted_type; split; [exact Te|exact (proj1 (F e He Te))]).
  destruct (find_in _ _ (I3 e He We)) as (d & D1 & D2). rewrite D1. symmetry. exact (I1 _ D2).
Qed.
(** The file that the image was read from. *)
Context (f f' : istream) (Wf : wf_stream f) (L : factory_create false true f = (f', Ok p)) (M : map s_rawptr (p_sections q) = map s_rawptr (p_sections p)).
Lemma same_place s : In s (p_sections p) -> s_rawsize s <> 0 -> slice out (s_rawptr s) (s_rawsize s) = raw_view s /\ slice (i_data f) (s_rawptr s) (s_rawsize s) = raw_view s /\ zlen (raw_view s) = s_rawsize s /\ s_rawptr s + s_rawsize s <= zlen out /\ 0 <= s_rawptr s.
Proof.
  intros Hs Nz. destruct (In_nth_error _ _ Hs) as [i Hi]. destruct (factory_ok _ _ _ _ _ Wf L) as (Wp & Fr & _). destruct Fr as (_ & _ & _ & _ & _ & _ & _ & S & _). destruct (S i s Hi) as (_ & _ & _ & _ & _ & _ & _ & _ & _ & _ & So & S1 & S2 & S3).
  destruct written_places as (F & _ & PL). assert (Pq : exists t, nth_error (p_sections q) i = Some t /\ same_but_place s t).
  { clear -F Hi. revert i Hi. induction F as [|a b la lb H F IH]; intros [|i] Hi; cbn [nth_error] in *; try discriminate Hi; [injection Hi as ->; eauto|apply IH, Hi]. }
  destruct Pq as (t & Ht & Sm). assert (Rp : s_rawptr t = s_rawptr s).
  { pose proof (f_equal (fun x => nth_error x i) M) as Mi. cbn beta in Mi. rewrite !nth_error_map, Ht, Hi in Mi. cbn [option_map] in Mi. congruence. }
  assert (t = s). { unfold same_but_place in Sm. destruct s, t. cbn in Sm, Rp. injection Sm. intros. subst. reflexivity. } subst t.
  destruct (PL i s Ht Nz) as (P1 & P2 & P3). rewrite raw_view_unmapped in * by exact So. split; [rewrite P3; apply ztake_all; lia|]. split; [|split; [exact S2|split; [exact P2|]]].
  - rewrite S3. f_equal. unfold floor_mult. fold (falign p). destruct P1 as [c Pc]. rewrite Pc. destruct (Z.eq_dec (falign p) 0) as [Z0|Z0]; [rewrite Z0; lia|]. rewrite Z.div_mul by exact Z0. ring.
  - assert (Ws : wf_section s) by (unfold image_wf in Wp; decompose [and] Wp; rewrite Forall_forall in *; auto). destruct (wf_ranges s Ws) as (H1 & H2 & H3 & H4). unfold is_u32 in *. lia.
Qed.
Theorem debug_unmoved : Forall (in_section_data p) l -> get_debug_information r = Ok l.
Proof.
  intros F. destruct opened_alike as (A & S). pose proof (entry_ranges (sections_only p) r A l G) as NN.
  assert (K : Forall (fun e => wanted e = true -> slice (i_data f) (d_ptr e) (d_size e) = slice out (d_ptr e) (d_size e) /\ 0 <= d_ptr e /\ 0 <= d_size e /\ d_ptr e + d_size e <= zlen out /\ d_ptr e + d_size e <= zlen (i_data f)) l).
  { rewrite Forall_forall in F, NN |- *. intros e He We. apply wanted_type in We as [Te Nz]. destruct (NN e He) as (N1 & N2). destruct (F e He Te Nz) as (s & Hs & I1 & I2).
    assert (Rz : s_rawsize s <> 0). { destruct C as (_ & _ & _ & _ & _ & _ & _ & _ & _ & Sl). rewrite Forall_forall in Sl. destruct (Sl s Hs) as (_ & -> & _). lia. }
    destruct (same_place s Hs Rz) as (Q1 & Q2 & Q3 & Q4 & Q5).
    assert (Lf : s_rawptr s + s_rawsize s <= zlen (i_data f)). { assert (X : zlen (slice (i_data f) (s_rawptr s) (s_rawsize s)) = s_rawsize s) by (rewrite Q2; exact Q3). unfold zlen, slice in X |- *. rewrite firstn_length, skipn_length in X. clear -X Q3 Q5 Rz. pose proof (zlen_nonneg (raw_view s)). lia. }
    split; [|lia]. replace (d_ptr e) with (s_rawptr s + (d_ptr e - s_rawptr s)) by lia. rewrite <- (slice_slice (i_data f) _ (s_rawsize s)), <- (slice_slice out _ (s_rawsize s)) by lia. rewrite Q1, Q2. reflexivity. }
  assert (Er : p_debug r = raws out l []) by (apply opened_raws; eapply Forall_impl; [|exact K]; intros e He We; destruct (He We) as (_ & ? & ? & ? & _); auto).
  assert (Ep : p_debug p = raws (i_data f) l []).
  { destruct (factory_step false true f Wf) as [(plus & _ & X)|(e & f2 & _ & X)]; rewrite X in L; [|discriminate L]. apply (loaded_raws plus false f f' p (p_debug p) l Wf L).
    - rewrite set_same. destruct (load_ok _ _ _ _ _ _ Wf L) as (_ & Wp & Fr & Ck).
      assert (HB : headers_below p).
      { unfold headers_below. destruct C as (W & _ & _ & _ & _ & _ & Al & Hn & (start & H1 & _ & Ch & _) & _). destruct Al as (PS & _). pose proof (pow2_pos _ PS) as Pos. assert (Ws : Forall wf_section (p_sections p)) by (unfold image_wf in W; tauto).
        eapply Forall_impl; [|exact (chain_low (salign p) start _ Pos Ws Ch)]. intros s Hs. cbn beta in Hs. pose proof (load_full _ _ _ _ _ _ Wf L) as Lf. pose proof (full_le (p_nt p) (zlen (i_data f)) (p_sections p)) as Fl. unfold hdrsize in H1. lia. }
      refine (keep_debug (sections_only p) p (alike_self p Wp HB) _ (same_dir_refl p _) eq_refl l G). unfold image_wf in Wp. change (dirs_ok p). tauto.
    - eapply Forall_impl; [|exact K]. intros e He We. destruct (He We) as (_ & ? & ? & _ & ?). auto. }
  assert (Q : p_debug r = p_debug p) by (rewrite Er, Ep; symmetry; apply raws_same; eapply Forall_impl; [|exact K]; intros e He We; exact (proj1 (He We))).
  rewrite <- (set_same r), Q. exact opened_entries.
Qed.
End Opened.
End Written.
