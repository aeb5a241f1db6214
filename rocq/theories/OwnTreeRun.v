(** Programs with resource directory entries (C71). *)
From Verif Require Export OwnTreePush.
Require Import Permutation.

Lemma ownl_uncons h e l vs fp : ownl h (e :: l) vs fp -> exists v vs' f fp', vs = v :: vs' /\ fp = f ++ fp' /\ owns h e v f /\ ownl h l vs' fp'.
Proof. intros O. inversion O; subst. eexists _, _, _, _. repeat (split; [reflexivity|]). split; assumption. Qed.
Lemma ownl_remove h l : forall vs fp, ownl h l vs fp -> forall i e, nth_error l i = Some e ->
  exists v f fe g, nth_error vs i = Some v /\ fp = f ++ fe ++ g /\ owns h e v fe /\ ownl h (firstn i l ++ skipn (S i) l) (firstn i vs ++ skipn (S i) vs) (f ++ g).
Proof.
  induction l as [|x l IH]; intros vs fp O i e E; [destruct i; discriminate|]. destruct (ownl_uncons _ _ _ _ _ O) as (v & vs0 & f & fp0 & -> & -> & Ox & Ol). destruct i as [|i]; cbn [nth_error] in E.
  - injection E as ->. exists v, [], f, fp0. repeat (split; [auto|]). exact Ol.
  - destruct (IH _ _ Ol i e E) as (w & f1 & fe & g & Ew & -> & Oe & Or). exists w, (f ++ f1), fe, g. split; [exact Ew|]. split; [rewrite <- app_assoc; reflexivity|]. split; [exact Oe|].
    cbn [firstn]. change (skipn (S (S i)) (x :: l)) with (skipn (S i) l). change (skipn (S (S i)) (v :: vs0)) with (skipn (S i) vs0). cbn [app]. rewrite <- app_assoc. constructor; assumption.
Qed.
Lemma ownl_length h l : forall vs fp, ownl h l vs fp -> length l = length vs.
Proof. induction l as [|x l IH]; intros vs fp O; [inversion O; reflexivity|]. destruct (ownl_uncons _ _ _ _ _ O) as (v & vs0 & f & fp0 & -> & -> & Ox & Ol). cbn [length]. f_equal. apply (IH _ _ Ol). Qed.
Lemma ownl_snoc h l : forall e vs fp, ownl h (l ++ [e]) vs fp -> exists vs' v f fe, vs = vs' ++ [v] /\ fp = f ++ fe /\ owns h e v fe /\ ownl h l vs' f.
Proof.
  induction l as [|x l IH]; intros e vs fp O; cbn [app] in O; destruct (ownl_uncons _ _ _ _ _ O) as (v & vs0 & f & fp0 & -> & -> & Ox & Ol).
  - inversion Ol; subst. exists [], v, [], f. rewrite app_nil_r. repeat (split; [auto|]). constructor.
  - destruct (IH _ _ _ Ol) as (vs' & w & f1 & fe & -> & -> & Oe & Of). exists (v :: vs'), w, (f ++ f1), fe. split; [reflexivity|]. split; [apply app_assoc|]. split; [exact Oe|]. constructor; assumption.
Qed.

Lemma pop_step h vs t id name named info nn ni vl c k lc fp0 ctx a b l fl : inv h vs -> focused h vs t (RV id name false named (DirOf info nn ni vl)) c k lc (mk_rent id name false named a) fp0 ctx ->
  a <> 0 -> block h a = Some (CDir info nn ni b) -> b <> 0 -> block h b = Some (CBuf l) -> ownl h l vl fl -> fp0 = a :: b :: fl -> forall last front, rev l = last :: front ->
  exists h1, release (levels h) h last = Some h1 /\ inv (set_block h1 b (CBuf (rev front))) (put vs t (RV id name false named (DirOf info nn ni (removelast vl)))) /\ vl <> [].
Proof.
  intros I F Na Ea Nb Eb Ol -> last front Er. assert (El : l = rev front ++ [last]) by (rewrite <- (rev_involutive l), Er; reflexivity). subst l.
  destruct (focused_nodup _ _ _ _ _ _ _ _ _ _ I F) as (D0 & N0 & Nc & Nx). apply NoDup_cons_iff in D0 as [Nab D0]. apply NoDup_cons_iff in D0 as [Nbf D0].
  destruct (ownl_snoc _ _ _ _ _ Ol) as (vl' & v & f & fe & -> & -> & Oe & Of). apply nodup_app in D0 as (Df & De & Nfe). rewrite (release_owns _ _ _ _ Oe De). eexists. split; [reflexivity|]. split; [|destruct vl'; discriminate]. rewrite removelast_last.
  pose proof F as (L & Ec & Ek & O0 & P & _). assert (Nbe : ~ In b fe) by (intros Q; apply Nbf, in_or_app; right; exact Q). assert (Nae : ~ In a fe) by (intros Q; apply Nab; right; apply in_or_app; right; exact Q).
  assert (Nab' : a <> b) by (intros ->; apply Nab; left; reflexivity).
  assert (Eb1 : block (set_block (without fe h) b (CBuf (rev front))) b = Some (CBuf (rev front))) by (eapply block_set_same; rewrite block_without by exact Nbe; exact Eb).
  assert (Old : forall x, ~ In x fe -> x <> b -> block (set_block (without fe h) b (CBuf (rev front))) x = block h x) by (intros x Q1 Q2; rewrite block_set_other by exact Q2; apply block_without, Q1).
  eapply (same_entry h vs t _ c k lc _ _ ctx _ _ (a :: b :: f) F).
  - intros x Ix. apply Old; intros Q.
    + assert (In x (a :: b :: f ++ fe)) by (right; right; apply in_or_app; right; exact Q). destruct Ix as [<-|Ix]; [contradiction|apply (Nx x Ix); assumption].
    + subst x. destruct Ix as [->|Ix]; [apply N0; right; left; reflexivity|apply (Nx b Ix); right; left; reflexivity].
  - eapply own_dir; [exact Na|exact Nb|rewrite Old by assumption; exact Ea|exact Eb1|]. apply (ownl_agree h); [exact Of|]. intros x Ix. apply Old; [apply Nfe, Ix|]. intros ->. apply Nbf, in_or_app. left. exact Ix.
  - rewrite keys_set. apply nodup_without, (nodup_keys _ _ I).
  - rewrite keys_set. apply perm_without; [apply (nodup_keys _ _ I)|]. etransitivity; [exact P|]. cbn [app]. rewrite <- app_assoc. reflexivity.
Qed.

Theorem step_correct h vs op : inv h vs -> rplain op -> correct vs op (rstep h op).
Proof.
  intros I Pl. pose proof I as (vars & fp & Ev & Ol & D & P). unfold rstep. rewrite Ev. pose proof (Permutation_NoDup P D) as D'. apply NoDup_cons_iff in D' as [Nv Dfp].
  destruct op as [|s news|i|t s news|t name|t id|t cp d news|t s news|t info news|t s news|t s grow news|t|s].
  - (* ONew *) exists false, (vs ++ [RV 0 [] false false NoContent]). split; [reflexivity|]. exists (vars ++ [mk_rent 0 [] false false 0]), (fp ++ []). split; [eapply block_set_same; exact Ev|]. split.
    { apply (ownl_agree h); [apply ownl_app; [exact Ol|apply ownl_one; constructor]|]. intros x Ix. rewrite app_nil_r in Ix. apply block_set_other. intros ->. contradiction. }
    rewrite keys_set, app_nil_r. split; assumption.
  - (* OCopy *) unfold with_entry. pose proof (top h vs s I) as T. unfold correct, rvstep, on_value. destruct (value_at vs (fst s) (snd s)) as [w| |] eqn:Ew; [|rewrite T; exists false, vs; auto|rewrite T; exact Logic.I].
    destruct T as (c & k & lc & e0 & fp0 & ctx & F). destruct (focused_nodup _ _ _ _ _ _ _ _ _ _ I F) as (D0 & _). destruct F as (L & _ & _ & O0 & _). rewrite L.
    pose proof (copy_owns h e0 w fp0 news O0 D0) as C. destruct (copy_entry (levels h) h news e0) as [h1 news' e'|h1| |]; try exact C; [|cbn [copied] in C; subst h1; exists true, vs; auto].
    destruct C as (hn & fe & -> & An & On). exists false, (vs ++ [w]). split; [reflexivity|]. pose proof An as (Pn & Dn & Fn). pose proof (block_key _ _ _ Ev) as Kv.
    assert (Nn : ~ In vars_at (keys hn)) by (intros Q; apply (Fn _ Q), Kv).
    exists (vars ++ [e']), (fp ++ fe). split; [|split; [|split]].
    + eapply block_set_same. rewrite (added_agree _ _ _ [vars_at] An); [exact Ev|intros y [<-|[]]; exact Kv|left; reflexivity].
    + apply ownl_app.
      * apply (ownl_agree h); [exact Ol|]. intros x Ix. rewrite block_set_other by (intros ->; contradiction). apply (added_agree _ _ _ fp An); [|exact Ix]. intros y Iy. apply (ownl_live _ _ _ _ _ Ol Iy).
      * apply ownl_one. apply (owns_agree hn); [exact On|]. intros x Ix. assert (Kx : In x (keys hn)) by (apply (Permutation_in _ Pn), Ix). rewrite block_set_other by (intros ->; contradiction). apply (added_owned _ _ _ An), Ix.
    + rewrite keys_set, keys_app. apply nodup_app. split; [exact Dn|]. split; [exact D|]. intros x Kx. apply Fn, Kx.
    + rewrite keys_set, keys_app. etransitivity; [apply Permutation_app; [symmetry; exact Pn|exact P]|]. etransitivity; [apply Permutation_app_comm|]. reflexivity.
  - (* ODestroy *) unfold correct, rvstep. destruct (nth_error vars i) as [e|] eqn:Ei; [|exact Logic.I]. destruct (ownl_remove _ _ _ _ Ol _ _ Ei) as (v & f & fe & g & -> & -> & Oe & Or).
    apply nodup_app in Dfp as (Df & Dfg & Nf). apply nodup_app in Dfg as (De & Dg & Ng). rewrite (release_owns _ _ _ _ Oe De). exists false. eexists. split; [reflexivity|].
    assert (Nve : ~ In vars_at fe) by (intros Q; apply Nv, in_or_app; right; apply in_or_app; left; exact Q).
    exists (firstn i vars ++ skipn (S i) vars), (f ++ g). split; [eapply block_set_same; rewrite block_without by exact Nve; exact Ev|]. split.
    { apply (ownl_agree h); [exact Or|]. intros x Ix. rewrite block_set_other; [apply block_without; intros Q|intros ->; apply Nv; apply in_app_or in Ix as [Ix|Ix]; apply in_or_app; [left; exact Ix|right; apply in_or_app; right; exact Ix]].
      apply in_app_or in Ix as [Ix|Ix]; [apply (Nf x Ix), in_or_app; left; exact Q|apply (Ng x Q Ix)]. }
    rewrite keys_set. split; [apply nodup_without, D|]. apply perm_without; [exact D|]. etransitivity; [exact P|]. cbn [app]. apply perm_skip. rewrite <- app_assoc. apply Permutation_app_head, Permutation_app_comm.
  - (* OAssign *) apply assign_correct; assumption.
  - (* OSetName *) unfold with_entry. pose proof (top h vs t I) as T. unfold correct, rvstep, on_value. destruct (value_at vs (fst t) (snd t)) as [w| |] eqn:Ew; [|rewrite T; exists false, vs; auto|rewrite T; exact Logic.I].
    destruct T as (c & k & lc & e0 & fp0 & ctx & F). pose proof F as (L & _ & _ & O0 & _). rewrite L. pose proof (owns_refield _ _ _ _ 0 name true O0) as O1. destruct w as [wid wname wincl wnamed wc]. destruct O1 as [O1 <-].
    destruct (fields_step _ _ _ _ _ _ _ _ _ _ _ _ I F O1) as (h1 & E1 & I1 & _). rewrite E1. exists false. eexists. split; [reflexivity|exact I1].
  - (* OSetId *) unfold with_entry. pose proof (top h vs t I) as T. unfold correct, rvstep, on_value. destruct (value_at vs (fst t) (snd t)) as [w| |] eqn:Ew; [|rewrite T; exists false, vs; auto|rewrite T; exact Logic.I].
    destruct T as (c & k & lc & e0 & fp0 & ctx & F). pose proof F as (L & _ & _ & O0 & _). rewrite L. pose proof (owns_refield _ _ _ _ id [] false O0) as O1. destruct w as [wid wname wincl wnamed wc]. destruct O1 as [O1 <-].
    destruct (fields_step _ _ _ _ _ _ _ _ _ _ _ _ I F O1) as (h1 & E1 & I1 & _). rewrite E1. exists false. eexists. split; [reflexivity|exact I1].
  - (* OAddData *) unfold with_entry. pose proof (top h vs t I) as T. unfold correct, rvstep, on_value. destruct (value_at vs (fst t) (snd t)) as [w| |] eqn:Ew; [|rewrite T; exists false, vs; auto|rewrite T; exact Logic.I].
    destruct T as (c & k & lc & e0 & fp0 & ctx & F). pose proof F as (L & _). rewrite L. apply (add_new_correct h vs t w (c, k) e0 _ (DataOf cp d) true news I Ew L).
    intros a id name named Na. constructor; [exact Na|]. rewrite block_cons, Z.eqb_refl. reflexivity.
  - (* OAddDataOf *) unfold with_entry. pose proof (top h vs t I) as T. unfold correct, rvstep, on_value. destruct (value_at vs (fst t) (snd t)) as [v| |] eqn:Et; [|rewrite T; exists false, vs; auto|rewrite T; exact Logic.I].
    destruct T as (c & k & lc & e0 & fp0 & ctx & F). pose proof F as (L & _). rewrite L. pose proof (top h vs s I) as Ts. destruct (value_at vs (fst s) (snd s)) as [w| |] eqn:Ew; [|rewrite Ts; exists false, vs; auto|rewrite Ts; exact Logic.I].
    destruct Ts as (cs & ks & ls & es & fps & ctxs & Fs). pose proof Fs as (Ls & _ & _ & Os & _). rewrite Ls. cbn [rplain] in Pl.
    pose proof (add_object_correct h vs t s v w (c, k) e0 (cs, ks) es true news I Pl Et Ew L Ls) as A. inversion Os; subst; cbn [e_ptr e_incl content_of] in *.
    + exists false, vs. auto.
    + replace (a =? 0) with false by lia. cbn [orb negb]. apply A; [reflexivity|assumption].
    + rewrite orb_true_r. exists false, vs. auto.
    + rewrite orb_true_r. exists false, vs. auto.
  - (* OAddDir *) unfold with_entry. pose proof (top h vs t I) as T. unfold correct, rvstep, on_value. destruct (value_at vs (fst t) (snd t)) as [w| |] eqn:Ew; [|rewrite T; exists false, vs; auto|rewrite T; exact Logic.I].
    destruct T as (c & k & lc & e0 & fp0 & ctx & F). pose proof F as (L & _). rewrite L. apply (add_new_correct h vs t w (c, k) e0 _ (DirOf info 0 0 []) false news I Ew L).
    intros a id name named Na. apply own_dir0; [exact Na|]. rewrite block_cons, Z.eqb_refl. reflexivity.
  - (* OAddDirOf *) unfold with_entry. pose proof (top h vs t I) as T. unfold correct, rvstep, on_value. destruct (value_at vs (fst t) (snd t)) as [v| |] eqn:Et; [|rewrite T; exists false, vs; auto|rewrite T; exact Logic.I].
    destruct T as (c & k & lc & e0 & fp0 & ctx & F). pose proof F as (L & _). rewrite L. pose proof (top h vs s I) as Ts. destruct (value_at vs (fst s) (snd s)) as [w| |] eqn:Ew; [|rewrite Ts; exists false, vs; auto|rewrite Ts; exact Logic.I].
    destruct Ts as (cs & ks & ls & es & fps & ctxs & Fs). pose proof Fs as (Ls & _ & _ & Os & _). rewrite Ls. cbn [rplain] in Pl.
    pose proof (add_object_correct h vs t s v w (c, k) e0 (cs, ks) es false news I Pl Et Ew L Ls) as A. inversion Os; subst; cbn [e_ptr e_incl content_of] in *.
    + exists false, vs. auto.
    + rewrite orb_true_r. exists false, vs. auto.
    + replace (a =? 0) with false by lia. cbn [orb]. apply A; [reflexivity|assumption].
    + replace (a =? 0) with false by lia. cbn [orb]. apply A; [reflexivity|assumption].
  - (* OPush *) unfold with_entry. pose proof (top h vs t I) as T. unfold correct, rvstep, on_value. destruct (value_at vs (fst t) (snd t)) as [v| |] eqn:Et; [|rewrite T; exists false, vs; auto|rewrite T; exact Logic.I].
    destruct T as (c & k & lc & e0 & fp0 & ctx & F). pose proof F as (L & _ & _ & O0 & _). rewrite L. destruct (entry_at h s) as [[cs ks] es| | |] eqn:Es; pose proof (top h vs s I) as Ts; destruct (value_at vs (fst s) (snd s)) as [w| |] eqn:Ew; rewrite Es in Ts || (destruct Ts as (? & ? & ? & ? & ? & ? & Fs); destruct Fs as (Ls & _); rewrite Es in Ls); try discriminate; try (exists false, vs; auto; fail); try exact Logic.I.
    destruct (source _ _ _ _ _ I Es) as (w' & fs & Ew' & Os & Ds & Gs). rewrite Ew in Ew'. injection Ew' as <-. pose proof (owned_dir _ _ _ _ O0) as Od. cbn [rplain] in Pl.
    destruct v as [id name incl named [|cp d|info nn ni vl]]; try (rewrite Od; exists false, vs; auto; fail).
    destruct Od as (a & b & l & fl & -> & -> & Na & Ea & El & Oll & Efp & Z0 & Z1). cbn [e_ptr e_incl]. replace (a =? 0) with false by lia. cbn [orb].
    destruct grow.
    + apply (push_grow h vs t id name named info nn ni vl c k lc fp0 ctx a b l fl s cs ks es w fs news); try assumption. apply Pl. reflexivity.
    + destruct (Z.eq_dec b 0) as [->|Nb]; [unfold push; rewrite Ea, Gs, El; exact Logic.I|].
      apply (push_room h vs t id name named info nn ni vl c k lc fp0 ctx a b l fl s cs ks es w fs news); try assumption; [apply Z1, Nb|]. rewrite Efp. unfold stored. replace (b =? 0) with false by lia. reflexivity.
  - (* OPop *) unfold with_entry. pose proof (top h vs t I) as T. unfold correct, rvstep, on_value. destruct (value_at vs (fst t) (snd t)) as [v| |] eqn:Et; [|rewrite T; exists false, vs; auto|rewrite T; exact Logic.I].
    destruct T as (c & k & lc & e0 & fp0 & ctx & F). pose proof F as (L & _ & _ & O0 & _). rewrite L. pose proof (owned_dir _ _ _ _ O0) as Od.
    destruct v as [id name incl named [|cp d|info nn ni vl]]; try (rewrite Od; exists false, vs; auto; fail).
    destruct Od as (a & b & l & fl & -> & -> & Na & Ea & El & Oll & Efp & Z0 & Z1). cbn [e_ptr e_incl]. replace (a =? 0) with false by lia. cbn [orb]. rewrite Ea, El. destruct (rev l) as [|last front] eqn:Er; [exact Logic.I|].
    destruct (Z.eq_dec b 0) as [->|Nb]; [destruct (Z0 eq_refl) as (-> & _); discriminate|].
    destruct (pop_step h vs t id name named info nn ni vl c k lc fp0 ctx a b l fl I F Na Ea Nb (Z1 Nb) Oll) with (last := last) (front := front) as (h1 & E1 & I1 & Ne); [rewrite Efp; unfold stored; replace (b =? 0) with false by lia; reflexivity|exact Er|].
    rewrite E1. exists false. eexists. split; [destruct vl; [contradiction Ne; reflexivity|reflexivity]|exact I1].
  - (* OGet *) unfold with_entry. pose proof (top h vs s I) as T. unfold correct, rvstep, on_value. destruct (value_at vs (fst s) (snd s)) as [w| |] eqn:Ew; [|rewrite T; exists false, vs; auto|rewrite T; exact Logic.I].
    destruct T as (c & k & lc & e0 & fp0 & ctx & F). destruct F as (L & _ & _ & O0 & _). rewrite L. unfold look_inside. inversion O0; subst; cbn [e_ptr e_incl e_id e_name e_named shown].
    + exists false, vs. auto.
    + replace (a =? 0) with false by lia. rewrite H0. exists false, vs. auto.
    + replace (a =? 0) with false by lia. rewrite H0. exists false, vs. auto.
    + replace (a =? 0) with false by lia. rewrite H1. unfold elements. replace (b =? 0) with false by lia. rewrite H2. exists false, vs. split; [|exact I]. unfold zlen. rewrite (ownl_length _ _ _ _ H3). reflexivity.
Qed.

Lemma run_correct ops : Forall rplain ops -> forall h vs, inv h vs ->
  match rrun h ops with Done h' os => exists vs', rvrun vs ops vs' os /\ inv h' vs' | Bug => False | Outside => True end.
Proof.
  intros F. induction F as [|op ops Pl F IH]; intros h vs I; cbn [rrun].
  - exists vs. split; [constructor|exact I].
  - pose proof (step_correct h vs op I Pl) as S. unfold correct in S. destruct (rstep h op) as [h1 o| |]; try exact S. destruct S as (full & vs1 & Es & I1). pose proof (IH h1 vs1 I1) as R. destruct (rrun h1 ops) as [h2 os| |]; try exact R.
    destruct R as (vs2 & Rv & I2). exists vs2. split; [econstructor; eassumption|exact I2].
Qed.
Lemma inv_start : inv rstart [].
Proof. exists [], []. split; [reflexivity|]. split; [constructor|]. split; [constructor; [intros []|constructor]|reflexivity]. Qed.

Lemma owned_blocks h : (forall e v fp, owns h e v fp -> zlen fp <= blocks_of v) /\ (forall l vs fp, ownl h l vs fp -> zlen fp <= total_blocks vs).
Proof.
  apply own_mind; unfold zlen.
  - intros. cbn. lia.
  - intros. cbn. lia.
  - intros. cbn. lia.
  - intros id name named a info nn ni b l vs fp _ _ _ _ _ IH. cbn [blocks_of length]. fold (total_blocks vs). lia.
  - cbn. lia.
  - intros e v f l vs fp _ IH1 _ IH2. rewrite app_length. cbn [total_blocks fold_right]. fold (total_blocks vs). lia.
Qed.
Lemma inv_memory h vs : inv h vs -> zlen h <= 1 + total_blocks vs.
Proof.
  intros (l & fp & E & O & D & P). apply Permutation_length in P. cbn [length] in P. unfold keys in P. rewrite map_length in P. pose proof (proj2 (owned_blocks h) _ _ _ O). unfold zlen in *. lia.
Qed.
Lemma inv_empty h : inv h [] -> h = rstart.
Proof.
  intros (l & fp & E & O & D & P). inversion O; subst. apply Permutation_sym, Permutation_length_1_inv in P. destruct h as [|[a c] [|? ?]]; try discriminate. cbn [keys map fst] in P. injection P as ->. cbn in E. injection E as ->. reflexivity.
Qed.
Theorem program_correct ops : Forall rplain ops ->
  match rrun rstart ops with Done h os => exists vs, rvrun [] ops vs os /\ zlen h <= 1 + total_blocks vs /\ (vs = [] -> h = rstart) | Bug => False | Outside => True end.
Proof.
  intros F. pose proof (run_correct ops F rstart [] inv_start) as R. destruct (rrun rstart ops) as [h os| |]; try exact R. destruct R as (vs & Rv & I). exists vs. split; [exact Rv|]. split; [apply inv_memory, I|]. intros ->. apply inv_empty, I.
Qed.

(** ** What goes wrong *)
Definition nested : list rop := [ONew; OAddDir (0%nat, []) [] [Some 64]; ONew; OAddData (1%nat, []) 0 [1] [Some 96]; OPush (0%nat, []) (1%nat, []) true [Some 128; Some 160]].
Lemma rvrun_seen ops : forall vs vs' os, rvrun vs ops vs' os -> Forall (fun o => o <> RNoMemory) os -> forall ws, fold_left (fun s op => match s with Some v => match rvstep v op false with Some (v', _) => Some v' | None => None end | None => None end) ops (Some vs) = Some ws ->
  Forall (fun op => match op with OGet _ => False | _ => True end) ops -> vs' = ws.
Proof.
  induction ops as [|op ops IH]; intros vs vs' os R F ws E G; inversion R; subst; cbn [fold_left] in E; [congruence|].
  inversion F; subst. inversion G; subst. destruct full.
  - assert (Q : rvstep vs op true = rvstep vs op false \/ exists v, rvstep vs op true = Some (v, RNoMemory)).
    { destruct op; cbn [rvstep]; unfold on_value, fill; repeat match goal with |- context [match ?x with _ => _ end] => destruct x end; try (left; reflexivity); right; eexists; reflexivity. }
    destruct Q as [Q|(v & Q)]; [|congruence]. rewrite Q in *. match goal with H : rvstep vs op false = Some (_, _) |- _ => rewrite H in E end. eapply IH; eassumption.
  - match goal with H : rvstep vs op false = Some (_, _) |- _ => rewrite H in E end. eapply IH; eassumption.
Qed.
Lemma assigned_inside : exists ops, Forall rplain ops /\ exists h os, rrun rstart ops = Done h os /\
  exists h' o, rrun rstart (ops ++ [OAssign (0%nat, [0%nat]) (0%nat, []) [Some 320; Some 352; Some 384]; OGet (0%nat, [0%nat; 0%nat])]) = Done h' (os ++ [RNothing; o]) /\
  forall vs, rvrun [] ops vs os -> rvstep vs (OGet (0%nat, [0%nat])) false <> Some (vs, o).
Proof.
  exists nested. split; [unfold nested; repeat (apply Forall_cons; [cbn [rplain]; first [exact I|intros _ (i & q & E1 & E2); discriminate]|]); apply Forall_nil|].
  eexists _, _. split; [vm_compute; reflexivity|]. eexists _, _. split; [vm_compute; reflexivity|].
  intros vs R. assert (E : vs = [RV 0 [] false false (DirOf [] 0 1 [RV 0 [] true false (DataOf 0 [1])]); RV 0 [] true false (DataOf 0 [1])]).
  { eapply rvrun_seen; [exact R|repeat (apply Forall_cons; [discriminate|]); apply Forall_nil|vm_compute; reflexivity|repeat (apply Forall_cons; [exact I|]); apply Forall_nil]. }
  subst vs. vm_compute. discriminate.
Qed.
