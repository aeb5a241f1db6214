(** Entries that are added to a directory, or removed from it; entry objects that are created and destroyed (C71). *)
From Verif Require Export OwnTreeSteps.
Require Import Permutation.

Definition stored (b : Z) : list Z := if b =? 0 then [] else [b].
Lemma owned_dir h e v fp : owns h e v fp ->
  match v with
  | RV id name incl named (DirOf info nn ni vl) => exists a b l fl, e = mk_rent id name false named a /\ incl = false /\ a <> 0 /\ block h a = Some (CDir info nn ni b) /\ elements h b = Some l /\ ownl h l vl fl /\
      fp = a :: stored b ++ fl /\ (b = 0 -> l = [] /\ vl = [] /\ fl = []) /\ (b <> 0 -> block h b = Some (CBuf l))
  | _ => (e_ptr e =? 0) || e_incl e = true
  end.
Proof.
  intros O. inversion O; subst.
  - reflexivity.
  - cbn [e_ptr e_incl]. rewrite orb_true_r. reflexivity.
  - exists a, 0, [], []. split; [reflexivity|]. split; [reflexivity|]. split; [assumption|]. split; [assumption|]. split; [reflexivity|]. split; [constructor|]. split; [reflexivity|]. split; [intros _; auto|]. intros N; contradiction N; reflexivity.
  - exists a, b, l, fp0. split; [reflexivity|]. split; [reflexivity|]. split; [assumption|]. split; [assumption|]. unfold elements, stored. replace (b =? 0) with false by lia. rewrite H2. split; [reflexivity|]. split; [assumption|]. split; [reflexivity|]. split; [intros; contradiction|]. intros _. reflexivity.
Qed.
(** The entry stays where it is, and what it owns changes. *)
Lemma same_entry h vs t v0 c k lc e0 fp0 ctx h1 v1 fp1 : focused h vs t v0 c k lc e0 fp0 ctx -> agree h h1 (c :: ctx) -> owns h1 e0 v1 fp1 -> NoDup (keys h1) -> Permutation (keys h1) (c :: ctx ++ fp1) -> inv h1 (put vs t v1).
Proof.
  intros (L & Ec & Ek & O0 & P & R & _) K O1 D1 P1. destruct (R h1 e0 v1 fp1) as [I1 _]; try assumption.
  - intros x Ix. apply K. right. exact Ix.
  - rewrite (K c) by (left; reflexivity). rewrite (replace_self _ _ _ Ek). exact Ec.
Qed.
Definition pushed (info : list Z) (nn ni : Z) (l : list rvalue) (w : rvalue) : rcontent := if is_named_value w then DirOf info ((nn + 1) mod 2^32) ni (l ++ [w]) else DirOf info nn ((ni + 1) mod 2^32) (l ++ [w]).
Lemma counted h a rs es w f info nn ni b : get_loc h rs = Some es -> owns h es w f -> block h a = Some (CDir info nn ni b) ->
  count_pushed h a rs = Done (set_block h a match pushed info nn ni [] w with DirOf i x y _ => CDir i x y b | _ => CDir info nn ni b end) RNothing.
Proof.
  intros G O E. unfold count_pushed. rewrite G, E. pose proof (owns_value _ _ _ _ O) as V. destruct w as [id name incl named wc]. destruct V as (_ & _ & _ & ->). unfold pushed, is_named_value. destruct named; reflexivity.
Qed.
(** Room for one more entry. *)
Lemma push_room h vs t id name named info nn ni vl c k lc fp0 ctx a b l fl s cs ks es w fs news :
  inv h vs -> focused h vs t (RV id name false named (DirOf info nn ni vl)) c k lc (mk_rent id name false named a) fp0 ctx ->
  a <> 0 -> block h a = Some (CDir info nn ni b) -> b <> 0 -> block h b = Some (CBuf l) -> ownl h l vl fl -> fp0 = a :: b :: fl ->
  entry_at h s = Found (cs, ks) es -> owns h es w fs -> NoDup fs -> get_loc h (cs, ks) = Some es ->
  match push h a (cs, ks) false news with
  | Done h' o => exists (full : bool) vs', (if full then Some (vs, RNoMemory) else Some (put vs t (RV id name false named (pushed info nn ni vl w)), RNothing)) = Some (vs', o) /\ inv h' vs'
  | Bug => False
  | Outside => True
  end.
Proof.
  intros I F Na Ea Nb Eb Ol -> Es Os Ds Gs. unfold push. rewrite Ea, Gs. unfold elements. replace (b =? 0) with false by lia. rewrite Eb.
  destruct (focused_nodup _ _ _ _ _ _ _ _ _ _ I F) as (D0 & N0 & Nc & Nx). apply NoDup_cons_iff in D0 as [Nab D0]. apply NoDup_cons_iff in D0 as [Nbf D0].
  pose proof (copy_owns h es w fs news Os Ds) as C. destruct (copy_entry (levels h) h news es) as [h1 news' e'|h1| |]; try exact C.
  2:{ cbn [copied] in C. subst h1. exists true, vs. auto. }
  destruct C as (hn & fe & -> & An & On). set (h2 := set_block (hn ++ h) b (CBuf (l ++ [e']))).
  pose proof F as (L & Ec & Ek & O0 & P & _).
  assert (Lv : forall x, In x (c :: ctx ++ a :: b :: fl) -> In x (keys h)) by (intros x Ix; apply (Permutation_in _ (Permutation_sym P)), Ix).
  assert (Old : forall x, In x (keys h) -> x <> b -> block h2 x = block h x).
  { intros x Kx Nx'. unfold h2. rewrite block_set_other by exact Nx'. apply (added_agree _ _ _ [x] An); [intros y [<-|[]]; exact Kx|left; reflexivity]. }
  assert (Kb : In b (keys h)) by (apply (block_key _ _ _ Eb)). assert (Ka : In a (keys h)) by (apply (block_key _ _ _ Ea)).
  assert (Ebn : block (hn ++ h) b = Some (CBuf l)) by (rewrite (added_agree _ _ _ [b] An); [exact Eb|intros y [<-|[]]; exact Kb|left; reflexivity]).
  assert (Eb2 : block h2 b = Some (CBuf (l ++ [e']))) by (unfold h2; eapply block_set_same; exact Ebn).
  assert (Nab' : a <> b) by (intros ->; apply Nab; left; reflexivity).
  assert (Ea2 : block h2 a = Some (CDir info nn ni b)) by (rewrite Old; assumption).
  assert (G2 : get_loc h2 (cs, ks) = Some es).
  { unfold get_loc in *. cbn [fst snd] in *. destruct (Z.eq_dec cs b) as [->|Ncs].
    - rewrite Eb2. rewrite Eb in Gs. rewrite nth_error_app1; [exact Gs|]. apply nth_error_Some. congruence.
    - destruct (block h cs) as [x|] eqn:Ecs; [|discriminate]. rewrite Old; [rewrite Ecs; exact Gs|apply (block_key _ _ _ Ecs)|exact Ncs]. }
  assert (Cn : forall rest, count_pushed h2 a (cs, ks) = rest -> rest = Done (set_block h2 a match pushed info nn ni [] w with DirOf i x y _ => CDir i x y b | _ => CDir info nn ni b end) RNothing).
  { intros rest <-. unfold count_pushed. rewrite G2, Ea2. pose proof (owns_value _ _ _ _ Os) as V. destruct w as [wid wname wincl wnamed wc]. destruct V as (_ & _ & _ & ->). unfold pushed, is_named_value. destruct wnamed; reflexivity. }
  rewrite (Cn _ eq_refl). clear Cn. set (cl := match pushed info nn ni [] w with DirOf i x y _ => CDir i x y b | _ => CDir info nn ni b end). set (h3 := set_block h2 a cl).
  exists false. eexists. split; [reflexivity|]. destruct An as (Pn & Dn & Fn).
  assert (K3 : keys h3 = keys hn ++ keys h) by (unfold h3, h2; rewrite !keys_set; apply keys_app).
  assert (Old3 : forall x, In x (keys h) -> x <> b -> x <> a -> block h3 x = block h x) by (intros x Kx N1 N2; unfold h3; rewrite block_set_other by exact N2; apply Old; assumption).
  eapply (same_entry h vs t _ c k lc _ _ ctx h3 _ (a :: b :: fl ++ fe) F).
  - intros x Ix. apply Old3.
    + apply Lv. destruct Ix as [<-|Ix]; [left; reflexivity|right; apply in_or_app; left; exact Ix].
    + intros ->. destruct Ix as [->|Ix]; [apply N0; right; left; reflexivity|apply (Nx _ Ix); right; left; reflexivity].
    + intros ->. destruct Ix as [->|Ix]; [apply N0; left; reflexivity|apply (Nx _ Ix); left; reflexivity].
  - assert (Ol3 : ownl h3 (l ++ [e']) (vl ++ [w]) (fl ++ fe)).
    { apply ownl_app.
      - apply (ownl_agree h); [exact Ol|]. intros x Ix. apply Old3.
        + apply Lv. right. apply in_or_app. right. right. right. exact Ix.
        + intros ->. contradiction.
        + intros ->. apply Nab. right. exact Ix.
      - apply ownl_one. apply (owns_agree hn); [exact On|]. intros x Ix. assert (Kx : In x (keys hn)) by (apply (Permutation_in _ Pn), Ix). destruct (Fn x Kx) as [_ Nh]. unfold h3, h2. rewrite !block_set_other by (intros ->; contradiction).
        rewrite block_app. destruct (block hn x) eqn:Ex; [reflexivity|]. apply block_none in Ex. contradiction. }
    assert (Ea3 : block h3 a = Some cl) by (unfold h3; eapply block_set_same; exact Ea2). assert (Eb3 : block h3 b = Some (CBuf (l ++ [e']))) by (unfold h3; rewrite block_set_other by (intros E; apply Nab'; symmetry; exact E); exact Eb2).
    unfold pushed. unfold cl, pushed in Ea3. destruct (is_named_value w); eapply own_dir; eassumption.
  - rewrite K3. apply nodup_app. split; [exact Dn|]. split; [apply (nodup_keys _ _ I)|]. intros x Kx. apply Fn, Kx.
  - rewrite K3. etransitivity; [apply Permutation_app; [symmetry; exact Pn|exact P]|]. etransitivity; [apply Permutation_app_comm|].
    replace (c :: ctx ++ a :: b :: fl ++ fe) with ((c :: ctx ++ a :: b :: fl) ++ fe) by (cbn [app]; rewrite <- !app_assoc; reflexivity). reflexivity.
Qed.
(** New storage for the entries of the directory. *)
Lemma push_grow h vs t id name named info nn ni vl c k lc fp0 ctx a b l fl s cs ks es w fs news :
  inv h vs -> focused h vs t (RV id name false named (DirOf info nn ni vl)) c k lc (mk_rent id name false named a) fp0 ctx ->
  a <> 0 -> block h a = Some (CDir info nn ni b) -> elements h b = Some l -> ownl h l vl fl -> fp0 = a :: stored b ++ fl ->
  entry_at h s = Found (cs, ks) es -> owns h es w fs -> NoDup fs -> get_loc h (cs, ks) = Some es -> ~ below s t ->
  match push h a (cs, ks) true news with
  | Done h' o => exists (full : bool) vs', (if full then Some (vs, RNoMemory) else Some (put vs t (RV id name false named (pushed info nn ni vl w)), RNothing)) = Some (vs', o) /\ inv h' vs'
  | Bug => False
  | Outside => True
  end.
Proof.
  intros I F Na Ea El Ol -> Es Os Ds Gs B. unfold push. rewrite Ea, Gs, El.
  destruct (focused_nodup _ _ _ _ _ _ _ _ _ _ I F) as (D0 & N0 & Nc & Nx). apply NoDup_cons_iff in D0 as [Nab D0]. apply nodup_app in D0 as (D0b & D0 & Nbf).
  pose proof F as (L & Ec & Ek & O0 & P & _ & In0). assert (Ics : In cs (c :: ctx)) by (apply (In0 s B cs ks es Es)).
  assert (Lv : forall x, In x (c :: ctx ++ a :: stored b ++ fl) -> In x (keys h)) by (intros x Ix; apply (Permutation_in _ (Permutation_sym P)), Ix).
  pose proof (new_spec h news (CBuf [])) as C1. destruct (new_cell h news (CBuf [])) as [h1 news1 b'|h1| |]; try exact C1; [|subst h1; exists true, vs; auto]. destruct C1 as (-> & Nb' & Fb'). set (h1 := (b', CBuf []) :: h).
  assert (A1 : added h [(b', CBuf [])] [b']). { split; [constructor; constructor|]. split; [constructor; [intros []|constructor]|]. intros x [<-|[]]. split; assumption. }
  assert (Os1 : owns h1 es w fs) by (apply (owns_agree h); [exact Os|]; apply (added_agree _ _ _ fs A1); intros x Ix; apply (owns_live _ _ _ _ _ Os Ix)).
  pose proof (copy_owns h1 es w fs news1 Os1 Ds) as C2. destruct (copy_entry (levels h1) h1 news1 es) as [h2 news2 e'|h2| |]; try exact C2.
  2:{ cbn [copied] in C2. subst h2. exists true, vs. split; [reflexivity|]. unfold h1. rewrite unblock_new by exact Fb'. exact I. }
  destruct C2 as (hn & fe & -> & An & On). pose proof (added_app _ _ _ _ _ A1 An) as A2. 
  assert (Ol2 : ownl (hn ++ h1) l vl fl). { apply (ownl_agree h); [exact Ol|]. unfold h1. change (hn ++ (b', CBuf []) :: h) with (hn ++ [(b', CBuf [])] ++ h). rewrite app_assoc. apply (added_agree _ _ _ fl A2). intros x Ix. apply (ownl_live _ _ _ _ _ Ol Ix). }
  pose proof (copy_ownl (hn ++ h1) l vl fl news2 Ol2 D0) as C3. destruct (copy_each (copy_entry (levels (hn ++ h1))) (hn ++ h1) news2 l []) as [h3 news3 l'|h3| |]; try exact C3.
  2:{ cbn [copiedl] in C3. subst h3. assert (On' : owns (hn ++ h1) e' w fe) by (apply (owns_agree hn); [exact On|apply (added_owned _ _ _ An)]).
      destruct An as (Pn & Dn & Fn). rewrite (release_owns _ _ _ _ On') by (apply (Permutation_NoDup (Permutation_sym Pn)), Dn). rewrite (added_new h1 hn fe) by (split; [exact Pn|split; assumption]).
      exists true, vs. split; [reflexivity|]. unfold h1. rewrite unblock_new by exact Fb'. exact I. }
  destruct C3 as (hm & fm & -> & Am & Om).
  assert (Ol3 : ownl (hm ++ hn ++ h1) l vl fl) by (apply (ownl_agree (hn ++ h1)); [exact Ol2|]; apply (added_agree _ _ _ fl Am); intros x Ix; apply (ownl_live _ _ _ _ _ Ol2 Ix)).
  rewrite (release_ownl _ _ _ _ Ol3 D0). cbv zeta. set (h3 := hm ++ hn ++ h1) in *.
  assert (E5 : (if b =? 0 then without fl h3 else unblock (without fl h3) b) = without (fl ++ stored b) h3). { unfold stored. destruct (b =? 0); [rewrite app_nil_r; reflexivity|]. rewrite without_app, without_one. reflexivity. }
  rewrite E5. clear E5. set (gone := fl ++ stored b) in *. set (h5 := without gone h3).
  (* everything that was allocated *)
  assert (A3 : added h ((hm ++ hn) ++ [(b', CBuf [])]) (b' :: fe ++ fm)).
  { rewrite <- app_assoc. change (hm ++ hn ++ [(b', CBuf [])]) with (hm ++ (hn ++ [(b', CBuf [])])). change (b' :: fe ++ fm) with (([b'] ++ fe) ++ fm). apply added_app; [exact A2|]. rewrite <- app_assoc. exact Am. }
  assert (E3 : h3 = ((hm ++ hn) ++ [(b', CBuf [])]) ++ h) by (unfold h3, h1; rewrite <- !app_assoc; reflexivity).
  assert (Gold : forall x, In x gone -> In x (keys h)) by (intros x Ix; apply Lv; right; apply in_or_app; right; right; apply in_app_or in Ix as [Ix|Ix]; apply in_or_app; tauto).
  assert (Gc : forall x, In x (c :: ctx) -> ~ In x gone /\ x <> a).
  { intros x Ix. assert (Q : ~ In x (a :: stored b ++ fl)) by (destruct Ix as [<-|Ix]; [exact N0|apply Nx, Ix]). split; [|intros ->; apply Q; left; reflexivity]. intros Ig. apply Q. right. apply in_app_or in Ig as [Ig|Ig]; apply in_or_app; tauto. }
  assert (Ga : ~ In a gone) by (intros Ig; apply Nab; apply in_app_or in Ig as [Ig|Ig]; apply in_or_app; tauto).
  assert (Ka : In a (keys h)) by (apply (block_key _ _ _ Ea)). assert (Nab' : a <> b') by (intros ->; contradiction).
  assert (Old5 : forall x, In x (keys h) -> ~ In x gone -> block h5 x = block h x).
  { intros x Kx Ng. unfold h5. rewrite block_without by exact Ng. rewrite E3. apply (added_agree _ _ _ [x] A3); [intros y [<-|[]]; exact Kx|left; reflexivity]. }
  assert (Eb5 : exists z, block h5 b' = Some z).
  { assert (K : In b' (keys h5)) by (unfold h5; apply in_without; split; [rewrite E3, keys_app; apply in_or_app; left; rewrite keys_app; apply in_or_app; right; left; reflexivity|]; intros Ig; apply Fb', Gold, Ig).
    destruct (block h5 b') as [z|] eqn:Ez; [exists z; reflexivity|]. apply block_none in Ez. contradiction. }
  destruct Eb5 as (z & Ez).
  set (h6 := set_block (set_block h5 b' (CBuf (l' ++ [e']))) a (CDir info nn ni b')).
  assert (Ea6 : block h6 a = Some (CDir info nn ni b')). { unfold h6. eapply block_set_same. rewrite block_set_other by exact Nab'. rewrite Old5 by assumption. exact Ea. }
  assert (Eb6 : block h6 b' = Some (CBuf (l' ++ [e']))). { unfold h6. rewrite block_set_other by (intros E; apply Nab'; symmetry; exact E). eapply block_set_same. exact Ez. }
  assert (Old6 : forall x, In x (keys h) -> ~ In x gone -> x <> a -> block h6 x = block h x). { intros x Kx Ng Nxa. unfold h6. rewrite block_set_other by exact Nxa. rewrite block_set_other by (intros ->; contradiction). apply Old5; assumption. }
  assert (G6 : get_loc h6 (cs, ks) = Some es). { unfold get_loc in *. cbn [fst snd] in *. destruct (Gc cs Ics) as [Q1 Q2]. rewrite Old6; [exact Gs| |exact Q1|exact Q2]. apply Lv. destruct Ics as [<-|Ics]; [left; reflexivity|right; apply in_or_app; left; exact Ics]. }
  assert (Cn : forall rest, count_pushed h6 a (cs, ks) = rest -> rest = Done (set_block h6 a match pushed info nn ni [] w with DirOf i x y _ => CDir i x y b' | _ => CDir info nn ni b' end) RNothing).
  { intros rest <-. unfold count_pushed. rewrite G6, Ea6. pose proof (owns_value _ _ _ _ Os) as V. destruct w as [wid wname wincl wnamed wc]. destruct V as (_ & _ & _ & ->). unfold pushed, is_named_value. destruct wnamed; reflexivity. }
  rewrite (Cn _ eq_refl). clear Cn. set (cl := match pushed info nn ni [] w with DirOf i x y _ => CDir i x y b' | _ => CDir info nn ni b' end). set (h7 := set_block h6 a cl).
  exists false. eexists. split; [reflexivity|].
  assert (K7 : keys h7 = keys h5) by (unfold h7, h6; rewrite !keys_set; reflexivity).
  assert (D3 : NoDup (keys h3)) by (rewrite E3, keys_app; destruct A3 as (_ & Dq & Fq); apply nodup_app; split; [exact Dq|]; split; [apply (nodup_keys _ _ I)|]; intros x Kx; apply Fq, Kx).
  eapply (same_entry h vs t _ c k lc _ _ ctx h7 _ (a :: b' :: fm ++ fe) F).
  - intros x Ix. destruct (Gc x Ix) as [Q1 Q2]. unfold h7. rewrite block_set_other by exact Q2. apply Old6; [|exact Q1|exact Q2]. apply Lv. destruct Ix as [<-|Ix]; [left; reflexivity|right; apply in_or_app; left; exact Ix].
  - destruct Am as (Pm & Dm & Fm). destruct An as (Pn & Dn & Fn).
    assert (New : forall x, In x (keys hm) \/ In x (keys hn) -> block h7 x = block h3 x).
    { intros x Kx. assert (N : ~ In x (keys h) /\ x <> b').
      { destruct Kx as [Kx|Kx]; [destruct (Fm x Kx) as [_ N]; rewrite keys_app in N|destruct (Fn x Kx) as [_ N]]; split; intros Q; apply N; try (apply in_or_app; right); unfold h1; [right; exact Q|subst x; left; reflexivity|right; exact Q|subst x; left; reflexivity]. }
      destruct N as [N1 N2]. unfold h7, h6. rewrite !block_set_other by (first [exact N2|intros ->; contradiction]). unfold h5. apply block_without. intros Q. apply N1, Gold, Q. }
    assert (Ol7 : ownl h7 (l' ++ [e']) (vl ++ [w]) (fm ++ fe)).
    { apply ownl_app.
      - apply (ownl_agree hm); [exact Om|]. intros x Ix. assert (Kx : In x (keys hm)) by (apply (Permutation_in _ Pm), Ix). rewrite New by (left; exact Kx). unfold h3. rewrite block_app. destruct (block hm x) eqn:Ex; [reflexivity|]. apply block_none in Ex. contradiction.
      - apply ownl_one. apply (owns_agree hn); [exact On|]. intros x Ix. assert (Kx : In x (keys hn)) by (apply (Permutation_in _ Pn), Ix). rewrite New by (right; exact Kx). unfold h3. rewrite block_app.
        destruct (block hm x) eqn:Ex; [exfalso; apply block_key in Ex; apply (proj2 (Fm x Ex)); rewrite keys_app; apply in_or_app; left; exact Kx|]. rewrite block_app. destruct (block hn x) eqn:Ey; [reflexivity|]. apply block_none in Ey. contradiction. }
    assert (Ea7 : block h7 a = Some cl) by (unfold h7; eapply block_set_same; exact Ea6). assert (Eb7 : block h7 b' = Some (CBuf (l' ++ [e']))) by (unfold h7; rewrite block_set_other by (intros E; apply Nab'; symmetry; exact E); exact Eb6).
    unfold pushed. unfold cl, pushed in Ea7. destruct (is_named_value w); eapply own_dir; eassumption.
  - rewrite K7. apply nodup_without, D3.
  - rewrite K7. apply (perm_without gone); [exact D3|]. rewrite E3, keys_app. destruct A3 as (Pq & _ & _). etransitivity; [apply Permutation_app; [symmetry; exact Pq|exact P]|].
    apply (Permutation_count_occ Z.eq_dec). intros x. unfold gone. cbn [app]. repeat (rewrite count_occ_app || cbn [count_occ]). repeat match goal with |- context [Z.eq_dec ?u x] => destruct (Z.eq_dec u x) end; lia.
Qed.
