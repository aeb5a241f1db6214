(** Proofs about what a failed rebuild of the load configuration leaves behind (C83). *)
From Verif Require Export FailStrong.

Lemma quiet_words n st w : quiet (fun r => zlen (fst r)) (zlen (fst st)) (write_words n st w).
Proof. unfold write_words. apply (quiet_bind zlen); [apply quiet_wr|]. intros d H. exact H. Qed.
Lemma locks_run p i s1 l : forall d k d0,
  match run_write_locks p i s1 l (d, k) (put_section p i (set_s_data d0 s1)) with
  | (q, Ok d3) => q = put_section p i (set_s_data d3 s1) /\ zlen d3 = zlen d /\ exists vas k3, mmap (rva_to_va p) l = Ok vas /\ mfold (write_words (base_size p)) (vas ++ [0]) (d, k) = Ok (d3, k3)
  | (q, Throw e) => (exists d3, q = put_section p i (set_s_data d3 s1)) /\ mmap (rva_to_va p) l = Throw e
  | (_, _) => forall vas d3, mmap (rva_to_va p) l = Ok vas -> mfold (write_words (base_size p)) (vas ++ [0]) (d, k) <> Ok d3
  end.
Proof.
  induction l as [|v l IH]; intros d k d0; cbn [run_write_locks mmap]; unfold step, pass, change.
  - pose proof (quiet_words (base_size p) (d, k) 0) as Q. destruct (write_words (base_size p) (d, k) 0) as [[d3 k3]|e|u|] eqn:E; cbn [quiet fst] in *.
    + rewrite put_put. split; [reflexivity|]. split; [exact Q|]. exists [], k3. split; [reflexivity|]. cbn [app mfold]. rewrite E. reflexivity.
    + contradiction Q.
    + intros vas d3 X. injection X as <-. cbn [app mfold]. rewrite E. discriminate.
    + intros vas d3 X. injection X as <-. cbn [app mfold]. rewrite E. discriminate.
  - destruct (rva_to_va p v) as [va|e|u|] eqn:Ev; cbn [bind]; try (intros vas d3 X; discriminate X); [|split; [exists d0; reflexivity|reflexivity]].
    pose proof (quiet_words (base_size p) (d, k) va) as Q. destruct (write_words (base_size p) (d, k) va) as [[d1 k1]|e|u|] eqn:E; cbn [quiet fst] in *.
    + rewrite put_put. specialize (IH d1 k1 d1). destruct (run_write_locks p i s1 l (d1, k1) _) as [q [d3|e|u|]].
      * destruct IH as (A & B & vas & k3 & M & W). split; [exact A|]. split; [lia|]. exists (va :: vas), k3. rewrite M. cbn [bind]. split; [reflexivity|]. cbn [app mfold]. rewrite E. exact W.
      * destruct IH as (A & M). split; [exact A|]. rewrite M. reflexivity.
      * intros vas d3 X. destruct (mmap (rva_to_va p) l) as [t| | |]; try discriminate X. injection X as <-. cbn [app mfold]. rewrite E. exact (IH t d3 eq_refl).
      * intros vas d3 X. destruct (mmap (rva_to_va p) l) as [t| | |]; try discriminate X. injection X as <-. cbn [app mfold]. rewrite E. exact (IH t d3 eq_refl).
    + contradiction Q.
    + intros vas d3 X. destruct (mmap (rva_to_va p) l) as [t| | |]; try discriminate X. injection X as <-. cbn [app mfold]. rewrite E. discriminate.
    + intros vas d3 X. destruct (mmap (rva_to_va p) l) as [t| | |]; try discriminate X. injection X as <-. cbn [app mfold]. rewrite E. discriminate.
Qed.
Lemma plus_va p v : p_plus p = true -> exists va, rva_to_va p v = Ok va.
Proof. intros H. unfold rva_to_va. rewrite H. exists (u64 (v + imagebase p)). reflexivity. Qed.
Lemma plus_vas p l e : p_plus p = true -> mmap (rva_to_va p) l <> Throw e.
Proof.
  intros H. induction l as [|v l IH]; cbn [mmap]; [discriminate|]. destruct (plus_va p v H) as [va ->]. cbn [bind]. destruct (mmap (rva_to_va p) l) as [t|x|u|]; cbn [bind]; try discriminate. intros X. injection X as ->. apply IH. reflexivity.
Qed.
Lemma handlers_quiet (wh : bool) l d k : quiet zlen (zlen d) (if wh then ' (d, _) <- mfold (write_words 4) l (d, k) ;; Ok d else Ok d).
Proof.
  destruct wh; [|reflexivity]. apply (quiet_bind (fun r => zlen (fst r))); [apply quiet_mfold; [|reflexivity]; intros b a Hb; rewrite <- Hb; apply quiet_words|]. intros [d1 k1] H1. exact H1.
Qed.
(** The run ends as the function says, except that the function may throw where the run is undefined. *)
Definition leads {A} (m : pe * res A) (f : res (pe * A)) : Prop :=
  match m with (q, Ok a) => f = Ok (q, a) | (_, Throw e) => f = Throw e | (_, _) => forall x, f <> Ok x end.
Lemma agrees_leads {A} (m : pe * res A) f : agrees m f -> leads m f.
Proof. unfold agrees, leads. destruct m as [q r]. cbn [snd]. destruct f as [[q' a]|e|u|]; intros H; try (injection H as -> ->; reflexivity); subst r; try reflexivity; intros x X; discriminate X. Qed.
Lemma leads_iff {A} (m : pe * res A) f : leads m f -> (forall q a, m = (q, Ok a) <-> f = Ok (q, a)) /\ (forall e, snd m = Throw e -> f = Throw e).
Proof.
  unfold leads. destruct m as [q0 [a0|e0|u|]]; cbn [snd]; intros H; (split; [intros q a; split; intros X|intros e X]); try discriminate X; try congruence; exfalso; exact (H _ X).
Qed.
Lemma config_leads c i off handlers locks save strip p : leads (run_rebuild_config c i off handlers locks save strip p) (rebuild_config p c i off handlers locks save strip).
Proof.
  unfold run_rebuild_config, rebuild_config. cbv zeta. unfold step at 1. unfold look at 1. unfold step at 1. rewrite run_open.
  destruct (open_room p i _ _) as [s|x|u|]; cbn [bind]; try reflexivity; try (intros z Z; discriminate Z).
  unfold step at 1. unfold pass at 1. match goal with |- context [bind (if ?b then rva_to_va p ?x else ?y) _] => destruct (if b then rva_to_va p x else y) as [tab|x1|u1|] end; cbn [bind]; try reflexivity; try (intros z Z; discriminate Z).
  unfold step at 1. unfold pass at 1. match goal with |- context [bind (if ?b then rva_to_va p ?x else ?y) _] => destruct (if b then rva_to_va p x else y) as [lock|x1|u1|] end; cbn [bind]; try reflexivity; try (intros z Z; discriminate Z).
  unfold step at 1. unfold pass at 1. destruct (wr (s_data s) _ _) as [d1|x1|u1|]; cbn [bind]; try reflexivity; try (intros z Z; discriminate Z).
  unfold step at 1. unfold pass at 1. match goal with |- context [bind (if ?b then bind ?x ?k else Ok d1) _] => destruct (if b then bind x k else Ok d1) as [d2|x1|u1|] end; cbn [bind]; try reflexivity; try (intros z Z; discriminate Z).
  unfold step at 1. unfold change at 1. rewrite put_put. unfold step at 1. destruct (locks && negb (zlen (c_locks c) =? 0)).
  - match goal with |- context [run_write_locks p i s ?l (d2, ?k) _] => pose proof (locks_run p i s l d2 k d2) as R; destruct (run_write_locks p i s l (d2, k) _) as [q [d3|e|u|]] end.
    + destruct R as (-> & _ & vas & k3 & M & W). rewrite M. cbn [bind]. rewrite W. cbn [bind]. apply agrees_leads, run_finish_agrees.
    + destruct R as (_ & M). rewrite M. reflexivity.
    + intros z Z. destruct (mmap (rva_to_va p) (c_locks c)) as [vas| | |]; cbn [bind] in Z; try discriminate Z. destruct (mfold _ _ _) as [[d3 k3]| | |] eqn:W in Z; cbn [bind] in Z; try discriminate Z. exact (R vas _ eq_refl W).
    + intros z Z. destruct (mmap (rva_to_va p) (c_locks c)) as [vas| | |]; cbn [bind] in Z; try discriminate Z. destruct (mfold _ _ _) as [[d3 k3]| | |] eqn:W in Z; cbn [bind] in Z; try discriminate Z. exact (R vas _ eq_refl W).
  - unfold pass. cbn [bind]. apply agrees_leads, run_finish_agrees.
Qed.
Lemma same_refl i p : same_but i p p.
Proof. split; [destruct p; reflexivity|]. split; reflexivity. Qed.
Lemma same_put i p s : same_but i p (put_section p i s).
Proof.
  split; [reflexivity|]. split; [apply put_len|]. intros j Hj. unfold put_section. cbn [set_p_sections p_sections]. apply nth_error_upd_other. congruence.
Qed.
Lemma config_basic c i off handlers locks save strip p q e : good_align p -> sized p i -> entry_for p save dir_load_config -> at_most_2g q i ->
  run_rebuild_config c i off handlers locks save strip p = (q, Throw e) ->
  same_but i p q /\ (p_plus p = true \/ handlers = false /\ locks = false -> q = p).
Proof.
  intros Ga Sz En Hw H. unfold run_rebuild_config in H. cbv zeta in H. unfold step at 1 in H. unfold look at 1 in H. unfold step at 1 in H. rewrite run_open in H.
  destruct (open_room p i _ _) as [s|x|u|] eqn:Eo; try discriminate H; [|injection H as <- _; split; [apply same_refl|reflexivity]].
  unfold step at 1 in H. unfold pass at 1 in H. match type of H with context [match (if ?b then rva_to_va p ?x else ?y) with Ok _ => _ | _ => _ end] => destruct (if b then rva_to_va p x else y) as [tab|x1|u1|] eqn:Et end; try discriminate H.
  2:{ injection H as <- _. split; [apply same_put|]. intros [Hp|[-> ->]]; [|discriminate Et]. exfalso. destruct (handlers && _); [|discriminate Et]. match type of Et with rva_to_va p ?v = _ => destruct (plus_va p v Hp) as [va X] end. rewrite X in Et. discriminate Et. }
  unfold step at 1 in H. unfold pass at 1 in H. match type of H with context [match (if ?b then rva_to_va p ?x else ?y) with Ok _ => _ | _ => _ end] => destruct (if b then rva_to_va p x else y) as [lock|x1|u1|] eqn:El end; try discriminate H.
  2:{ injection H as <- _. split; [apply same_put|]. intros [Hp|[-> ->]]; [|discriminate El]. exfalso. destruct (locks && _); [|discriminate El]. match type of El with rva_to_va p ?v = _ => destruct (plus_va p v Hp) as [va X] end. rewrite X in El. discriminate El. }
  unfold step at 1 in H. unfold pass at 1 in H. match type of H with context [wr (s_data s) ?a ?b] => pose proof (quiet_wr (s_data s) a b) as Q1; destruct (wr (s_data s) a b) as [d1|x1|u1|] end; cbn [quiet] in Q1; try discriminate H; [|contradiction Q1].
  unfold step at 1 in H. unfold pass at 1 in H. match type of H with context [match (if ?b then bind (mfold (write_words 4) ?l (d1, ?k)) _ else _) with Ok _ => _ | _ => _ end] => pose proof (handlers_quiet b l d1 k) as Q2; destruct (if b then bind (mfold (write_words 4) l (d1, k)) _ else Ok d1) as [d2|x1|u1|] end; cbn [quiet] in Q2; try discriminate H; [|contradiction Q2].
  unfold step at 1 in H. unfold change at 1 in H. rewrite put_put in H. unfold step at 1 in H.
  assert (Fin : forall d3 pos q' e', zlen d3 = zlen (s_data s) -> at_most_2g q' i -> run_finish i s d3 pos (config_size p) dir_load_config save strip (put_section p i (set_s_data d3 s)) = (q', Throw e') -> False).
  { intros d3 pos q' e' L W X. destruct (open_sized p i _ _ s Ga Sz ltac:(apply u32_in) (or_introl eq_refl) ltac:(apply u32_in) Eo) as (Li & Ho & Hv & Hn).
    apply (finish_no_throw p i (set_s_data d3 s) s d3 pos (config_size p) dir_load_config save strip q' e' Ga Li Ho Hv En); [intros N; rewrite L; exact (Hn N)|exact W|exact X]. }
  destruct (locks && negb (zlen (c_locks c) =? 0)) eqn:Ew.
  - match type of H with context [run_write_locks p i s ?l (d2, ?k) _] => pose proof (locks_run p i s l d2 k d2) as R; destruct (run_write_locks p i s l (d2, k) _) as [q' [d3|x1|u1|]] end; try discriminate H.
    + destruct R as (-> & L & _). exfalso. eapply Fin; [|exact Hw|exact H]; lia.
    + destruct R as ((d3 & ->) & M). injection H as <- _. split; [apply same_put|]. intros [Hp|[_ ->]]; [exfalso; exact (plus_vas p _ _ Hp M)|discriminate Ew].
  - unfold pass in H. exfalso. eapply Fin; [|exact Hw|exact H]; lia.
Qed.
