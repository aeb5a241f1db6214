(** Proofs about what a failed rebuild of imports leaves behind (C83). *)
From Verif Require Export FailRebase ImportFacts SpecFailImport.

(** ** The steps do what the functions of the other model do *)
Definition agr {X A} (pj : X -> pe * A) (m : pe * res A) (f : res X) : Prop :=
  match f with Ok x => m = (fst (pj x), Ok (snd (pj x))) | Throw e => snd m = Throw e | Ub u => snd m = Ub u | Fuel => snd m = Fuel end.
Lemma agr_step {X Y A B} (pj : X -> pe * A) (pk : Y -> pe * B) (m : op A) (k : A -> op B) p f g :
  agr pj (m p) f -> (forall x, f = Ok x -> agr pk (k (snd (pj x)) (fst (pj x))) (g x)) -> agr pk (step m k p) (bind f g).
Proof.
  intros H K. unfold step. unfold agr in H. destruct f as [x| | |]; cbn [bind].
  - rewrite H. apply K. reflexivity.
  - destruct (m p) as [q r]. cbn [snd] in H. subst r. reflexivity.
  - destruct (m p) as [q r]. cbn [snd] in H. subst r. reflexivity.
  - destruct (m p) as [q r]. cbn [snd] in H. subst r. reflexivity.
Qed.
Definition img (q : pe) : pe * unit := (q, tt).
Lemma agr_pass {A} (r : res A) p : agr (fun a => (p, a)) (pass r p) r.
Proof. destruct r; reflexivity. Qed.
Lemma agr_edit f p : agr img (edit f p) (f p).
Proof. unfold edit, step, look, pass, change. destruct (f p); reflexivity. Qed.
Lemma agr_ret {X A} (pj : X -> pe * A) a p x : pj x = (p, a) -> agr pj (pass (Ok a) p) (Ok x).
Proof. intros H. unfold agr, pass. rewrite H. reflexivity. Qed.
Definition same2 {A} (x : pe * A) : pe * A := x.
Lemma agr_thunk i rw p pos v : agr same2 (run_put_thunk i rw pos v p) (put_thunk i rw p pos v).
Proof.
  unfold run_put_thunk, put_thunk. unfold step at 1. unfold look at 1. destruct rw.
  - apply (agr_step (fun a => (p, a))); [apply agr_pass|]. intros len _. cbn [fst snd]. apply (agr_step (fun a => (p, a))); [apply agr_pass|]. intros [] _. cbn [fst snd].
    apply (agr_step img); [apply agr_edit|]. intros q _. apply agr_ret. reflexivity.
  - apply (agr_step img); [apply agr_edit|]. intros q _. apply agr_ret. reflexivity.
Qed.
Definition st1 (st : import_state) : pe * (Z * (Z * Z) * (Z * Z)) := let '(p, a, b, c) := st in (p, (a, b, c)).
Definition st2 (st : import_state * Z) : pe * (Z * (Z * Z) * (Z * Z) * Z) := let '(p, a, b, c, d) := st in (p, (a, b, c, d)).
Lemma agr_import i sv wo ri ro st f : agr st1 (run_write_import i sv wo ri ro (snd (st1 st)) f (fst (st1 st))) (write_import i sv wo ri ro st f).
Proof.
  destruct st as [[[p str] ipos] opos]. cbn [st1 fst snd]. unfold run_write_import, write_import. unfold step at 1. unfold look at 1.
  apply (agr_step (fun a => (p, a))); [apply agr_pass|]. intros s _. cbn [fst snd]. cbv zeta.
  apply (agr_step same2).
  { destruct sv; [apply agr_ret; reflexivity|]. destruct wo; [apply agr_thunk|]. destruct (by_name f || ri); [apply agr_thunk|].
    apply (agr_step same2); [apply agr_thunk|]. intros [q x] _. apply agr_ret. reflexivity. }
  intros [p1 ipos1] _. cbn [same2 fst snd]. apply (agr_step same2). { destruct wo; [apply agr_thunk|apply agr_ret; reflexivity]. }
  intros [p2 opos1] _. cbn [same2 fst snd]. destruct (by_name f); [|apply agr_ret; reflexivity].
  apply (agr_step img); [apply agr_edit|]. intros p3 _. apply (agr_step img); [apply agr_edit|]. intros p4 _. apply agr_ret. reflexivity.
Qed.
Lemma agr_loop {A X S} (pj : X -> pe * S) (f : S -> A -> op S) (g : X -> A -> res X) l : (forall x a, agr pj (f (snd (pj x)) a (fst (pj x))) (g x a)) ->
  forall x, agr pj (loop f l (snd (pj x)) (fst (pj x))) (mfold g l x).
Proof.
  intros H. induction l as [|a l IH]; intros x; cbn [loop mfold]; [apply agr_ret; destruct (pj x); reflexivity|]. apply (agr_step pj); [apply H|]. intros y _. apply IH.
Qed.
Lemma agr_library i o st l : agr st2 (run_write_library i o (snd (st2 st)) l (fst (st2 st))) (write_library i o st l).
Proof.
  destruct st as [[[[p str] [x ipos]] [y opos]] dpos]. cbn [st2 fst snd]. unfold run_write_library, write_library. unfold step at 1. unfold look at 1.
  apply (agr_step (fun a => (p, a))); [apply agr_pass|]. intros s _. cbn [fst snd]. cbv zeta.
  apply (agr_step img); [apply agr_edit|]. intros p1 _. apply (agr_step img); [apply agr_edit|]. intros p2 _. cbn [img fst snd].
  apply (agr_step st1).
  { match goal with |- agr st1 (loop ?f ?l ?s ?q) (mfold ?g ?l ?x) => exact (agr_loop st1 f g l (agr_import _ _ _ _ _) x) end. }
  intros [[[p3 str1] ipos1] opos1] _. cbn [st1 fst snd].
  apply (agr_step same2). { match goal with |- context [if ?c then _ else _] => destruct c end; [apply agr_ret; reflexivity|apply agr_thunk]. }
  intros [p4 ipos2] _. cbn [same2 fst snd]. apply (agr_step same2). { match goal with |- context [if ?c then _ else _] => destruct c end; [apply agr_thunk|apply agr_ret; reflexivity]. }
  intros [p5 opos2] _. apply agr_ret. reflexivity.
Qed.
Lemma agr_recalc i strip p : agr img (run_recalculate i strip p) (recalculate_section_sizes p i strip).
Proof. pose proof (run_recalc_agrees i strip p) as R. unfold agrees, agr in *. destruct (recalculate_section_sizes p i strip); exact R. Qed.
Lemma agr_set_dir id rva size p : agr img ((run_set_directory_rva id rva ;~ run_set_directory_size id size) p) (set_directory p id rva size).
Proof.
  unfold set_directory. apply (agr_step img); [rewrite run_dir_rva; destruct (set_directory_rva p id rva); reflexivity|]. intros q _. cbn [img fst snd]. rewrite run_dir_size. destruct (set_directory_size q id size); reflexivity.
Qed.
Lemma step_assoc {A B C} (m : op A) (k : A -> op B) (h : B -> op C) p : step (step m k) h p = step m (fun x => step (k x) h) p.
Proof. unfold step. destruct (m p) as [q [a| | |]]; reflexivity. Qed.
Lemma imports_agree libs i o p : agr same2 (run_rebuild_imports libs i o p) (rebuild_imports p libs i o).
Proof.
  unfold run_rebuild_imports, rebuild_imports. unfold step at 1. unfold look at 1. cbv zeta.
  apply (agr_step (fun s => (put_section p i s, s))). { rewrite run_open. destruct (open_room p i _ _); reflexivity. }
  intros s1 _. cbn [fst snd]. apply (agr_step st2).
  { match goal with |- agr st2 (loop ?f ?l ?s ?q) (mfold ?g ?l ?x) => exact (agr_loop st2 f g l (agr_library _ _) x) end. }
  intros [[[[p1 x1] x2] [x3 endpos]] dpos1] _. cbn [st2 fst snd].
  apply (agr_step img); [apply agr_edit|]. intros p2 _. cbn [img fst snd].
  match goal with |- agr _ _ (bind (get_section p2 i) ?k) => set (rest := k) end.
  assert (E : bind (get_section p2 i) rest = bind (s2 <- get_section p2 i ;; Ok (put_section p2 i (set_s_data (resize (s_data s2) endpos) s2))) (fun q => p3 <- recalculate_section_sizes q i (o_strip o) ;; p4 <- (if o_headers o then
           p' <- set_directory p3 dir_import (rva_from_section_offset s1 (u32 (o_offset o + import_string_size libs))) (u32
               (u32 (u32 ((1 + zlen libs) * 20) + (if o_build o || o_fill o then u32 (import_iat_size (thunk_size p) libs * 2) else import_iat_size (thunk_size p) libs) + thunk_size p + import_string_size libs) - import_string_size libs)) ;;
           if o_zero_iat o then set_directory p' dir_iat 0 0 else Ok p'
         else Ok p3) ;; Ok (p4, (rva_from_section_offset s1 (u32 (o_offset o + import_string_size libs)), u32
               (u32 (u32 ((1 + zlen libs) * 20) + (if o_build o || o_fill o then u32 (import_iat_size (thunk_size p) libs * 2) else import_iat_size (thunk_size p) libs) + thunk_size p + import_string_size libs) - import_string_size libs))))).
  { unfold rest. destruct (get_section p2 i); reflexivity. }
  rewrite E. clear E rest. apply (agr_step img); [apply agr_edit|]. intros p3 _. apply (agr_step img); [apply agr_recalc|]. intros p4 _. cbn [img fst snd].
  apply (agr_step img).
  { destruct (o_headers o); [|apply agr_ret; reflexivity]. rewrite <- step_assoc. apply (agr_step img); [apply agr_set_dir|]. intros p5 _. cbn [img fst snd]. destruct (o_zero_iat o); [apply agr_set_dir|apply agr_ret; reflexivity]. }
  intros p6 _. apply agr_ret. reflexivity.
Qed.
Lemma agr_agrees {A} (m : pe * res A) f : agr same2 m f -> agrees m f.
Proof. unfold agr, agrees, same2. destruct f as [[q a]| | |]; auto. Qed.
