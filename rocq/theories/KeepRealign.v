(** Proof of C79. *)
From Verif Require Export KeepDone.

Lemma unmapped_put p i t : unmapped p -> s_old t = None -> unmapped (put_section p i t).
Proof. intros U O. unfold unmapped, put_section in *. cbn [p_sections set_p_sections]. apply Forall_upd; assumption. Qed.
Lemma realign_unmapped p i p' : unmapped p -> realign_section p i = Ok p' -> unmapped p'.
Proof.
  intros U. unfold realign_section. destruct (negb _); cbn [throw_if bind]; [intros E0; discriminate E0|]. destruct (get_section p i) as [s| | |]; try (intros E0; discriminate E0). cbn [bind].
  assert (O : s_old (unmap_virtual s) = None) by (unfold unmap_virtual; destruct (s_old s) eqn:E; [reflexivity|exact E]).
  destruct (Nat.eqb i _); intros [= <-]; apply unmapped_put; assumption.
Qed.
Lemma realign_all_unmapped l : forall p p', unmapped p -> mfold realign_section l p = Ok p' -> unmapped p'.
Proof.
  induction l as [|i l IH]; intros p p' U; cbn [mfold]; [intros [= <-]; exact U|]. destruct (realign_section p i) as [q| | |] eqn:E; try (intros E0; discriminate E0). cbn [bind]. apply IH, (realign_unmapped p i q U E).
Qed.
Lemma zeros_plus n m : 0 <= n -> 0 <= m -> zeros n ++ zeros m = zeros (n + m).
Proof. intros. unfold zeros. rewrite <- repeat_app. f_equal. lia. Qed.
Lemma realigned_seen sa fa last s t : power_of_two sa -> sa < 2^32 -> wf_section s -> s_old s = None -> s_old t = None -> realigned fa last s t -> 0 < s_vsize s <= 2^31 -> zlen (raw_view s) <= span sa s -> ceil_mult (s_rawsize s) fa <= span sa s ->
  seen_alike false sa s t /\ zlen (raw_view t) <= span sa s.
Proof.
  intros P L W Os Ot (_ & Ev & Ea & _ & _ & _ & _ & _ & _ & _ & D) Hv Hr Hc.
  assert (As : aligned_vsize sa t = aligned_vsize sa s). { unfold aligned_vsize. rewrite Ev. replace (s_vsize s =? 0) with false by lia. rewrite !andb_false_r. reflexivity. }
  assert (Sp : aligned_vsize sa s = span sa s). { apply aligned_vsize_span; try assumption; [destruct (wf_ranges s W); tauto..|]. unfold span. replace (s_vsize s =? 0) with false by lia. pose proof (ceil_le_2_31 _ _ P L (proj2 Hv)). lia. }
  unfold seen_alike. rewrite !virt_view_unmapped by assumption. rewrite As, Sp. rewrite !raw_view_unmapped in * by assumption.
  destruct last.
  - destruct D as [(n & D) _]. assert (zlen (s_data t) <= zlen (s_data s)) by (rewrite D, zlen_app; pose proof (zlen_nonneg (zeros n)); lia).
    split; [|lia]. split; [exact Ea|]. split; [reflexivity|]. split; [discriminate|]. rewrite D at 1. rewrite <- app_assoc. f_equal. rewrite D, zlen_app, zlen_zeros_max.
    destruct (Z.le_ge_cases n 0) as [N|N].
    + replace (zeros n) with (@nil Z) by (unfold zeros; replace (Z.to_nat n) with 0%nat by lia; reflexivity). cbn [app]. f_equal. lia.
    + rewrite Z.max_r by lia. rewrite zeros_plus by (rewrite D, zlen_app, zlen_zeros_max in Hr; lia). f_equal. lia.
  - destruct D as [(n & D) Ez]. split; [|lia]. split; [exact Ea|]. split; [reflexivity|]. split; [discriminate|]. rewrite Ez. rewrite D, zlen_app, zlen_zeros_max in Ez. rewrite D, <- app_assoc. f_equal.
    destruct (Z.le_ge_cases n 0) as [N|N].
    + replace (zeros n) with (@nil Z) by (unfold zeros; replace (Z.to_nat n) with 0%nat by lia; reflexivity). cbn [app]. f_equal. lia.
    + rewrite Z.max_r in Ez by lia. rewrite zeros_plus by lia. f_equal. lia.
Qed.
Lemma Forall2_nth {A B} (R : A -> B -> Prop) l : forall k, length l = length k -> (forall i x, nth_error l i = Some x -> exists y, nth_error k i = Some y /\ R x y) -> Forall2 R l k.
Proof.
  induction l as [|x l IH]; intros [|y k] E H; try discriminate; constructor.
  - destruct (H 0%nat x eq_refl) as (y' & [= <-] & Hy). exact Hy.
  - apply IH; [injection E; auto|]. intros i z Hz. exact (H (S i) z Hz).
Qed.
Lemma Forall2_flip {A B} (R : A -> B -> Prop) (Q : B -> A -> Prop) : (forall x y, R x y -> Q y x) -> forall l k, Forall2 R l k -> Forall2 Q k l.
Proof. intros H l k F. induction F; constructor; auto. Qed.
Lemma seen_sym sa s t : seen_alike false sa s t -> seen_alike false sa t s.
Proof. intros (A & B & _ & C). repeat split; try discriminate; symmetry; assumption. Qed.
Section Realign.
Context (p : pe) (a : Z) (p' : pe) (G : good_align p) (Pa : power_of_two a) (Ha : 512 <= a <= salign p) (U : unmapped p) (R : realignable a p) (W : image_wf p) (E : realign_file p a = Ok p').
Lemma realign_facts : set_p_sections [] p' = set_p_sections [] (with_nt (set_h_falign a) p) /\ length (p_sections p) = length (p_sections p') /\ unmapped p' /\
  Forall2 (fun s t => seen_alike false (salign p) s t /\ wf_section t /\ section_loadable (with_nt (set_h_falign a) p) t /\ s_vsize t = s_vsize s) (p_sections p) (p_sections p').
Proof.
  destruct G as (Ps & Pf & Lf). destruct (realign_file_spec p a G Pa Ha) as (q & Eq & H1 & H2 & H3).
  { intros i s Hs. destruct (R i s Hs) as (R1 & R2 & R3 & R4 & R5 & R6). split; [exact R1|]. split; [|split; [exact R3|exact R6]].
    unfold span in R4. replace (s_vsize s =? 0) with false in R4 by lia. pose proof (ceil_le_2_31 _ _ Ps (proj2 Lf) (proj2 R2)). lia. }
  rewrite E in Eq. injection Eq as <-. split; [exact H1|]. split; [symmetry; exact H2|].
  assert (U' : unmapped p').
  { unfold realign_file in E. destruct (set_file_alignment p a) as [q| | |] eqn:Es; try discriminate. cbn [bind] in E. unfold realign_all_sections in E. refine (realign_all_unmapped _ q p' _ E).
    unfold set_file_alignment in Es. destruct (a <? _); cbn [throw_if bind] in Es; [discriminate|]. destruct (negb _); cbn [throw_if bind] in Es; [discriminate|]. destruct (salign p <? a); cbn [throw_if bind] in Es; [discriminate|]. injection Es as <-. exact U. }
  split; [exact U'|]. apply Forall2_nth; [symmetry; exact H2|]. intros i s Hs. destruct (H3 i s Hs) as (t & Ht & Hr & Wt). exists t. split; [exact Ht|].
  destruct (R i s Hs) as (R1 & R2 & R3 & R4 & R5 & R6).
  assert (Os : s_old s = None) by (unfold unmapped in U; rewrite Forall_forall in U; exact (U s (nth_error_In _ _ Hs))).
  assert (Ot : s_old t = None) by (unfold unmapped in U'; rewrite Forall_forall in U'; exact (U' t (nth_error_In _ _ Ht))).
  destruct (realigned_seen (salign p) a _ s t Ps (proj2 Lf) R1 Os Ot Hr R2 R4 R5) as [Sn Lt]. split; [exact Sn|]. split; [exact Wt|].
  destruct Hr as (_ & Ev & _ & _ & _ & _ & _ & _ & _ & Er & _). split; [|exact Ev].
  unfold section_loadable. rewrite Ev. split; [exact R2|]. split; [exact Er|]. change (falign (with_nt (set_h_falign a) p)) with a. change (salign (with_nt (set_h_falign a) p)) with (salign p).
  unfold span in Lt. replace (s_vsize s =? 0) with false in Lt by lia. rewrite Er. apply ceil_mult_least; [apply pow2_pos, Pa| |exact Lt].
  apply (Z.divide_trans _ (salign p)); [apply pow2_divide; [exact Pa|exact Ps|lia]|]. apply ceil_mult_least, pow2_pos, Ps.
Qed.
Lemma realign_nt : p_nt p' = set_h_falign a (p_nt p) /\ p_plus p' = p_plus p /\ p_full p' = p_full p /\ p_stub p' = p_stub p /\ p_magic p' = p_magic p /\ p_dosmid p' = p_dosmid p /\ p_lfanew p' = p_lfanew p.
Proof.
  destruct realign_facts as (H & _).
  split; [exact (f_equal p_nt H)|]. split; [exact (f_equal p_plus H)|]. split; [exact (f_equal p_full H)|]. split; [exact (f_equal p_stub H)|]. split; [exact (f_equal p_magic H)|].
  split; [exact (f_equal p_dosmid H)|exact (f_equal p_lfanew H)].
Qed.
Lemma realign_alike : alike false p p' /\ alike false p' p.
Proof.
  destruct realign_facts as (_ & _ & _ & F). destruct realign_nt as (N & N1 & N2 & _). destruct W as (_ & _ & _ & _ & _ & _ & _ & _ & Ws & Bf & _).
  assert (Ws' : Forall wf_section (p_sections p')) by (clear -F; induction F as [|? ? ? ? H]; constructor; [tauto|assumption]).
  assert (F1 : Forall2 (seen_alike false (salign p)) (p_sections p) (p_sections p')) by (clear -F; induction F as [|? ? ? ? H]; constructor; [tauto|assumption]).
  assert (Es : salign p' = salign p) by (unfold salign; rewrite N; reflexivity).
  split; constructor; unfold imagebase, salign, chars, nrva; rewrite ?N; try reflexivity; try assumption.
  - right; exact N2.
  - split; assumption.
  - symmetry; exact N1.
  - apply (Forall2_flip (seen_alike false (salign p))); [apply seen_sym|exact F1].
  - right; symmetry; exact N2.
  - split; [exact Ws'|rewrite N2; exact Bf].
Qed.
Lemma realign_dirs id : same_dir p p' id /\ same_dir p' p id.
Proof.
  destruct realign_nt as (N & _). unfold same_dir, directory_exists, get_directory_rva, get_directory_size, nrva. rewrite N. repeat split; reflexivity.
Qed.
End Realign.
(** ** Readers of tables, through memory *)
Lemma tables_alike p r : alike false p r -> dirs_ok p -> (forall id, 0 <= id -> id <> 11 -> same_dir p r id) ->
  (forall info, sub (get_exports p info) (get_exports r info)) /\ sub (get_imports p) (get_imports r) /\ (forall abs, sub (get_relocations p abs) (get_relocations r abs)) /\ sub (get_tls p) (get_tls r) /\
  sub (get_exception_directory_data p) (get_exception_directory_data r) /\ sub (get_resources p) (get_resources r) /\ sub (get_basic_dotnet_info p) (get_basic_dotnet_info r).
Proof.
  intros A D S.
  split; [intros info; apply (keep_exports false _ _ A D), S; unfold dir_export; lia|]. split; [apply (keep_imports false _ _ A), S; unfold dir_import; lia|].
  split; [intros abs; apply (keep_relocations false _ _ A D), S; unfold dir_basereloc; lia|]. split; [apply (keep_tls false _ _ A), S; unfold dir_tls; lia|].
  split; [apply (keep_exceptions false _ _ A D), S; unfold dir_exception; lia|].
  split; [apply (keep_resources false _ _ A), S; unfold dir_resource; lia|]. apply (keep_dotnet false _ _ A), S; unfold dir_com; lia.
Qed.
Theorem realign_reads p a p' : good_align p -> power_of_two a -> 512 <= a <= salign p -> unmapped p -> realignable a p -> image_wf p -> realign_file p a = Ok p' -> all_alike p p'.
Proof.
  intros G Pa Ha U R W E. destruct (realign_alike p a p' G Pa Ha U R W E) as [A B]. assert (D : dirs_ok p) by (unfold image_wf in W; tauto).
  assert (D' : dirs_ok p') by (destruct (realign_nt p a p' G Pa Ha U R E) as (N & _); unfold dirs_ok; rewrite N; exact D).
  destruct (tables_alike p p' A D (fun id _ _ => proj1 (realign_dirs p a p' G Pa Ha U R E id))) as (A1 & A2 & A3 & A4 & A5 & A6 & A7).
  destruct (tables_alike p' p B D' (fun id _ _ => proj2 (realign_dirs p a p' G Pa Ha U R E id))) as (B1 & B2 & B3 & B4 & B5 & B6 & B7).
  split; [intros info x; split; [apply A1|apply B1]|]. split; [intros x; split; [apply A2|apply B2]|]. split; [intros abs x; split; [apply A3|apply B3]|]. split; [intros x; split; [apply A4|apply B4]|].
  split; [intros x; split; [apply A5|apply B5]|]. split; [intros x; split; [apply A6|apply B6]|]. intros x; split; [apply A7|apply B7].
Qed.
Lemma chain_same sa l k start : Forall2 (fun s t => s_va t = s_va s /\ s_vsize t = s_vsize s /\ 0 < s_vsize s) l k -> chain sa start l -> chain sa start k /\ chain_end sa start k = chain_end sa start l.
Proof.
  intros F. revert start. induction F as [|s t l k (H1 & H2 & H3) _ IH]; intros start C; [split; [exact Logic.I|reflexivity]|]. destruct C as [C1 C2].
  assert (Es : send sa t = send sa s). { unfold send, span. rewrite H1, H2. replace (s_vsize s =? 0) with false by lia. reflexivity. }
  cbn [chain chain_end]. rewrite Es, H1. destruct (IH _ C2) as [I1 I2]. split; [split; assumption|exact I2].
Qed.
Lemma fits_falign plus h a : is_u32 a -> fits (nt_widths plus) (nt_fields plus h) -> fits (nt_widths plus) (nt_fields plus (set_h_falign a h)).
Proof. intros A. unfold is_u32 in A. destruct plus, h; cbn [nt_widths nt_fields set_h_falign fits]; tauto || (intros H; repeat (destruct H as [? H]; split; [assumption || (cbn; lia)|]); exact H). Qed.
Theorem realign_consistent p a p' : laid_out p -> power_of_two a -> 512 <= a <= salign p -> unmapped p -> realignable a p -> realign_file p a = Ok p' -> consistent p' /\ unmapped p'.
Proof.
  intros (W & L1 & L2 & L3 & L4 & L5 & G & L6 & (start & S1 & S2 & S3 & S4)) Pa Ha U R E.
  destruct (realign_nt p a p' G Pa Ha U R E) as (N & N1 & N2 & N3 & N4 & N5 & N6). destruct (realign_facts p a p' G Pa Ha U R E) as (_ & Len & U' & F).
  split; [|exact U']. destruct G as (Ps & Pf & Lf).
  assert (Ws : Forall wf_section (p_sections p')) by (clear -F; induction F as [|? ? ? ? H]; constructor; [tauto|assumption]).
  assert (Es : salign p' = salign p) by (unfold salign; rewrite N; reflexivity).
  assert (Eh : hdrsize p' = hdrsize p) by (unfold hdrsize; rewrite N; reflexivity).
  split.
  { unfold image_wf in *. unfold dirs_ok, nrva in *. rewrite N, N1, N2, N3, N4, N5, N6. destruct W as (W1 & W2 & W3 & W4 & W5 & W6 & W7 & W8 & W9 & W10).
    repeat (split; [assumption|]). split; [apply fits_falign; [unfold is_u32; lia|assumption]|]. split; [exact W7|]. split; [exact W8|]. split; [exact Ws|exact W10]. }
  split; [rewrite N3; exact L1|]. split; [rewrite N4; exact L2|]. split; [rewrite N; exact L3|]. split; [rewrite N, N1; exact L4|]. split; [rewrite N, N1; exact L5|].
  split. { rewrite N. repeat split; try assumption; try exact Pa; try (change (h_salign (set_h_falign a (p_nt p))) with (salign p)); try (change (h_falign (set_h_falign a (p_nt p))) with a); try lia. }
  split; [unfold zlen in *; rewrite <- Len; exact L6|].
  assert (F2 : Forall2 (fun s t => s_va t = s_va s /\ s_vsize t = s_vsize s /\ 0 < s_vsize s) (p_sections p) (p_sections p')).
  { clear -F. induction F as [|? ? ? ? (H1 & H2 & H3 & H4)]; constructor; [|assumption]. destruct H1 as (H1 & _). destruct H3 as (H3 & _). rewrite H4 in H3. repeat split; try assumption. lia. }
  split.
  { exists start. rewrite Eh, Es. destruct (chain_same (salign p) _ _ start F2 S3) as [C1 C2]. rewrite C2. repeat split; assumption. }
  assert (Ef : falign p' = a) by (unfold falign; rewrite N; reflexivity). clear -F Es Ef. induction F as [|? ? ? ? (H1 & H2 & H3 & H4)]; constructor; [|assumption].
  unfold section_loadable in *. rewrite Ef, Es. exact H3.
Qed.
Lemma alike_only raw p r : alike raw p r -> alike raw (sections_only p) (sections_only r).
Proof. intros []. constructor; try assumption; [right; reflexivity|]. split; [tauto|apply Forall_nil]. Qed.
Theorem realign_written p a p' strip chg save q out r : laid_out p -> power_of_two a -> 512 <= a <= salign p -> unmapped p -> realignable a p -> 0 < nrva p -> realign_file p a = Ok p' ->
  data_start strip save p' + data_total (falign p') (p_sections p') < 2^32 -> no_stale_pointers (data_start strip save p') p' -> rebuild_pe p' strip chg save = Ok (q, out) -> loaded_from out r ->
  tables_kept p r.
Proof.
  intros L Pa Ha U R N E T NS B H. destruct (realign_consistent p a p' L Pa Ha U R E) as [C U']. pose proof L as (W & _ & _ & _ & _ & _ & G & _).
  destruct (realign_nt p a p' G Pa Ha U R E) as (Nt & N1 & N2 & _).
  assert (N' : 0 < nrva p') by (unfold nrva; rewrite Nt; exact N). destruct (written_kept p' strip chg save q out C U' N' T NS B r H) as (K1 & K2 & K3 & K4 & _ & K6 & K7 & K8).
  destruct (realign_alike p a p' G Pa Ha U R W E) as [A _]. assert (D : dirs_ok (sections_only p)) by (change (dirs_ok p); unfold image_wf in W; tauto).
  destruct (tables_alike _ _ (alike_only _ _ _ A) D (fun id _ _ => proj1 (realign_dirs p a p' G Pa Ha U R E id))) as (A1 & A2 & A3 & A4 & A6 & A7 & A8). unfold tables_kept, still_reads in *.
  split; [intros i x X; apply K1, A1, X|]. split; [intros x X; apply K2, A2, X|]. split; [intros i x X; apply K3, A3, X|]. split; [intros x X; apply K4, A4, X|].
  split; [intros x X; apply K6, A6, X|]. split; [intros x X; apply K7, A7, X|]. intros x X; apply K8, A8, X.
Qed.
