(** Creating an image, adding sections, realigning, writing and loading it (C62). *)
From Verif Require Import SpecRebuild PeFacts PeEditFacts RebuildFacts ReloadFacts ReloadDone LoadFacts.

(** The section that add_section makes of [s] at address [va]. *)
Definition placed (fa sa va : Z) (s : section) : section :=
  let raw := ceil_mult (zlen (raw_view s)) fa in
  set_s_va va (set_s_vsize (if s_vsize s =? 0 then raw else Z.max raw (ceil_mult (s_vsize s) sa))
         (set_s_rawsize raw (unmap_virtual s))).
Fixpoint lay (fa sa va : Z) (l : list section) : list section :=
  match l with [] => [] | s :: t => placed fa sa va s :: lay fa sa (va + space sa s) t end.

Lemma ceil_ceil x a b : power_of_two a -> power_of_two b -> a <= b -> 0 <= x -> ceil_mult (ceil_mult x a) b = ceil_mult x b.
Proof.
  intros Pa Pb L X. pose proof (pow2_pos _ Pa) as A0. pose proof (pow2_pos _ Pb) as B0.
  pose proof (pow2_divide _ _ Pa Pb L) as D.
  pose proof (ceil_mult_least x a A0) as (A1 & A2 & A3 & A4).
  pose proof (ceil_mult_least x b B0) as (B1 & B2 & B3 & B4).
  pose proof (ceil_mult_least (ceil_mult x a) b B0) as (C1 & C2 & C3 & C4).
  apply Z.le_antisymm.
  - apply C4; [exact B1|]. apply A4; [apply (Z.divide_trans _ b); assumption|lia].
  - apply B4; [exact C1|lia].
Qed.
Lemma ceil_max x y a : 0 < a -> ceil_mult (Z.max x y) a = Z.max (ceil_mult x a) (ceil_mult y a).
Proof.
  intros A. destruct (Z.max_spec x y) as [[H ->]|[H ->]].
  - rewrite Z.max_r; [reflexivity|]. apply ceil_mult_mono; lia.
  - rewrite Z.max_l; [reflexivity|]. apply ceil_mult_mono; lia.
Qed.
Lemma space_pos sa s : power_of_two sa -> (raw_view s <> [] \/ s_vsize s <> 0) -> 0 <= s_vsize s -> 0 < space sa s.
Proof.
  intros P H V. unfold space. pose proof (pow2_pos _ P) as A. pose proof (ceil_mult_least (Z.max (zlen (raw_view s)) (s_vsize s)) sa A) as (B1 & B2 & B3 & B4).
  assert (0 < Z.max (zlen (raw_view s)) (s_vsize s)).
  { destruct H as [H|H]; [|lia]. destruct (raw_view s); [congruence|]. rewrite zlen_cons. pose proof (zlen_nonneg l). lia. }
  lia.
Qed.
Lemma placed_fields fa sa va s :
  s_name (placed fa sa va s) = s_name s /\ s_chars (placed fa sa va s) = s_chars s /\ s_va (placed fa sa va s) = va /\
  s_rawptr (placed fa sa va s) = s_rawptr s /\ s_rawsize (placed fa sa va s) = ceil_mult (zlen (raw_view s)) fa /\
  raw_view (placed fa sa va s) = raw_view s /\ s_old (placed fa sa va s) = None /\ s_data (placed fa sa va s) = raw_view s /\
  s_vsize (placed fa sa va s) = (if s_vsize s =? 0 then ceil_mult (zlen (raw_view s)) fa else Z.max (ceil_mult (zlen (raw_view s)) fa) (ceil_mult (s_vsize s) sa)).
Proof.
  unfold placed, raw_view, unmap_virtual. destruct (s_old s) eqn:O;
  cbn [set_s_va set_s_vsize set_s_rawsize set_s_old set_s_data s_name s_chars s_va s_rawptr s_rawsize s_old s_data s_vsize]; rewrite ?O; repeat split; reflexivity.
Qed.
Lemma placed_span fa sa va s : power_of_two fa -> power_of_two sa -> fa <= sa -> (raw_view s <> [] \/ s_vsize s <> 0) -> 0 <= s_vsize s ->
  span sa (placed fa sa va s) = space sa s /\ 0 < s_vsize (placed fa sa va s).
Proof.
  intros Pf Ps L H V. destruct (placed_fields fa sa va s) as (_ & _ & _ & _ & R & _ & _ & _ & E).
  pose proof (pow2_pos _ Pf) as F0. pose proof (pow2_pos _ Ps) as S0. pose proof (zlen_nonneg (raw_view s)) as Z0.
  pose proof (ceil_mult_least (zlen (raw_view s)) fa F0) as (B1 & B2 & B3 & B4).
  pose proof (ceil_mult_least (s_vsize s) sa S0) as (C1 & C2 & C3 & C4).
  assert (Vp : 0 < s_vsize (placed fa sa va s)).
  { rewrite E. destruct (Z.eqb_spec (s_vsize s) 0) as [E0|E0]; [|lia]. destruct H as [H|H]; [|congruence].
    destruct (raw_view s); [congruence|]. rewrite zlen_cons in *. pose proof (zlen_nonneg l). lia. }
  split; [|exact Vp]. unfold span. destruct (Z.eqb_spec (s_vsize (placed fa sa va s)) 0); [lia|]. rewrite E. unfold space.
  destruct (Z.eqb_spec (s_vsize s) 0) as [E0|E0].
  - rewrite E0, Z.max_l by lia. apply ceil_ceil; assumption || lia.
  - rewrite !ceil_max by lia. rewrite !ceil_ceil by (assumption || lia). reflexivity.
Qed.
Lemma space_div sa s : 0 < sa -> (sa | space sa s).
Proof. intros H. unfold space. apply (ceil_mult_least _ sa H). Qed.
Lemma total_space_nonneg sa l : power_of_two sa -> Forall to_add l -> 0 <= total_space sa l.
Proof.
  intros P F. induction F as [|s l N F IH]; cbn [total_space]; [lia|].
  destruct N as (W & _ & _ & N & _). destruct (wf_ranges s W) as (V & _).
  pose proof (space_pos sa s P N ltac:(unfold is_u32 in V; lia)). lia.
Qed.
Lemma new_vsize s : to_add s -> 0 <= s_vsize s.
Proof. intros (W & _). destruct (wf_ranges s W) as (V & _). unfold is_u32 in V. lia. Qed.
Lemma lay_app fa sa va l1 l2 : lay fa sa va (l1 ++ l2) = lay fa sa va l1 ++ lay fa sa (va + total_space sa l1) l2.
Proof.
  revert va. induction l1 as [|s l1 IH]; intros va; cbn [lay total_space app].
  - rewrite Z.add_0_r. reflexivity.
  - rewrite IH. do 3 f_equal. lia.
Qed.
Lemma total_space_app sa l1 l2 : total_space sa (l1 ++ l2) = total_space sa l1 + total_space sa l2.
Proof. induction l1 as [|s l1 IH]; cbn [total_space app]; lia. Qed.
Lemma lay_length fa sa va l : length (lay fa sa va l) = length l.
Proof. revert va. induction l as [|s l IH]; intros va; cbn [lay length]; [reflexivity|rewrite IH; reflexivity]. Qed.
Lemma lay_chain fa sa va l : power_of_two fa -> power_of_two sa -> fa <= sa -> Forall to_add l ->
  chain sa va (lay fa sa va l) /\ chain_end sa va (lay fa sa va l) = va + total_space sa l.
Proof.
  intros Pf Ps L F. revert va. induction F as [|s l N F IH]; intros va; cbn [lay chain chain_end total_space].
  - split; [exact I|lia].
  - pose proof (new_vsize s N) as V. destruct N as (_ & _ & _ & N & _).
    destruct (placed_span fa sa va s Pf Ps L N V) as [Sp _].
    assert (E : send sa (placed fa sa va s) = va + space sa s) by (unfold send; rewrite Sp; reflexivity).
    rewrite E. destruct (IH (va + space sa s)) as [A B]. split; [split; [reflexivity|exact A]|]. rewrite B. lia.
Qed.
Lemma prepare_placed fa sa s : power_of_two fa -> power_of_two sa -> fa <= sa < 2^32 -> to_add s ->
  exists s', prepare_section fa sa s = Ok s' /\ (forall va, set_s_va va s' = placed fa sa va s) /\ s_va s' = s_va s /\ wf_section s' /\ 0 < s_vsize s' <= 2^31.
Proof.
  intros Pf Ps L (W & D & V & N & _).
  destruct (prepare_section_total fa sa s Pf ltac:(lia) D ltac:(apply pow2_le31; [assumption|lia]) N) as [s' E].
  destruct (prepare_section_ok fa sa s s' Pf Ps L W D V ltac:(apply pow2_le31; [assumption|lia]) E) as (P1 & _ & P3 & _ & P5).
  exists s'. split; [exact E|]. split; [intros va; rewrite P1; reflexivity|]. split; [|split; assumption].
  rewrite P1. cbn [set_s_vsize set_s_rawsize s_va]. unfold unmap_virtual. destruct (s_old s); reflexivity.
Qed.
Lemma rawsize_id s : set_s_rawsize (s_rawsize s) s = s.
Proof. destruct s; reflexivity. Qed.
Lemma set_nt_twice p l1 n1 v1 l2 n2 v2 :
  set_size_of_image v2 (set_number_of_sections n2 (set_p_sections l2 (set_p_sections l1 (with_nt (fun h => set_h_nsections n1 (set_h_imagesize v1 h)) p)))) =
  set_p_sections l2 (with_nt (fun h => set_h_nsections n2 (set_h_imagesize v2 h)) p).
Proof. destruct p as [? ? ? ? ? h ? ? ? ?]; destruct h; reflexivity. Qed.
Definition state (p0 : pe) (l : list section) (v : Z) : pe :=
  set_p_sections l (with_nt (fun h => set_h_nsections (zlen l) (set_h_imagesize v h)) p0).

Section Adding.
Variables (p0 : pe) (l0 : list section) (start : Z) (auto : bool).
Hypothesis G : good_align p0.
Hypothesis Hs : (salign p0 | start).
Hypothesis Hs0 : 0 <= start.

Lemma add_next l s v : l <> [] -> zlen l < 96 -> Forall to_add (l ++ [s]) -> start + total_space (salign p0) (l ++ [s]) < 2^32 ->
  exists v', is_u32 v' /\ add_section (state p0 (lay (falign p0) (salign p0) start l) v) s auto =
    Ok (state p0 (lay (falign p0) (salign p0) start (l ++ [s])) v').
Proof.
  intros NE N96 F T. pose proof G as (Ps & Pf & L). pose proof (pow2_pos _ Ps) as Ps0. pose proof (pow2_pos _ Pf) as Pf0.
  apply Forall_app in F as [F Fs]. apply Forall_inv in Fs. rewrite total_space_app in T. cbn [total_space] in T.
  set (fa := falign p0) in *. set (sa := salign p0) in *.
  destruct (exists_last NE) as [pre [z Ez]]. subst l.
  pose proof F as F'. apply Forall_app in F' as [Fp Fz]. apply Forall_inv in Fz.
  pose proof (total_space_nonneg sa pre Ps Fp) as Tp.
  rewrite total_space_app in T. cbn [total_space] in T.
  pose proof (new_vsize s Fs) as Vs. pose proof (new_vsize z Fz) as Vz.
  assert (Ns := Fs). destruct Ns as (Ws & Ds & _ & Ns & _). assert (Nz := Fz). destruct Nz as (Wz & Dz & Vz' & Nz & _).
  pose proof (space_pos sa s Ps Ns Vs) as SPs. pose proof (space_pos sa z Ps Nz Vz) as SPz.
  set (zz := placed fa sa (start + total_space sa pre) z).
  assert (Lay : lay fa sa start (pre ++ [z]) = lay fa sa start pre ++ [zz]) by (rewrite lay_app; reflexivity).
  assert (Lay2 : lay fa sa start ((pre ++ [z]) ++ [s]) = (lay fa sa start pre ++ [zz]) ++ [placed fa sa (start + total_space sa pre + space sa z) s]).
  { rewrite lay_app, Lay, total_space_app. cbn [total_space lay]. rewrite Z.add_0_r, Z.add_assoc. reflexivity. }
  rewrite Lay2, Lay. clear Lay Lay2.
  assert (Zl : zlen (lay fa sa start pre ++ [zz]) = zlen (pre ++ [z])).
  { unfold zlen. rewrite !app_length, lay_length. reflexivity. }
  set (old := lay fa sa start pre) in *.
  destruct (placed_fields fa sa (start + total_space sa pre) z) as (_ & _ & Z3 & _ & Z5 & Z6 & Z7 & Z8 & Z9). fold zz in Z3, Z5, Z6, Z7, Z8, Z9.
  destruct (placed_span fa sa (start + total_space sa pre) z Pf Ps ltac:(lia) Nz Vz) as [Zsp Zv]. fold zz in Zsp, Zv.
  destruct (prepare_placed fa sa s Pf Ps L Fs) as (s' & E' & Ps' & Va' & W' & V').
  destruct (prepare_placed fa sa z Pf Ps L Fz) as (z' & Ez' & Pz' & Vaz' & Wz' & Vz'').
  assert (Wzz : wf_section zz).
  { unfold zz. rewrite <- Pz'. apply wf_set_va; [unfold is_u32; lia|exact Wz']. }
  unfold add_section. change (p_sections (state p0 (old ++ [zz]) v)) with (old ++ [zz]).
  change (falign (state p0 (old ++ [zz]) v)) with fa. change (salign (state p0 (old ++ [zz]) v)) with sa.
  rewrite Zl. unfold maximum_number_of_sections. destruct (Z.leb_spec 0x60 (zlen (pre ++ [z]))) as [C|_]; [lia|].
  cbn [throw_if bind]. rewrite E'. cbn [bind]. rewrite rev_app_distr. cbn [rev app].
  destruct (wf_ranges zz Wzz) as (R1 & R2 & R3 & R4).
  rewrite (aligned_vsize_span sa zz Ps ltac:(lia) R1 R3) by lia. rewrite Zsp, Z3.
  rewrite (u32_small (start + total_space sa pre + space sa z)) by lia.
  rewrite align_up_id; [|exact Ps|lia|unfold is_u32; lia|].
  2:{ apply Z.divide_add_r; [|apply space_div; assumption]. apply Z.divide_add_r; [exact Hs|].
      clear - Ps0. induction pre as [|x l IH]; cbn [total_space]; [apply Z.divide_0_r|]. apply Z.divide_add_r; [apply space_div; assumption|exact IH]. }
  assert (Keep : (if auto then set_s_rawsize (u32 (align_up64 (zlen (s_data (unmap_virtual zz))) fa)) (unmap_virtual zz) else zz) = zz).
  { destruct auto; [|reflexivity]. unfold unmap_virtual. rewrite Z7, Z8.
    rewrite align_up64_small; [|exact Pf|lia|pose proof (zlen_nonneg (raw_view z)); lia].
    rewrite <- Z5. rewrite (u32_small (s_rawsize zz)) by exact R3. apply rawsize_id. }
  rewrite Keep, Ps'. rewrite app_length. cbn [length]. replace (length old + 1 - 1)%nat with (length old) by lia. rewrite upd_last.
  unfold state. rewrite set_nt_twice.
  assert (Zl2 : zlen ((old ++ [zz]) ++ [placed fa sa (start + total_space sa pre + space sa z) s]) = zlen (pre ++ [z]) + 1).
  { rewrite zlen_app, Zl. reflexivity. }
  rewrite Zl2. rewrite u16_small by (pose proof (zlen_nonneg (pre ++ [z])); lia).
  eexists. split; [apply u32_range|]. reflexivity.
Qed.
Lemma add_rest l2 : forall l v, l <> [] -> zlen (l ++ l2) <= 96 -> Forall to_add (l ++ l2) ->
  start + total_space (salign p0) (l ++ l2) < 2^32 -> is_u32 v ->
  exists v', is_u32 v' /\ mfold (fun p s => add_section p s auto) l2 (state p0 (lay (falign p0) (salign p0) start l) v) =
    Ok (state p0 (lay (falign p0) (salign p0) start (l ++ l2)) v').
Proof.
  pose proof G as (Ps & Pf & L).
  induction l2 as [|s l2 IH]; intros l v NE N96 F T V.
  - exists v. rewrite app_nil_r. split; [exact V|reflexivity].
  - cbn [mfold]. replace (l ++ s :: l2) with ((l ++ [s]) ++ l2) in * by (rewrite <- app_assoc; reflexivity).
    pose proof F as F'. apply Forall_app in F' as [F1 F2].
    destruct (add_next l s v NE) as (v1 & V1 & E1); [|exact F1| |].
    + rewrite !zlen_app in N96. change (zlen [s]) with 1 in N96. pose proof (zlen_nonneg l2). lia.
    + rewrite total_space_app in T. pose proof (total_space_nonneg (salign p0) l2 Ps F2). lia.
    + rewrite E1. cbn [bind]. apply IH; try assumption. destruct l; discriminate.
Qed.
End Adding.

Lemma state_nil p : p_sections p = [] -> forall l n v, set_size_of_image v (set_number_of_sections n (set_p_sections l p)) =
  set_p_sections l (with_nt (fun h => set_h_nsections n (set_h_imagesize v h)) p).
Proof. intros E l n v. destruct p as [? ? ? ? ? h ? ? ? ?]; destruct h; reflexivity. Qed.

Lemma add_all p0 l auto : good_align p0 -> p_sections p0 = [] -> hdrsize p0 = 1024 -> l <> [] -> zlen l <= 96 -> Forall to_add l ->
  first_address (salign p0) l + total_space (salign p0) l < 2^32 ->
  exists v, is_u32 v /\ mfold (fun p s => add_section p s auto) l p0 =
    Ok (state p0 (lay (falign p0) (salign p0) (first_address (salign p0) l) l) v).
Proof.
  intros G E H NE N96 F T. pose proof G as (Ps & Pf & L). pose proof (pow2_pos _ Ps) as Ps0.
  destruct l as [|s l]; [congruence|]. pose proof F as F'. apply Forall_cons_iff in F' as [Fs Fl].
  pose proof (new_vsize s Fs) as Vs. assert (Ns := Fs). destruct Ns as (Ws & Ds & _ & Ns & _ & Va).
  destruct (wf_ranges s Ws) as (R1 & R2 & R3 & R4).
  pose proof (space_pos (salign p0) s Ps Ns Vs) as SPs. cbn [total_space] in T. pose proof (total_space_nonneg (salign p0) l Ps Fl) as Tl.
  assert (F0 : 0 <= first_address (salign p0) (s :: l) /\ (salign p0 | first_address (salign p0) (s :: l))).
  { cbn [first_address]. pose proof (ceil_mult_least (if s_va s =? 0 then 1024 else s_va s) (salign p0) Ps0) as (B1 & B2 & B3 & B4).
    split; [|exact B1]. unfold is_u32 in R2. destruct (s_va s =? 0); lia. }
  destruct F0 as [F0 F1].
  set (st := first_address (salign p0) (s :: l)) in *.
  cbn [mfold]. unfold add_section at 1. rewrite E. change (maximum_number_of_sections <=? zlen []) with false. cbn [throw_if bind].
  destruct (prepare_placed (falign p0) (salign p0) s Pf Ps L Fs) as (s' & E' & Ps' & Va' & W' & V').
  rewrite E'. cbn [bind rev]. rewrite Va', H.
  assert (Hst : (if s_va s =? 0 then align_up 1024 (salign p0) else align_up (s_va s) (salign p0)) = st).
  { unfold st in *. cbn [first_address] in *. unfold is_u32 in R2.
    destruct (s_va s =? 0); apply align_up_small; try assumption; lia. }
  rewrite Hst, Ps'. cbn [app]. change (u16 (zlen [placed (falign p0) (salign p0) st s])) with 1.
  rewrite (state_nil p0 E).
  set (v := u32 _). assert (Iv : is_u32 v) by apply u32_range. clearbody v.
  destruct (add_rest p0 st auto G F1 F0 l [s] v) as (v' & V1 & V2); [discriminate|exact N96|exact F|exact T|exact Iv|].
  exists v'. split; [exact V1|]. cbn [app] in V2. rewrite <- V2. cbn [lay]. unfold state. change (zlen [placed (falign p0) (salign p0) st s]) with 1. reflexivity.
Qed.

Lemma set_sections_eq p q : set_p_sections [] p = set_p_sections [] q -> p = set_p_sections (p_sections p) q.
Proof.
  intros E. destruct p as [a1 a2 a3 a4 a5 a6 a7 a8 a9 a10], q as [b1 b2 b3 b4 b5 b6 b7 b8 b9 b10].
  cbv [set_p_sections p_sections p_plus p_magic p_dosmid p_lfanew p_stub p_nt p_overlay p_full p_debug] in *.
  injection E. intros; subst; reflexivity.
Qed.
Lemma lay_nth fa sa va l i s : nth_error l i = Some s -> exists va', nth_error (lay fa sa va l) i = Some (placed fa sa va' s).
Proof.
  revert va i. induction l as [|x l IH]; intros va [|i] H; cbn [nth_error lay] in *; try discriminate.
  - inversion H; subst. exists va. reflexivity.
  - apply IH, H.
Qed.
Lemma lay_nth_inv fa sa va l i t : nth_error (lay fa sa va l) i = Some t -> exists s va', nth_error l i = Some s /\ t = placed fa sa va' s.
Proof.
  revert va i. induction l as [|x l IH]; intros va [|i] H; cbn [nth_error lay] in *; try discriminate.
  - inversion H; subst. exists x, va. split; reflexivity.
  - apply (IH _ _ H).
Qed.
Lemma lay_wf fa sa va l : power_of_two fa -> power_of_two sa -> fa <= sa < 2^32 -> 0 <= va -> Forall to_add l -> va + total_space sa l < 2^32 ->
  Forall wf_section (lay fa sa va l) /\ Forall (fun s => va <= s_va s /\ 0 < s_vsize s <= 2^31) (lay fa sa va l).
Proof.
  intros Pf Ps L V F. revert va V. induction F as [|s l N F IH]; intros va V T; cbn [lay total_space] in *; [split; constructor|].
  pose proof (new_vsize s N) as Vs. pose proof (total_space_nonneg sa l Ps F) as Tl.
  destruct (prepare_placed fa sa s Pf Ps L N) as (s' & E' & Ps' & Va' & W' & V').
  destruct N as (_ & _ & _ & N & _). pose proof (space_pos sa s Ps N Vs) as Sp.
  destruct (IH (va + space sa s)) as [A B]; [lia|lia|]. split; constructor.
  - rewrite <- Ps'. apply wf_set_va; [unfold is_u32; lia|exact W'].
  - exact A.
  - rewrite <- Ps'. cbn [set_s_va s_va s_vsize]. split; [lia|exact V'].
  - eapply Forall_impl; [|exact B]. cbn beta. intros x Hx. lia.
Qed.
Lemma nth_Forall {A} (P : A -> Prop) l : (forall i x, nth_error l i = Some x -> P x) -> Forall P l.
Proof. intros H. apply Forall_forall. intros x Hx. apply In_nth_error in Hx as [i Hi]. exact (H i x Hi). Qed.
Lemma nth_Forall2 {A B} (P : A -> B -> Prop) l : forall m, length l = length m ->
  (forall i x, nth_error l i = Some x -> exists y, nth_error m i = Some y /\ P x y) -> Forall2 P l m.
Proof.
  induction l as [|x l IH]; intros [|y m] L H; cbn [length] in L; try lia; constructor.
  - destruct (H O x eq_refl) as (z & E & Hz). inversion E; subst. exact Hz.
  - apply IH; [lia|]. intros i z Hz. exact (H (S i) z Hz).
Qed.
Lemma chain_ext sa : forall l m start, Forall2 (fun s t => s_va t = s_va s /\ s_vsize t = s_vsize s /\ s_vsize s <> 0) l m ->
  chain sa start l -> chain sa start m /\ chain_end sa start m = chain_end sa start l.
Proof.
  intros l m start F. revert start. induction F as [|s t l m (E1 & E2 & E3) F IH]; intros start C; [split; [exact I|reflexivity]|].
  cbn [chain chain_end] in *. destruct C as [C1 C2].
  assert (E : send sa t = send sa s).
  { unfold send, span. rewrite E1, E2. destruct (Z.eqb_spec (s_vsize s) 0); [congruence|reflexivity]. }
  rewrite E. destruct (IH _ C2) as [A B]. split; [split; [lia|exact A]|exact B].
Qed.

Definition created (plus : bool) (sa : Z) (dll : bool) (subsystem : Z) (L : list section) (n v a : Z) : pe :=
  set_p_sections L (with_nt (set_h_falign a) (with_nt (fun h => set_h_nsections n (set_h_imagesize v h)) (create_pe plus sa dll subsystem))).
Lemma created_fields plus sa dll subsystem L n v a :
  p_plus (created plus sa dll subsystem L n v a) = plus /\ p_magic (created plus sa dll subsystem L n v a) = 0x5a4d /\
  p_stub (created plus sa dll subsystem L n v a) = [] /\ p_sections (created plus sa dll subsystem L n v a) = L /\
  h_signature (p_nt (created plus sa dll subsystem L n v a)) = 0x4550 /\
  h_magic (p_nt (created plus sa dll subsystem L n v a)) = (if plus then 0x20b else 0x10b) /\
  h_basedata (p_nt (created plus sa dll subsystem L n v a)) = 0 /\
  salign (created plus sa dll subsystem L n v a) = sa /\ falign (created plus sa dll subsystem L n v a) = a /\
  hdrsize (created plus sa dll subsystem L n v a) = 1024 /\ nrva (created plus sa dll subsystem L n v a) = 16 /\
  h_dirs (p_nt (created plus sa dll subsystem L n v a)) = repeat (0, 0) 16 /\
  h_subsystem (p_nt (created plus sa dll subsystem L n v a)) = subsystem /\
  Z.land (h_chars (p_nt (created plus sa dll subsystem L n v a))) 0x2000 = (if dll then 0x2000 else 0).
Proof. destruct plus, dll; repeat split; reflexivity. Qed.
Lemma created_fits plus sa dll subsystem L n v a :
  is_u32 sa -> is_u32 a -> is_u32 v -> is_u16 n -> is_u16 subsystem ->
  fits (nt_widths plus) (nt_fields plus (p_nt (created plus sa dll subsystem L n v a))).
Proof.
  unfold is_u32, is_u16. intros. assert (256 ^ Z.of_nat 4 = 2^32) as E4 by reflexivity. assert (256 ^ Z.of_nat 2 = 2^16) as E2 by reflexivity.
  destruct plus, dll; cbv -[Z.pow Z.le Z.lt Z.of_nat]; rewrite ?E4, ?E2;
  repeat (split; [first [lia|split; [vm_compute; congruence|vm_compute; reflexivity]]|]); exact I.
Qed.
Lemma created_wf plus sa dll subsystem L n v a :
  is_u32 sa -> is_u32 a -> is_u32 v -> is_u16 n -> is_u16 subsystem -> Forall wf_section L ->
  image_wf (created plus sa dll subsystem L n v a).
Proof.
  intros H1 H2 H3 H4 H5 W. unfold image_wf. destruct (created_fields plus sa dll subsystem L n v a) as (E1 & E2 & E3 & E4 & E5 & E6 & E7 & E8 & E9 & E10 & E11 & E12 & E13 & E14).
  split; [rewrite E2; lia|]. split.
  { destruct plus, dll; (repeat (constructor; [split; [vm_compute; congruence|vm_compute; reflexivity]|])); constructor. }
  split; [destruct plus, dll; reflexivity|]. split; [destruct plus, dll; split; vm_compute; congruence|]. split; [rewrite E3; constructor|].
  split; [rewrite E1; apply created_fits; assumption|]. split.
  { unfold dirs_ok. rewrite E12. split; [reflexivity|]. apply Forall_forall. intros x Hx. apply repeat_spec in Hx. subst x. split; split; vm_compute; congruence. }
  split; [rewrite E11; lia|]. split; [rewrite E4; exact W|]. split; [destruct plus, dll; constructor|destruct plus, dll; reflexivity].
Qed.
Lemma created_state p0 L LL v a n : zlen LL = n ->
  set_p_sections L (with_nt (set_h_falign a) (state p0 LL v)) =
  set_p_sections L (with_nt (set_h_falign a) (with_nt (fun h => set_h_nsections n (set_h_imagesize v h)) p0)).
Proof. intros <-. unfold state. destruct p0 as [? ? ? ? ? h ? ? ? ?]. reflexivity. Qed.
Lemma Forall2_weaken {A B} (P Q : A -> B -> Prop) l m : (forall x y, P x y -> Q x y) -> Forall2 P l m -> Forall2 Q l m.
Proof. intros H F. induction F; constructor; auto. Qed.
Lemma padded_len d d' : padded d d' -> zlen d <= zlen d'.
Proof. intros [n ->]. rewrite zlen_app. pose proof (zlen_nonneg (zeros n)). lia. Qed.
Lemma Forall2_trans {A B C} (P : A -> B -> Prop) (Q : B -> C -> Prop) (R : A -> C -> Prop) l m n :
  (forall a b c, P a b -> Q b c -> R a c) -> Forall2 P l m -> Forall2 Q m n -> Forall2 R l n.
Proof.
  intros H F. revert n. induction F; intros n G; inversion G; subst; constructor; [eapply H; eassumption|]. apply IHF. assumption.
Qed.
Lemma data_total_le sa a : power_of_two a -> power_of_two sa -> a <= sa ->
  forall l m, Forall2 (fun s t => s_rawsize t <= ceil_mult (zlen (raw_view s)) a) l m -> Forall to_add l ->
  data_total a m <= total_space sa l.
Proof.
  intros Pa Ps L l m F. pose proof (pow2_pos _ Pa) as A0. pose proof (pow2_pos _ Ps) as S0.
  induction F as [|s t l m E F IH]; intros N; cbn [data_total total_space]; [lia|].
  apply Forall_cons_iff in N as [Ns N]. specialize (IH N). pose proof (zlen_nonneg (raw_view s)) as Z0.
  pose proof (ceil_mult_mono _ _ a A0 E) as M. rewrite ceil_ceil in M by (assumption || lia).
  unfold space. rewrite <- (ceil_ceil _ a sa) by (try assumption; lia).
  pose proof (ceil_mult_least (ceil_mult (Z.max (zlen (raw_view s)) (s_vsize s)) a) sa S0) as (_ & B & _).
  pose proof (ceil_mult_mono (zlen (raw_view s)) (Z.max (zlen (raw_view s)) (s_vsize s)) a A0 ltac:(lia)). lia.
Qed.

Lemma created_loads plus sa dll subsystem l auto a strip chg save :
  power_of_two sa -> sa < 2^32 -> is_u16 subsystem -> l <> [] -> zlen l <= 96 -> Forall to_add l ->
  first_address sa l + total_space sa l < 2^32 -> power_of_two a -> 512 <= a <= sa ->
  created_headers strip plus (zlen l) a <= first_address sa l ->
  exists p p' q out,
    mfold (fun p s => add_section p s auto) l (create_pe plus sa dll subsystem) = Ok p /\
    realign_file p a = Ok p' /\ rebuild_pe p' strip chg save = Ok (q, out) /\
    forall strict read_debug, exists f r,
      factory_create false read_debug (open_stream strict out) = (f, Ok r) /\
      p_plus r = plus /\ salign r = sa /\ falign r = a /\ h_subsystem (p_nt r) = subsystem /\
      Z.land (h_chars (p_nt r)) 0x2000 = (if dll then 0x2000 else 0) /\
      Forall2 same_contents l (p_sections r) /\ chain sa (first_address sa l) (p_sections r) /\
      imagesize r = first_address sa l + total_space sa l.
Proof.
  intros Ps L32 Su NE N96 F T Pa La Hh.
  pose proof (pow2_pos _ Pa) as A0. pose proof (pow2_pos _ Ps) as S0.
  assert (P512 : power_of_two 512) by (exists 9; split; [lia|reflexivity]).
  set (p0 := create_pe plus sa dll subsystem) in *. set (st := first_address sa l) in *.
  assert (E0 : falign p0 = 512 /\ salign p0 = sa /\ hdrsize p0 = 1024 /\ p_sections p0 = []).
  { unfold p0; destruct plus, dll; repeat split; reflexivity. }
  destruct E0 as (Ef & Es & Eh & Ep).
  assert (G0 : good_align p0) by (unfold good_align; rewrite Ef, Es; repeat split; (assumption || lia)).
  pose proof (total_space_nonneg sa l Ps F) as Tn.
  assert (St : 1024 <= st /\ (sa | st)).
  { unfold st. destruct l as [|s l']; [congruence|]. cbn [first_address]. apply Forall_inv in F. destruct F as (_ & _ & _ & _ & _ & Va).
    pose proof (ceil_mult_least (if s_va s =? 0 then 1024 else s_va s) sa S0) as (B1 & B2 & _).
    split; [|exact B1]. destruct (Z.eqb_spec (s_va s) 0); lia. }
  destruct St as [St1 St2].
  destruct (add_all p0 l auto G0 Ep Eh NE N96 F) as (v & Iv & Add); [rewrite Es; exact T|].
  rewrite Es, Ef in Add. fold st in Add.
  destruct (lay_wf 512 sa st l P512 Ps ltac:(lia) ltac:(lia) F T) as [Wl Bl].
  destruct (lay_chain 512 sa st l P512 Ps ltac:(lia) F) as [Cl Cel].
  set (LL := lay 512 sa st l) in *. set (p := state p0 LL v) in *.
  assert (Eps : p_sections p = LL) by reflexivity.
  assert (Gp : good_align p) by exact G0.
  assert (Esp : salign p = sa) by exact Es.
  assert (Hlay : forall i t, nth_error LL i = Some t -> exists s va', nth_error l i = Some s /\ t = placed 512 sa va' s /\ to_add s).
  { intros i t Ht. destruct (lay_nth_inv _ _ _ _ _ _ Ht) as (s & va' & Hs & ->). exists s, va'. split; [exact Hs|]. split; [reflexivity|].
    apply (proj1 (Forall_forall _ _) F). apply (nth_error_In _ _ Hs). }
  assert (Raw : forall i t, nth_error LL i = Some t -> zlen (raw_view t) < 2^32 /\ s_rawsize t <= 2^31 /\ zlen (raw_view t) <= s_rawsize t /\ ceil_mult (s_rawsize t) a = ceil_mult (zlen (raw_view t)) a).
  { intros i t Ht. destruct (Hlay i t Ht) as (s & va' & _ & -> & N).
    destruct (placed_fields 512 sa va' s) as (_ & _ & _ & _ & R5 & R6 & _). rewrite R5, R6.
    destruct N as (W & D & _). pose proof (zlen_nonneg (raw_view s)) as Zn.
    pose proof (ceil_mult_least (zlen (raw_view s)) 512 ltac:(lia)) as (B1 & B2 & B3 & B4).
    split; [lia|]. split; [apply B4; [exists (2^22); reflexivity|exact D]|]. split; [lia|]. apply ceil_ceil; assumption || lia. }
  destruct (realign_file_spec p a Gp Pa) as (p' & Re & Ep' & Len' & Hsec).
  { rewrite Esp. lia. }
  { intros i t Ht. rewrite Eps in Ht. destruct (Raw i t Ht) as (Q1 & Q2 & Q3 & Q4).
    split; [exact (proj1 (Forall_forall _ _) Wl t (nth_error_In _ _ Ht))|]. split; [exact Q1|]. split; [exact Q2|].
    intros _. rewrite Q4. apply (ceil_mult_least _ a A0). }
  apply set_sections_eq in Ep'. rewrite Eps in Len', Hsec.
  assert (Z96 : zlen LL = zlen l) by (unfold zlen, LL; rewrite lay_length; reflexivity).
  set (L' := p_sections p') in *.
  assert (Ec : p' = created plus sa dll subsystem L' (zlen l) v a).
  { rewrite Ep'. unfold p. apply (created_state p0 L' LL v a (zlen l) Z96). }
  pose proof (created_fields plus sa dll subsystem L' (zlen l) v a) as Fields. rewrite <- Ec in Fields.
  destruct Fields as (E1 & E2 & E3 & E4 & E5 & E6 & E7 & E8 & E9 & E10 & E11 & E12 & E13 & E14).
  assert (Z' : zlen L' = zlen l) by (unfold zlen; rewrite Len'; unfold LL; rewrite lay_length; reflexivity).
  assert (Zl0 : 0 < zlen l) by (destruct l; [congruence|]; rewrite zlen_cons; pose proof (zlen_nonneg l); lia).
  (* each realigned section *)
  assert (Sec : Forall2 (fun t u => realigned a true t u \/ realigned a false t u) LL L').
  { apply nth_Forall2; [symmetry; exact Len'|]. intros i t Ht. destruct (Hsec i t Ht) as (u & Hu & R & _). exists u. split; [exact Hu|].
    destruct (S i =? length LL)%nat; tauto. }
  assert (W' : Forall wf_section L').
  { apply nth_Forall. intros i u Hu.
    assert (i < length LL)%nat by (rewrite <- Len'; apply (nth_lt _ _ _ Hu)).
    destruct (nth_error LL i) as [t|] eqn:Ht; [|apply nth_error_None in Ht; lia].
    destruct (Hsec i t Ht) as (u' & Hu' & _ & W). congruence. }
  assert (Same : Forall2 (fun t u => s_va u = s_va t /\ s_vsize u = s_vsize t /\ s_vsize t <> 0) LL L').
  { apply nth_Forall2; [symmetry; exact Len'|]. intros i t Ht. destruct (Hsec i t Ht) as (u & Hu & R & _). exists u. split; [exact Hu|].
    pose proof (proj1 (Forall_forall _ _) Bl t (nth_error_In _ _ Ht)) as B. cbn beta in B.
    destruct R as (_ & R2 & R3 & _). split; [exact R3|]. split; [exact R2|lia]. }
  destruct (chain_ext sa LL L' st Same Cl) as [C' Ce'].
  assert (Rs : Forall2 (fun s u => s_rawsize u <= ceil_mult (zlen (raw_view s)) a /\ s_rawsize u = zlen (raw_view u) /\ s_rawptr u = 0 /\
     same_contents s u /\ 0 < s_vsize u <= 2^31 /\ ceil_mult (zlen (raw_view s)) sa <= ceil_mult (s_vsize u) sa) l L').
  { apply nth_Forall2; [unfold LL in Len'; rewrite lay_length in Len'; symmetry; exact Len'|].
    intros i s Hs. destruct (lay_nth 512 sa st l i s Hs) as [va' Ht].
    destruct (Hsec i _ Ht) as (u & Hu & R & _). exists u. split; [exact Hu|].
    destruct (Raw i _ Ht) as (Q1 & Q2 & Q3 & Q4).
    pose proof (proj1 (Forall_forall _ _) Bl _ (nth_error_In _ _ Ht)) as [_ Bv].
    destruct (placed_fields 512 sa va' s) as (P1 & P2 & _ & P4 & P5 & P6 & _ & _ & P9).
    assert (Ns : to_add s) by (apply (proj1 (Forall_forall _ _) F); apply (nth_error_In _ _ Hs)).
    pose proof (new_vsize s Ns) as Vn. destruct Ns as (Ws & Ds & Vs & Ns & Ptr & _).
    destruct R as (R1 & R2 & R3 & R4 & R5 & R6 & R7 & R8 & R9 & R10 & R11).
    pose proof (ceil_mult_least (zlen (raw_view s)) a A0) as (B1 & B2 & B3 & B4).
    pose proof (ceil_mult_least (zlen (raw_view s)) 512 ltac:(lia)) as (D1 & D2 & D3 & D4).
    pose proof (ceil_mult_least (s_vsize s) sa S0) as (M1 & M2 & M3 & M4).
    pose proof (zlen_nonneg (raw_view s)) as Zn.
    rewrite P6 in R11, Q4.
    assert (Cont : (padded (raw_view s) (raw_view u) \/ padded (raw_view u) (raw_view s)) /\ zlen (raw_view u) <= ceil_mult (zlen (raw_view s)) a).
    { destruct (S i =? length LL)%nat.
      - destruct R11 as [R11 _]. split; [right; exact R11|]. apply padded_len in R11. lia.
      - destruct R11 as [R11 R12]. split; [left; exact R11|]. lia. }
    destruct Cont as [Cont Clen].
    split; [lia|]. split; [exact R10|]. split; [rewrite R4, P4; exact Ptr|].
    split; [split; [rewrite R1; exact P1|]; split; [rewrite R9; exact P2|]; split; [|exact Cont]|].
    - rewrite R2, P9. destruct (Z.eqb_spec (s_vsize s) 0); lia.
    - rewrite R2. split; [exact Bv|]. rewrite <- (ceil_ceil (zlen (raw_view s)) 512 sa) by (assumption || lia).
      apply ceil_mult_mono; [exact S0|]. rewrite P9. destruct (Z.eqb_spec (s_vsize s) 0); lia. }
  assert (Cons : consistent p').
  { unfold consistent. split.
    { rewrite Ec. apply created_wf; try assumption; unfold is_u32, is_u16; lia. }
    split; [rewrite E3; reflexivity|]. split; [exact E2|]. split; [exact E5|]. split; [rewrite E1; exact E6|]. split; [intros _; exact E7|].
    split.
    { unfold ok_alignments. change (h_salign (p_nt p')) with (salign p'). change (h_falign (p_nt p')) with (falign p'). rewrite E8, E9.
      split; [exact Ps|]. split; [exact Pa|]. lia. }
    split; [change (p_sections p') with L'; lia|]. split.
    - exists st. rewrite E10, E8. change (p_sections p') with L'. split; [exact St1|]. split; [exact St2|]. split; [exact C'|]. rewrite Ce', Cel. exact T.
    - change (p_sections p') with L'. apply nth_Forall. intros i u Hu.
      assert (exists s, nth_error l i = Some s) as [s Hs].
      { destruct (nth_error l i) eqn:K; [eauto|]. apply nth_error_None in K. pose proof (nth_lt _ _ _ Hu). unfold LL in Len'. rewrite lay_length in Len'. lia. }
      assert (X : forall (l : list section) m P, Forall2 P l m -> forall i (s u : section), nth_error l i = Some s -> nth_error m i = Some u -> P s u).
      { clear. intros l m P H. induction H; intros [|i] s u Hs Hu; cbn [nth_error] in *; try discriminate; [congruence|]. eapply IHForall2; eassumption. }
      destruct (X _ _ _ Rs i s u Hs Hu) as (K1 & K2 & K3 & K4 & K5 & K6).
      unfold section_loadable. split; [exact K5|]. split; [exact K2|]. rewrite E9, E8.
      pose proof (zlen_nonneg (raw_view s)) as Zn.
      apply Z.le_trans with (ceil_mult (zlen (raw_view s)) sa); [|exact K6].
      pose proof (ceil_mult_mono _ _ a A0 K1) as M. rewrite ceil_ceil in M by (assumption || lia).
      rewrite <- (ceil_ceil _ a sa) by (assumption || lia).
      pose proof (ceil_mult_least (ceil_mult (zlen (raw_view s)) a) sa S0). lia. }
  assert (Hb : forall sv, bound_length sv p' = 0 /\ bound_saved sv p' = false).
  { intros sv. unfold bound_length, bound_saved. rewrite E12. cbn [nth_error repeat]. rewrite Z.eqb_refl. cbn [negb]. rewrite andb_false_r. split; reflexivity. }
  assert (Hd : data_start strip save p' = created_headers strip plus (zlen l) a).
  { unfold data_start, headers_end, created_headers, nt_offset, nt_length. rewrite (proj1 (Hb save)), E3, E1, E11, E9. change (p_sections p') with L'. rewrite Z'.
    change (zlen (@nil Z)) with 0. rewrite (ceil_mult_0 4) by lia. f_equal. destruct strip, plus; lia. }
  assert (Hfirst : forall s t, L' = s :: t -> s_va s = st).
  { intros s t E. rewrite E in C'. cbn [chain] in C'. tauto. }
  destruct (rebuild_succeeds p' strip chg save Cons) as (q & out & Rb).
  { right. rewrite E12. reflexivity. }
  { rewrite E11. lia. }
  { rewrite Hd. lia. }
  { change (p_sections p') with L'. intros s t E _. rewrite Hd, (Hfirst s t E). exact Hh. }
  exists p, p', q, out. split; [exact Add|]. split; [exact Re|]. split; [exact Rb|]. intros strict rd.
  destruct (reload_thm p' strip chg save q out Cons) with (strict := strict) (rd := rd) as (f & r & R1 & _ & R2 & _).
  { rewrite Hd, E9. change (p_sections p') with L'.
    pose proof (data_total_le sa a Pa Ps ltac:(lia) l L') as DT.
    assert (data_total a L' <= total_space sa l).
    { apply DT; [|exact F]. apply (Forall2_weaken _ _ l L' (fun x y H => proj1 H) Rs). }
    lia. }
  { unfold no_stale_pointers. change (p_sections p') with L'. apply nth_Forall. intros i u Hu _. rewrite Hd.
    assert (exists s, nth_error l i = Some s) as [s Hs].
    { destruct (nth_error l i) eqn:K; [eauto|]. apply nth_error_None in K. pose proof (nth_lt _ _ _ Hu). unfold LL in Len'. rewrite lay_length in Len'. lia. }
    assert (X : forall (l : list section) m P, Forall2 P l m -> forall i (s u : section), nth_error l i = Some s -> nth_error m i = Some u -> P s u).
    { clear. intros l0 m P H. induction H; intros [|i] s u Hs Hu; cbn [nth_error] in *; try discriminate; [congruence|]. eapply IHForall2; eassumption. }
    destruct (X _ _ _ Rs i s u Hs Hu) as (K1 & K2 & K3 & _). rewrite K3.
    unfold created_headers. pose proof (ceil_mult_least ((if strip then 16 else 64) + (if plus then 264 else 248) + 40 * zlen l) a A0) as (_ & B & _).
    destruct strip, plus; lia. }
  { exact Rb. }
  destruct R2 as (Q1 & Q2 & Q3 & Q4 & Q5 & Q6 & Q7 & Q8 & _).
  change (p_sections p') with L' in Q6, Q8.
  assert (Hn : salign r = salign p' /\ falign r = falign p' /\ h_subsystem (p_nt r) = h_subsystem (p_nt p') /\ h_chars (p_nt r) = h_chars (p_nt p')).
  { unfold salign, falign. rewrite Q7. repeat split; reflexivity. }
  destruct Hn as (N1 & N2 & N3 & N4).
  exists f, r. split; [exact R1|]. split; [congruence|]. split; [congruence|]. split; [congruence|]. split; [congruence|].
  split; [rewrite N4; exact E14|]. split; [|split].
  - eapply Forall2_trans; [|exact Rs|exact Q6]. cbn beta. intros s u t (_ & _ & _ & K & _) (J1 & J2 & J3 & J4 & J5 & J6 & J7 & J8 & J9 & J10).
    unfold same_contents in *. rewrite J1, J2, J9, J10. exact K.
  - apply (chain_ext sa L' (p_sections r) st); [|exact C'].
    assert (Hv : Forall (fun u => s_vsize u <> 0) L').
    { apply nth_Forall. intros i u Hu.
      destruct (nth_error LL i) as [t|] eqn:Ht; [|apply nth_error_None in Ht; pose proof (nth_lt _ _ _ Hu); lia].
      destruct (Hsec i t Ht) as (u' & Hu' & (_ & R2' & _) & _). pose proof (proj1 (Forall_forall _ _) Bl t (nth_error_In _ _ Ht)) as [_ B]. 
      assert (u' = u) by congruence. subst u'. lia. }
    clear - Q6 Hv. induction Q6 as [|s u l1 l2 H Q IH]; constructor.
    + destruct H as (J1 & J2 & J3 & _). apply Forall_inv in Hv. tauto.
    + apply IH. apply Forall_inv_tail in Hv. exact Hv.
  - destruct (exists_last (l:=L')) as [pre [z Ez]].
    { intros K. rewrite K in Z'. change (zlen (@nil section)) with 0 in Z'. lia. }
    rewrite (Q8 pre z Ez), E8. rewrite <- Cel, <- Ce', Ez, chain_end_last. reflexivity.
Qed.
