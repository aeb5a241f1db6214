(** Proofs: reading resources (C41). *)
From Verif Require Import StoreFacts ReadersFacts.
From Verif Require Export SpecRes.

(** ** Recursion with fuel *)
Lemma pfun_ind {A B} (F : (A -> res B) -> A -> res B) (G : Z -> (A -> res B) -> Prop) n :
  (forall k f, 0 <= k -> G k f -> G (k + 1) (F f)) -> forall k f, 0 <= k -> G k f -> G (k + Zpos n) (pfun n F f).
Proof.
  intros H. assert (X : forall m (k : Z) (f : A -> res B), 0 <= k -> G k f -> G (k + Zpos m) (pfun m F f)); [|intros; auto].
  induction m as [m IH|m IH|]; intros k f Hk Hf.
  - change (G (k + Zpos m~1) (F (pfun m F (pfun m F f)))). replace (k + Zpos m~1) with (k + Zpos m + Zpos m + 1) by lia.
    apply H; [lia|]. apply IH; [lia|]. apply IH; assumption.
  - change (G (k + Zpos m~0) (pfun m F (pfun m F f))). replace (k + Zpos m~0) with (k + Zpos m + Zpos m) by lia. apply IH; [lia|]. apply IH; assumption.
  - apply H; assumption.
Qed.
Lemma nodup_bound N l : 0 <= N -> NoDup l -> Forall (fun x => 0 <= x < N) l -> zlen l <= N.
Proof.
  intros HN Nd F. unfold zlen. assert (incl l (map Z.of_nat (seq 0 (Z.to_nat N)))) as I.
  { intros x Hx. rewrite Forall_forall in F. specialize (F x Hx). apply in_map_iff. exists (Z.to_nat x). split; [lia|]. apply in_seq. lia. }
  apply (NoDup_incl_length Nd) in I. rewrite map_length, seq_length in I. lia.
Qed.
Lemma zrange_in n i : In i (zrange n) -> 0 <= i < n.
Proof. unfold zrange. intros H. apply in_map_iff in H as (k & <- & H). apply in_seq in H. lia. Qed.

(** ** Safety *)
Definition seen_ok (seen : list Z) : Prop := NoDup seen /\ Forall (fun x => 0 <= x < 2^31) seen.
Lemma sum_safe_spec a b : is_u32 a -> is_u32 b -> is_sum_safe a b = true -> a + b < 2^32.
Proof. unfold is_sum_safe, is_u32. intros A B H. change max_dword with (2^32-1) in *. rewrite u32_small in H by lia. lia. Qed.
(** A pointer into the data in memory is inside it, or behind its last byte. *)
Lemma virt_room p rva len : readable p -> viewable p -> is_u32 rva -> length_rva p rva rva VirtData true = Ok len ->
  exists d off, ptr_rva p rva VirtData true = Ok (d, off) /\ 0 <= off /\ bytes d /\ 0 <= len < 2^32 /\ off + len <= zlen d.
Proof.
  intros R V Hr E. destruct (ptr_room p rva VirtData len R (or_intror V) Hr E) as (d & o & Ep & Ho & Bd & Hl & Hr2).
  exists d, o. split; [exact Ep|]. split; [exact Ho|]. split; [exact Bd|]. split; [exact Hl|]. destruct (Z.eq_dec len 0) as [->|]; [|apply Hr2; lia].
  clear Hr2 E Bd. unfold ptr_rva in Ep. cbn [andb] in Ep. destruct (Z.ltb_spec rva (zlen (p_full p))) as [C|C]; [injection Ep as <- <-; lia|].
  bnd Ep i Ei. bnd Ep s Es. injection Ep as <- <-. destruct (section_from_rva_inv _ _ _ Ei) as (s2 & Hs & Hin).
  rewrite (get_section_ok _ _ _ Hs) in Es. injection Es as ->. unfold in_section in Hin. pose proof (nth_Forall _ _ _ _ V Hs) as Hv. cbv beta in Hv. cbn [view].
  destruct R as (_ & _ & W & _). destruct (wf_ranges _ (nth_Forall _ _ _ _ W Hs)) as (R1 & R2 & R3 & _).
  assert (0 <= aligned_vsize (salign p) s).
  { unfold aligned_vsize. destruct (negb (s_rawsize s =? 0) && (s_vsize s =? 0)); apply align_up_range; assumption. }
  assert (u32 (s_va s + aligned_vsize (salign p) s) <= s_va s + aligned_vsize (salign p) s) by (unfold u32, is_u32 in *; apply Z.mod_le; lia). lia.
Qed.
Lemma read_rname_safe p rva off w1 w2 : readable p -> viewable p -> is_u32 rva -> names_inside p rva -> reached p rva off -> rentry_at p rva off w1 w2 -> is_u32 w1 ->
  safe (read_rname p rva w1).
Proof.
  intros R V Hr Ni Re At Hw. pose proof R as (_ & _ & Wf & _). unfold is_u32 in *. unfold read_rname, flag31, low31. case_if C; [|exact I]. case_throw C1; [exact I|].
  replace (w1 mod 2^31) with (w1 - 2^31) in * by lia.
  pose proof (u32_range (rva + (w1 - 2^31))) as Ra. pose proof (u32_range (rva + (w1 - 2^31) + 2)) as Rb.
  apply safe_bind; [apply read_rva_safe; [exact Wf|exact Ra|lia]|]. intros bs Eb.
  apply safe_bind; [apply length_rva_safe; exact Wf|]. intros len El. case_throw C2; [exact I|].
  destruct (virt_room p _ len R V Rb El) as (d & o & Ep & Ho & Bd & Hl & Hr2). rewrite Ep. cbn [bind].
  assert (Ub : 0 <= unle bs) by (apply unle_bound, (read_rva_bytes _ _ _ _ _ _ R Eb)).
  assert (2 * unle bs <= len).
  { apply (Ni off w1 w2 bs len Re At ltac:(lia)); [exact Eb| |lia].
    replace (((rva + (w1 - 2 ^ 31)) mod 2 ^ 32 + 2) mod 2 ^ 32) with (u32 (rva + (w1 - 2^31) + 2)) by (unfold u32; rewrite Zplus_mod_idemp_l; reflexivity). exact El. }
  unfold rd_units. rewrite rd_ok by lia. exact I.
Qed.
Lemma read_rdata_safe p rva w : readable p -> viewable p -> safe (read_rdata p rva w).
Proof.
  intros R V. pose proof R as (_ & _ & Wf & _). unfold read_rdata. apply safe_bind; [apply read_rva_safe; [exact Wf|apply u32_range|lia]|]. intros e Ee.
  pose proof (read_rva_bytes _ _ _ _ _ _ R Ee) as Be. pose proof (dec_fields_fits [4;4;4;4]%nat e Be) as Ft. pose proof (dec_fields_length [4;4;4;4]%nat e) as Fl.
  destruct (dec_fields _ e) as [|a [|size [|cp [|x [|y l]]]]]; try discriminate Fl. cbn [fits] in Ft. destruct Ft as (Fa & Fs & _). change (256 ^ Z.of_nat 4) with (2^32) in *.
  apply safe_bind; [apply length_rva_safe; exact Wf|]. intros len El. case_throw C; [exact I|].
  destruct (virt_room p a len R V ltac:(unfold is_u32; lia) El) as (d & o & Ep & Ho & Bd & Hl & Hr2). rewrite Ep. cbn [bind]. rewrite rd_ok by lia. exact I.
Qed.
(** What the recursive calls guarantee when at most [k] more directories are new. *)
Definition rec_ok (p : pe) (rva k : Z) (f : Z * list Z -> res (rnode * list Z)) : Prop :=
  forall off seen, 0 <= off < 2^31 -> reached p rva off -> seen_ok seen -> 2^31 - zlen seen < k ->
    match f (off, seen) with Ok (_, seen') => seen_ok seen' /\ zlen seen <= zlen seen' | Throw _ => True | _ => False end.
Lemma existsb_notin x l : existsb (Z.eqb x) l = false -> ~ In x l.
Proof. intros H I. assert (existsb (Z.eqb x) l = true) as E by (apply existsb_exists; exists x; split; [exact I|apply Z.eqb_refl]). congruence. Qed.
Lemma read_rdir_step p rva k f : readable p -> viewable p -> is_u32 rva -> names_inside p rva -> 0 <= k -> rec_ok p rva k f -> rec_ok p rva (k + 1) (read_rdir p rva f).
Proof.
  intros R V Hr Ni Hk Hf off seen Ho Re Sk Hm. pose proof R as (_ & _ & Wf & _). unfold is_u32 in *. unfold read_rdir.
  case_throw C1; [exact I|]. apply existsb_notin in C1. case_throw C2; [exact I|]. apply negb_false_iff in C2. apply sum_safe_spec in C2; [|assumption|unfold is_u32; lia].
  pose proof (read_rva_safe p (rva + off) 16 VirtData true Wf ltac:(unfold is_u32; lia) ltac:(lia)) as Sf.
  destruct (read_rva p (rva + off) 16 VirtData true) as [e| | |] eqn:Ee; cbn [bind]; try exact I; try contradiction Sf. clear Sf.
  pose proof (read_rva_bytes _ _ _ _ _ _ R Ee) as Be. pose proof (read_rva_len _ _ _ _ _ _ Ee) as Le.
  assert (Ec : nth 4 (dec_fields rdir_widths e) 0 = unle (slice e 12 2) /\ nth 5 (dec_fields rdir_widths e) 0 = unle (slice e 14 2)).
  { unfold zlen in Le. do 17 (destruct e as [|? e]; [try (cbn [length] in Le; lia)|]); [split; reflexivity|cbn [length] in Le; lia]. }
  pose proof (dec_fields_fits rdir_widths e Be) as Ft. pose proof (dec_fields_length rdir_widths e) as Fl.
  destruct (dec_fields _ e) as [|a [|b [|c [|d [|named [|ids [|y l]]]]]]]; try discriminate Fl. cbn [nth] in Ec. destruct Ec as [En Ei].
  unfold rdir_widths in Ft. cbn [fits] in Ft. destruct Ft as (_ & _ & _ & _ & Fn & Fi & _). change (256 ^ Z.of_nat 2) with (2^16) in *.
  case_throw C3; [exact I|]. clear C3. case_throw C4; [exact I|]. apply orb_false_iff in C4 as [C4 C5]. apply negb_false_iff in C4, C5.
  rewrite u32_small in C5 by lia. apply sum_safe_spec in C5; [|assumption|unfold is_u32; lia].
  set (n := ids + named) in *.
  pose proof (mfold_safe (read_rentry p rva off f) (fun st => seen_ok (snd st) /\ zlen seen + 1 <= zlen (snd st)) (zrange n)) as M.
  assert (seen_ok (off :: seen)) as S1 by (destruct Sk; split; constructor; assumption).
  specialize (fun H => M H ([], off :: seen) (conj S1 (Z.eq_le_incl _ _ (eq_trans (Z.add_comm _ _) (eq_sym (zlen_cons off seen)))))).
  match type of M with ?P -> _ => assert P as M1 end.
  { intros [l1 sn] i [I1 I2] Hi. apply zrange_in in Hi. cbn [snd] in I1, I2. unfold read_rentry.
    rewrite (u32_small (rva + 16 + i * 8 + off)) by lia.
    pose proof (read_rva_safe p (rva + 16 + i * 8 + off) 8 VirtData true Wf ltac:(unfold is_u32; lia) ltac:(lia)) as Sf.
    destruct (read_rva p (rva + 16 + i * 8 + off) 8 VirtData true) as [x| | |] eqn:Ex; cbn [bind]; try exact I; try contradiction Sf. clear Sf.
    pose proof (read_rva_bytes _ _ _ _ _ _ R Ex) as Bx. pose proof (read_rva_len _ _ _ _ _ _ Ex) as Lx.
    assert (At : rentry_at p rva off (unle (slice x 0 4)) (unle (slice x 4 4))).
    { exists e, x, i. split; [exact Ee|]. split; [lia|]. split; [|split; reflexivity]. replace (rva + off + 16 + 8 * i) with (rva + 16 + i * 8 + off) by lia. exact Ex. }
    assert (U : forall o, 0 <= o -> o + 4 <= 8 -> is_u32 (unle (slice x o 4))).
    { intros o O1 O2. pose proof (unle_bound _ (bytes_slice x o 4 Bx)) as U. rewrite zlen_slice in U by lia. exact U. }
    pose proof (read_rname_safe p rva off _ _ R V Hr Ni Re At (U 0 ltac:(lia) ltac:(lia))) as Sf.
    destruct (read_rname p rva (unle (slice x 0 4))) as [nm| | |]; cbn [bind]; try exact I; try contradiction Sf. clear Sf.
    specialize (U 4 ltac:(lia) ltac:(lia)). set (w := unle (slice x 4 4)) in *. unfold flag31. unfold is_u32 in U. case_if C6.
    - assert (El : low31 w = w - 2^31) by (unfold low31; lia). rewrite El.
      pose proof (Hf (w - 2^31) sn ltac:(lia) (reached_sub p rva off _ w Re At ltac:(lia)) I1 ltac:(lia)) as Hc.
      destruct (f (w - 2^31, sn)) as [[t sn']| | |]; cbn [bind snd]; try exact Hc. split; [tauto|]. lia.
    - pose proof (read_rdata_safe p rva w R V) as Sf. destruct (read_rdata p rva w) as [t| | |]; cbn [bind snd]; try exact I; try contradiction Sf. split; assumption. }
  specialize (M M1). destruct (mfold (read_rentry p rva off f) (zrange n) ([], off :: seen)) as [[l1 sn]| | |]; cbn [bind snd] in *; try exact M. split; [tauto|lia].
Qed.
Lemma resources_safe p rva size : readable p -> viewable p -> dir_is p dir_resource (rva, size) -> names_inside p rva -> safe (get_resources p).
Proof.
  intros R V Di Ni. unfold get_resources. unfold dir_resource in *. destruct (dir_get p 2 R ltac:(lia)) as (rva' & size' & U1 & U2 & Di' & G1 & G2 & G3).
  assert (rva' = rva) as -> by (destruct Di as [_ A], Di' as [_ B]; congruence).
  destruct (directory_exists_safe p 2 R ltac:(lia)) as [b Eb]. rewrite Eb. cbn [bind]. destruct b; [|exact I]. rewrite G1. destruct (nrva p <=? 2); [exact I|]. cbn [bind].
  assert (rec_ok p rva (0 + Zpos big_fuel) (process_resources p rva)) as K.
  { apply (pfun_ind (read_rdir p rva) (rec_ok p rva)); [intros k f Hk Hf; apply read_rdir_step; assumption|lia|].
    intros off seen Ho Re [S1 S2] Hm. pose proof (nodup_bound (2^31) seen ltac:(lia) S1 S2). lia. }
  specialize (K 0 [] ltac:(lia) (reached_root p rva) ltac:(split; constructor) ltac:(reflexivity)).
  destruct (process_resources p rva (0, [])) as [[t s]| | |]; cbn [bind]; try exact I; destruct K.
Qed.

(** ** Termination *)
(** Whatever the directories contain, at most 2^31 of them are read. *)
Definition ends {A} (x : res A) : Prop := x <> Fuel.
Lemma ends_bind {A B} (x : res A) (f : A -> res B) : ends x -> (forall a, x = Ok a -> ends (f a)) -> ends (bind x f).
Proof. unfold ends. destruct x as [a| | |]; cbn [bind]; intros H K; try congruence. apply K. reflexivity. Qed.
Lemma safe_ends {A} (x : res A) : safe x -> ends x.
Proof. unfold ends. intros H E. rewrite E in H. exact H. Qed.
Lemma rd_ends d o n : ends (rd d o n).
Proof. unfold ends, rd. match goal with |- context [if ?c then _ else _] => destruct c end; discriminate. Qed.
Lemma ptr_ends p a ty : Forall wf_section (p_sections p) -> ends (ptr_rva p a ty true).
Proof.
  intros W. unfold ptr_rva. destruct (true && _); [discriminate|]. apply ends_bind; [apply safe_ends, section_from_rva_safe; exact W|]. intros i _. apply ends_bind; [|discriminate].
  unfold get_section, nth_ub, ends. destruct (nth_error _ _); discriminate.
Qed.
Lemma throw_ends {A} c e (x : res A) : ends x -> ends (throw_if c e ;;; x).
Proof. destruct c; cbn [throw_if bind]; [discriminate|tauto]. Qed.
Lemma read_rname_ends p rva w : readable p -> ends (read_rname p rva w).
Proof.
  intros R. pose proof R as (_ & _ & Wf & _). unfold read_rname. destruct (flag31 w); [|discriminate]. apply throw_ends.
  apply ends_bind; [apply safe_ends, read_rva_safe; [exact Wf|apply u32_range|lia]|]. intros bs _. cbv zeta. apply ends_bind; [apply safe_ends, length_rva_safe; exact Wf|]. intros len _. apply throw_ends.
  apply ends_bind; [apply ptr_ends; exact Wf|]. intros [d o] _. apply ends_bind; [|discriminate]. unfold rd_units. apply ends_bind; [apply rd_ends|discriminate].
Qed.
Lemma read_rdata_ends p rva w : readable p -> ends (read_rdata p rva w).
Proof.
  intros R. pose proof R as (_ & _ & Wf & _). unfold read_rdata. apply ends_bind; [apply safe_ends, read_rva_safe; [exact Wf|apply u32_range|lia]|]. intros e _.
  pose proof (dec_fields_length [4;4;4;4]%nat e) as Fl.
  destruct (dec_fields _ e) as [|a [|size [|cp [|x [|y l]]]]]; try discriminate. apply ends_bind; [apply safe_ends, length_rva_safe; exact Wf|]. intros len _. apply throw_ends.
  apply ends_bind; [apply ptr_ends; exact Wf|]. intros [d o] _. apply ends_bind; [apply rd_ends|discriminate].
Qed.
Definition rec_ends (k : Z) (f : Z * list Z -> res (rnode * list Z)) : Prop :=
  forall off seen, 0 <= off < 2^31 -> seen_ok seen -> 2^31 - zlen seen < k ->
    match f (off, seen) with Ok (_, seen') => seen_ok seen' /\ zlen seen <= zlen seen' | Fuel => False | _ => True end.
Lemma mfold_ends {A B} (f : B -> A -> res B) (Inv : B -> Prop) l :
  (forall b a, Inv b -> In a l -> match f b a with Ok b' => Inv b' | Fuel => False | _ => True end) ->
  forall b, Inv b -> match mfold f l b with Ok b' => Inv b' | Fuel => False | _ => True end.
Proof.
  induction l as [|a l IH]; intros H b Hb; cbn [mfold]; [exact Hb|]. pose proof (H b a Hb (or_introl eq_refl)) as Ha. destruct (f b a) as [b'| | |]; cbn [bind]; try exact Ha.
  apply IH; [|exact Ha]. intros c x Hc Hx. apply H; [exact Hc|right; exact Hx].
Qed.
Lemma read_rdir_ends p rva k f : readable p -> is_u32 rva -> 0 <= k -> rec_ends k f -> rec_ends (k + 1) (read_rdir p rva f).
Proof.
  intros R Hr Hk Hf off seen Ho Sk Hm. pose proof R as (_ & _ & Wf & _). unfold is_u32 in *. unfold read_rdir.
  case_throw C1; [exact I|]. apply existsb_notin in C1. case_throw C2; [exact I|]. apply negb_false_iff in C2. apply sum_safe_spec in C2; [|assumption|unfold is_u32; lia].
  pose proof (safe_ends _ (read_rva_safe p (rva + off) 16 VirtData true Wf ltac:(unfold is_u32; lia) ltac:(lia))) as Sf. unfold ends in Sf.
  destruct (read_rva p (rva + off) 16 VirtData true) as [e| | |] eqn:Ee; cbn [bind]; try exact I; try congruence. clear Sf.
  destruct (dec_fields _ e) as [|a [|b [|c [|d [|named [|ids [|y l]]]]]]]; try exact I.
  case_throw C3; [exact I|]. case_throw C4; [exact I|].
  set (n := ids + named) in *. assert (seen_ok (off :: seen)) as S1 by (destruct Sk; split; constructor; assumption).
  pose proof (mfold_ends (read_rentry p rva off f) (fun st => seen_ok (snd st) /\ zlen seen + 1 <= zlen (snd st)) (zrange n)) as M.
  specialize (fun H => M H ([], off :: seen) (conj S1 (Z.eq_le_incl _ _ (eq_trans (Z.add_comm _ _) (eq_sym (zlen_cons off seen)))))).
  match type of M with ?P -> _ => assert P as M1 end.
  { intros [l1 sn] i [I1 I2] Hi. cbn [snd] in I1, I2. unfold read_rentry.
    pose proof (safe_ends _ (read_rva_safe p (u32 (rva + 16 + i * 8 + off)) 8 VirtData true Wf (u32_range _) ltac:(lia))) as Sf. unfold ends in Sf.
    destruct (read_rva p (u32 (rva + 16 + i * 8 + off)) 8 VirtData true) as [x| | |] eqn:Ex; cbn [bind]; try exact I; try congruence. clear Sf.
    pose proof (read_rva_bytes _ _ _ _ _ _ R Ex) as Bx. pose proof (read_rva_len _ _ _ _ _ _ Ex) as Lx.
    assert (U : is_u32 (unle (slice x 4 4))).
    { pose proof (unle_bound _ (bytes_slice x 4 4 Bx)) as U. rewrite zlen_slice in U by lia. exact U. }
    pose proof (read_rname_ends p rva (unle (slice x 0 4)) R) as Sf. unfold ends in Sf.
    destruct (read_rname p rva (unle (slice x 0 4))) as [nm| | |]; cbn [bind]; try exact I; try congruence. clear Sf.
    set (w := unle (slice x 4 4)) in *. unfold is_u32 in U. destruct (flag31 w) eqn:C6; unfold flag31 in C6.
    - assert (El : low31 w = w - 2^31) by (unfold low31; lia). rewrite El.
      pose proof (Hf (w - 2^31) sn ltac:(lia) I1 ltac:(lia)) as Hc.
      destruct (f (w - 2^31, sn)) as [[t sn']| | |]; cbn [bind snd]; try exact Hc. split; [tauto|]. lia.
    - pose proof (read_rdata_ends p rva w R) as Sf. unfold ends in Sf. destruct (read_rdata p rva w) as [t| | |]; cbn [bind snd]; try exact I; try congruence. split; assumption. }
  specialize (M M1). destruct (mfold (read_rentry p rva off f) (zrange n) ([], off :: seen)) as [[l1 sn]| | |]; cbn [bind snd] in *; try exact M. split; [tauto|lia].
Qed.
Lemma resources_end p : readable p -> get_resources p <> Fuel.
Proof.
  intros R. unfold get_resources. unfold dir_resource in *. destruct (dir_get p 2 R ltac:(lia)) as (rva & size & U1 & U2 & Di' & G1 & G2 & G3).
  destruct (directory_exists_safe p 2 R ltac:(lia)) as [b Eb]. rewrite Eb. cbn [bind]. destruct b; [|discriminate]. rewrite G1. destruct (nrva p <=? 2); [discriminate|]. cbn [bind].
  assert (rec_ends (0 + Zpos big_fuel) (process_resources p rva)) as K.
  { apply (pfun_ind (read_rdir p rva) rec_ends); [intros k f Hk Hf; apply read_rdir_ends; assumption|lia|].
    intros off seen Ho [S1 S2] Hm. pose proof (nodup_bound (2^31) seen ltac:(lia) S1 S2). lia. }
  specialize (K 0 [] ltac:(lia) ltac:(split; constructor) ltac:(reflexivity)).
  destruct (process_resources p rva (0, [])) as [[t s]| | |]; cbn [bind]; try discriminate. destruct K.
Qed.
