(** Facts that the rebuilders and the readers of tables share. *)
From Verif Require Export DirFacts.

(** ** Finishing a rebuilder *)
Lemma put_headers p i t : same_headers p (put_section p i t). Proof. reflexivity. Qed.
Lemma store_dir_headers p id d : same_headers p (store_dir p id d). Proof. reflexivity. Qed.
Lemma store_dir_dirs_ok p id d : dirs_ok p -> is_u32 (fst d) -> is_u32 (snd d) -> dirs_ok (store_dir p id d).
Proof.
  intros (A & B) H1 H2. unfold dirs_ok in *. change (h_dirs (p_nt (store_dir p id d))) with (upd (h_dirs (p_nt p)) (Z.to_nat id) d).
  rewrite upd_length. split; [exact A|]. apply Forall_upd; [exact B|]. tauto.
Qed.
(** What the reader of directory [id] of image [p] is given. *)
Definition directory_at (p : pe) (id rva size : Z) : Prop :=
  directory_exists p id = Ok true /\ get_directory_rva p id = Ok rva /\ get_directory_size p id = Ok size.
Lemma dir_is_at p id rva size : dir_is p id (rva, size) -> 0 <= id < nrva p -> nrva p <= 16 -> rva <> 0 -> directory_at p id rva size.
Proof.
  intros [_ A] H N R. assert (Dn : nth_ub (h_dirs (p_nt p)) id = Ok (rva, size)) by (apply nth_ub_ok; [exact A|lia]).
  unfold directory_at, directory_exists, get_directory_rva, get_directory_size. rewrite Dn. rewrite u32_small by lia.
  replace (id <=? nrva p - 1) with true by lia. replace (nrva p <=? id) with false by lia. cbn [throw_if bind fst snd].
  replace (rva =? 0) with false by lia. tauto.
Qed.
Lemma finish_ok p start i total len s d0 pos out strip save id size :
  room p start i total -> total <= len <= ceil_mult total (falign p) ->
  nth_error (p_sections p) i = Some s -> open_room p i total len = Ok (opened s d0) ->
  0 <= pos -> pos + zlen out <= total -> 0 < total -> bytes out -> dirs_ok p -> 0 <= id < nrva p -> nrva p <= 16 ->
  exists p' t, finish_directory p i (opened s d0) (splice d0 pos out) pos size id save strip = Ok (p', (s_va s + pos, size)) /\
    only_section p p' i pos out /\ same_headers p p' /\ image_ok p' start /\
    (if save then only_directory p p' id (s_va s + pos, size) /\ directory_at p' id (s_va s + pos) size else h_dirs (p_nt p') = h_dirs (p_nt p)) /\
    nth_error (p_sections p') i = Some t /\ stored s t (splice d0 pos out) /\ wf_section t /\
    zlen d0 <= span (salign p) t /\
    (strip = false \/ S i = length (p_sections p) -> raw_view t = splice d0 pos out) /\
    zlen (p_full p') <= s_va s /\ p_full p' = p_full p /\
    block p' (s_va s) (splice d0 pos out ++ zeros (span (salign p) t - zlen (splice d0 pos out))).
Proof.
  intros R Hl Hs Eo Hp Hz T B D N N2. pose proof R as (IO & T2 & s' & Hs' & Hz0 & Hf & Hv & Hr & _).
  rewrite Hs in Hs'. inversion Hs'; subst s'; clear Hs'.
  pose proof IO as ((Ps & Pf & L) & W & _). pose proof (nth_Forall _ _ _ _ W Hs) as Ws.
  destruct (open_room_ok p start i total len R Hl) as (s' & d0' & Hs' & Eo' & Pd & L1 & L2 & L3).
  rewrite Hs in Hs'. inversion Hs'; subst s'; clear Hs'.
  assert (d0' = d0) by (rewrite Eo in Eo'; unfold opened in Eo'; inversion Eo'; reflexivity). subst d0'. clear Eo'.
  pose proof (zlen_nonneg out) as Lo.
  assert (Bd : bytes (splice d0 pos out)).
  { apply bytes_splice; [apply (padded_bytes _ _ Pd), bytes_raw_view, Ws|exact B]. }
  assert (Ls : zlen (splice d0 pos out) = zlen d0) by (apply zlen_splice; lia).
  destruct (store_ok p start i total len s d0 (splice d0 pos out) strip R Hl Hs Eo Ls ltac:(lia) Bd) as (t & Er & St & Wt2 & IO' & Lt & Vt & Spt & Lrt & Rw & Wz).
  unfold finish_directory.
  replace (set_s_data (splice d0 pos out) (opened s d0)) with (opened s (splice d0 pos out)) by (unfold opened; destruct (unmap_virtual s); reflexivity).
  rewrite Er. cbn [bind]. set (p2 := put_section p i t) in *.
  assert (Rv : rva_from_section_offset (opened s d0) pos = s_va s + pos).
  { unfold rva_from_section_offset. destruct (opened_fields s d0) as (_ & _ & -> & _). apply u32_small.
    destruct IO' as (_ & W' & _ & _ & Ch' & Ce'). pose proof (chain_upper _ _ _ (pow2_pos _ Ps) W' Ch') as Up.
    pose proof (nth_Forall _ _ _ _ Up (put_get p i t (nth_lt _ _ _ Hs))) as Ut. cbn beta in Ut. change (salign (put_section p i t)) with (salign p) in *.
    change (salign p2) with (salign p) in *. fold p2 in Ut.
    unfold send in Ut. destruct St as (_ & S2 & _). rewrite S2 in Ut. lia. }
  rewrite Rv. assert (Os : only_section p p2 i pos out) by (apply (stored_only p i s t d0 pos out Hs Pd); [lia|lia|exact St|exact Wz|exact Spt]).
  pose proof (store_block p start i t s (splice d0 pos out) IO' Hs Wt2 St Lt Bd Hf) as Bk. fold p2 in Bk.
  assert (Ht : nth_error (p_sections p2) i = Some t) by (apply put_get, (nth_lt _ _ _ Hs)).
  destruct save; cbn [bind].
  - rewrite set_directory_ok; [|exact D|change (nrva p2) with (nrva p); lia|change (nrva p2) with (nrva p); lia]. cbn [bind].
    exists (store_dir p2 id (s_va s + pos, size)), t. split; [reflexivity|]. split; [exact Os|]. split; [reflexivity|]. split; [exact IO'|].
    pose proof (store_dir_only p p2 id (s_va s + pos, size) D ltac:(lia) eq_refl) as Od.
    split; [split; [exact Od|apply dir_is_at; [exact (proj1 Od)|exact N|exact N2|lia]]|].
    split; [exact Ht|]. split; [exact St|]. split; [exact Wt2|]. rewrite Ls in Lt. split; [exact Lt|]. split; [exact Rw|].
    split; [exact Hf|]. split; [reflexivity|]. apply (block_ext p2); try reflexivity. exact Bk.
  - exists p2, t. split; [reflexivity|]. split; [exact Os|]. split; [reflexivity|]. split; [exact IO'|]. split; [reflexivity|].
    split; [exact Ht|]. split; [exact St|]. split; [exact Wt2|]. rewrite Ls in Lt. split; [exact Lt|]. split; [exact Rw|].
    split; [exact Hf|]. split; [reflexivity|]. exact Bk.
Qed.

(** ** Null-terminated strings *)
Lemma c_scan_ok name rest n : ~ In 0 name -> zlen name < n -> c_scan (name ++ 0 :: rest) n = Ok (Some name).
Proof.
  revert n; induction name as [|x name IH]; intros n Hn Hl.
  - change (@zlen Z []) with 0 in Hl. cbn [app c_scan]. replace (n <=? 0) with false by lia. reflexivity.
  - assert (zlen (x :: name) = zlen name + 1) by (unfold zlen; cbn [length]; lia). pose proof (zlen_nonneg name).
    cbn [app c_scan]. replace (n <=? 0) with false by lia. destruct (Z.eqb_spec x 0) as [->|]; [exfalso; apply Hn; left; reflexivity|].
    rewrite IH by (try lia; intros K; apply Hn; right; exact K). reflexivity.
Qed.
Lemma c_scan_safe l n : n <= zlen l -> exists r, c_scan l n = Ok r /\
  forall name, r = Some name -> ~ In 0 name /\ zlen name < n /\ exists rest, l = name ++ 0 :: rest.
Proof.
  revert n; induction l as [|x l IH]; intros n Hl; cbn [c_scan].
  - change (@zlen Z []) with 0 in Hl. replace (n <=? 0) with true by lia. exists None. split; [reflexivity|discriminate].
  - assert (E : zlen (x :: l) = zlen l + 1) by (unfold zlen; cbn [length]; lia).
    destruct (Z.leb_spec n 0); [exists None; split; [reflexivity|discriminate]|]. destruct (Z.eqb_spec x 0) as [->|Nx].
    + exists (Some []). split; [reflexivity|]. intros name Hn. injection Hn as <-. split; [intros []|]. split; [change (@zlen Z []) with 0; lia|]. exists l. reflexivity.
    + destruct (IH (n - 1) ltac:(lia)) as (r & -> & Hr). cbn [bind]. exists (option_map (cons x) r). split; [reflexivity|].
      intros name Hn. destruct r as [m|]; [|discriminate]. cbn [option_map] in Hn. injection Hn as <-. destruct (Hr m eq_refl) as (A & B & rest & ->).
      split; [intros [K|K]; [congruence|exact (A K)]|]. split; [unfold zlen in *; cbn [length]; lia|]. exists rest. reflexivity.
Qed.
Lemma c_string_ok d off name n : holds d off (name ++ [0]) -> ~ In 0 name -> zlen name < n -> c_string d off n = Ok (Some name).
Proof.
  intros (A & B & C) Hn Hl. unfold c_string. replace (off <? 0) with false by lia.
  change (ztake (zlen (name ++ [0])) (zdrop off d) = name ++ [0]) in C. rewrite <- (ztake_zdrop (zlen (name ++ [0])) (zdrop off d)). rewrite C, <- app_assoc. cbn [app]. apply c_scan_ok; assumption.
Qed.
Lemma c_string_safe d off n : 0 <= off -> (0 < n -> off + n <= zlen d) -> exists r, c_string d off n = Ok r /\
  forall name, r = Some name -> ~ In 0 name /\ zlen name < n /\ holds d off (name ++ [0]).
Proof.
  intros Ho Hn. unfold c_string. replace (off <? 0) with false by lia.
  destruct (Z.leb_spec n 0) as [N|N].
  { exists None. split; [destruct (zdrop off d); cbn [c_scan]; replace (n <=? 0) with true by lia; reflexivity|discriminate]. }
  specialize (Hn N). pose proof (zlen_zdrop off d ltac:(lia)) as Lz.
  destruct (c_scan_safe (zdrop off d) n ltac:(lia)) as (r & -> & Hr). exists r. split; [reflexivity|].
  intros name E. destruct (Hr name E) as (A & B & rest & C). split; [exact A|]. split; [exact B|].
  unfold holds. rewrite zlen_app. change (zlen [0]) with 1. split; [exact Ho|]. split; [lia|].
  change (ztake (zlen name + 1) (zdrop off d) = name ++ [0]). rewrite C. replace (name ++ 0 :: rest) with ((name ++ [0]) ++ rest) by (rewrite <- app_assoc; reflexivity).
  replace (zlen name + 1) with (zlen (name ++ [0])) by (rewrite zlen_app; reflexivity). apply ztake_exact.
Qed.

(** ** Pointers with their lengths *)
Lemma unmapped_viewable p : unmapped p -> viewable p.
Proof.
  unfold unmapped, viewable. intros H. apply (Forall_impl _ (P := fun s => s_old s = None)); [|exact H]. intros s Hs.
  rewrite virt_view_unmapped by exact Hs. rewrite zlen_app. destruct (Z.leb_spec (aligned_vsize (salign p) s) (zlen (s_data s))) as [C|C].
  - pose proof (zlen_nonneg (zeros (aligned_vsize (salign p) s - zlen (s_data s)))). lia.
  - rewrite zlen_zeros by lia. lia.
Qed.
Lemma ptr_room p rva ty len : readable p -> ty = RawData \/ viewable p -> is_u32 rva -> length_rva p rva rva ty true = Ok len ->
  exists d off, ptr_rva p rva ty true = Ok (d, off) /\ 0 <= off /\ bytes d /\ 0 <= len < 2^32 /\ (0 < len -> off + len <= zlen d).
Proof.
  intros (_ & _ & W & F & Lf) V Hr E. unfold length_rva in E. unfold ptr_rva. unfold is_u32 in Hr.
  destruct (Z.ltb_spec rva (zlen (p_full p))) as [C|C]; cbn [andb] in *.
  - injection E as <-. exists (p_full p), rva. split; [reflexivity|]. split; [lia|]. split; [exact F|]. rewrite u32_small by lia. lia.
  - destruct (section_from_rva p rva) as [i| | |] eqn:Ei; cbn [bind] in *; try discriminate.
    destruct (section_from_rva_inv _ _ _ Ei) as (s & Hs & Hin). rewrite (get_section_ok _ _ _ Hs) in *. cbn [bind] in *.
    apply in_section_le in Hin. replace (rva <? s_va s) with false in E by lia. cbn [throw_if bind] in E. injection E as <-.
    pose proof (nth_Forall _ _ _ _ W Hs) as Ws.
    exists (view p s ty), (rva - s_va s). split; [reflexivity|]. split; [lia|].
    split; [destruct ty; cbn [view]; [apply bytes_raw_view|apply bytes_virt_view]; exact Ws|].
    assert (K : data_length p s ty <= zlen (view p s ty)).
    { destruct ty; cbn [data_length view]; [lia|]. destruct V as [V|V]; [discriminate|]. exact (nth_Forall _ _ _ _ V Hs). }
    destruct (Z.ltb_spec (data_length p s ty + s_va s - rva) 0) as [Q|Q]; [lia|]. pose proof (u32_range (data_length p s ty + s_va s - rva)) as U. unfold is_u32 in U.
    split; [lia|]. intros _. assert (u32 (data_length p s ty + s_va s - rva) <= data_length p s ty + s_va s - rva) by (unfold u32; apply Z.mod_le; lia). lia.
Qed.

(** ** Writing piece by piece *)
(** [d] differs from [d0] only between [a] and [b]. *)
Definition within (d0 d : list Z) (a b : Z) : Prop :=
  zlen d = zlen d0 /\ ztake a d = ztake a d0 /\ zdrop b d = zdrop b d0.
Lemma within_refl d a b : within d d a b. Proof. split; [reflexivity|split; reflexivity]. Qed.
Lemma ztake_splice (d : list Z) a off bs : 0 <= a <= off -> off + zlen bs <= zlen d -> ztake a (splice d off bs) = ztake a d.
Proof.
  intros H1 H2. pose proof (zlen_nonneg bs). unfold splice. rewrite ztake_app_l by (rewrite zlen_ztake; lia). rewrite ztake_ztake. f_equal. lia.
Qed.
Lemma zdrop_splice (d : list Z) b off bs : 0 <= off -> off + zlen bs <= b -> b <= zlen d -> zdrop b (splice d off bs) = zdrop b d.
Proof.
  intros H1 H2 H3. pose proof (zlen_nonneg bs). unfold splice. rewrite zdrop_app_r by (rewrite zlen_ztake; lia). rewrite zlen_ztake by lia.
  rewrite zdrop_app_r by lia. rewrite zdrop_zdrop by lia. f_equal. lia.
Qed.
Lemma within_wr d0 d a b off bs d' : within d0 d a b -> wr d off bs = Ok d' -> 0 <= a <= off -> off + zlen bs <= b -> b <= zlen d0 -> within d0 d' a b.
Proof.
  intros (A & B & C) W H1 H2 H3. apply wr_inv in W as (W1 & W2 & ->). split; [rewrite zlen_splice; lia|].
  rewrite ztake_splice, zdrop_splice by lia. tauto.
Qed.
Lemma within_splice d0 d a b : within d0 d a b -> 0 <= a <= b -> b <= zlen d0 -> d = splice d0 a (slice d a (b - a)).
Proof.
  intros (A & B & C) H1 H2. unfold splice. rewrite <- B. rewrite zlen_slice by lia. replace (a + (b - a)) with b by lia. rewrite <- C.
  rewrite <- (ztake_zdrop a d) at 1. f_equal. rewrite <- (ztake_zdrop (b - a) (zdrop a d)) at 1. f_equal. rewrite zdrop_zdrop by lia. f_equal. lia.
Qed.
Lemma holds_wr_same d off bs d' : wr d off bs = Ok d' -> holds d' off bs.
Proof. intros W. apply wr_inv in W as (W1 & W2 & ->). apply holds_splice; lia. Qed.
Lemma holds_wr_other d o x off bs d' : holds d o x -> wr d off bs = Ok d' -> o + zlen x <= off \/ off + zlen bs <= o -> holds d' o x.
Proof.
  intros (A & B & C) W H. apply wr_inv in W as (W1 & W2 & ->). pose proof (zlen_nonneg x). pose proof (zlen_nonneg bs).
  unfold holds. rewrite zlen_splice by lia. split; [lia|]. split; [lia|].
  destruct H as [H|H]; [rewrite slice_splice_before by lia|rewrite slice_splice_after by lia]; exact C.
Qed.
Lemma holds_wr_append d o x bs d' : holds d o x -> wr d (o + zlen x) bs = Ok d' -> holds d' o (x ++ bs).
Proof.
  intros H W. apply holds_app. split; [apply (holds_wr_other _ _ _ _ _ _ H W); lia|apply (holds_wr_same _ _ _ _ W)].
Qed.
Lemma wr_total d off bs : 0 <= off -> off + zlen bs <= zlen d -> exists d', wr d off bs = Ok d' /\ zlen d' = zlen d.
Proof. intros H1 H2. exists (splice d off bs). split; [apply wr_ok; lia|apply zlen_splice; lia]. Qed.
(** A region of the section that a rebuilder stored is found in the section's raw data. *)
Lemma raw_block p base v i t off : block p base v -> nth_error (p_sections p) i = Some t -> s_va t = base -> 0 <= off < zlen v -> zlen v = span (salign p) t ->
  ptr_rva p (base + off) RawData true = Ok (raw_view t, off) /\
  length_rva p (base + off) (base + off) RawData true = Ok (if zlen (raw_view t) - off <? 0 then 0 else u32 (zlen (raw_view t) - off)).
Proof.
  intros (Lay & Hf & Hb & _) Hs Va Ho Sp.
  assert (E : section_from_rva p (base + off) = Ok i) by (apply (section_from_rva_spec _ _ _ Lay); exists t; split; [exact Hs|unfold occupies, send; lia]).
  unfold ptr_rva, length_rva. replace (true && (base + off <? zlen (p_full p))) with false by lia. cbn [andb].
  rewrite E. cbn [bind]. rewrite (get_section_ok _ _ _ Hs). cbn [bind view data_length]. rewrite Va. replace (base + off <? base) with false by lia. cbn [throw_if bind].
  replace (base + off - base) with off by lia. replace (zlen (raw_view t) + base - (base + off)) with (zlen (raw_view t) - off) by lia. split; reflexivity.
Qed.

(** ** Loops *)
Lemma nloop_next {S R} n (f : S -> res (S + R)) s s' : f s = Ok (inl s') -> nloop (Datatypes.S n) f s = nloop n f s'.
Proof. intros H. cbn [nloop]. rewrite H. reflexivity. Qed.
Lemma mfold_app' {A B} (f : B -> A -> res B) l1 l2 b : mfold f (l1 ++ l2) b = (b' <- mfold f l1 b ;; mfold f l2 b').
Proof. revert b; induction l1 as [|x l1 IH]; intros b; cbn [mfold app bind]; [reflexivity|]. destruct (f b x); cbn [bind]; [apply IH|reflexivity..]. Qed.
Lemma rd_holds d off bs n : holds d off bs -> n = zlen bs -> rd d off n = Ok bs.
Proof. intros (A & B & C) ->. pose proof (zlen_nonneg bs). rewrite rd_ok by lia. rewrite C. reflexivity. Qed.
Lemma zlen_cons {A} (x : A) l : zlen (x :: l) = 1 + zlen l.
Proof. unfold zlen; cbn [length]; lia. Qed.
(** The part of a byte string behind a prefix of known length. *)
Lemma slice_skip (a b : list Z) off n k : off = zlen a + k -> 0 <= k -> slice (a ++ b) off n = slice b k n.
Proof.
  intros -> H. pose proof (zlen_nonneg a). change (ztake n (zdrop (zlen a + k) (a ++ b)) = ztake n (zdrop k b)).
  rewrite zdrop_app_r by lia. do 2 f_equal. lia.
Qed.
Lemma slice_here (a b : list Z) n : n = zlen a -> slice (a ++ b) 0 n = a.
Proof. intros ->. change (ztake (zlen a) (zdrop 0 (a ++ b)) = a). rewrite zdrop_0 by lia. apply ztake_exact. Qed.
Lemma four_power : power_of_two 4. Proof. exists 2. split; [lia|reflexivity]. Qed.
Lemma nth_ztake (l : list Z) n k : (Z.of_nat k < n)%Z -> nth k (ztake n l) 0 = nth k l 0.
Proof.
  unfold ztake. intros H. assert (K : (k < Z.to_nat n)%nat) by lia. clear H. revert k K. generalize (Z.to_nat n) as m. clear n.
  induction l as [|x l IH]; intros [|m] [|k] K; cbn [firstn nth]; try lia; try reflexivity. apply IH. lia.
Qed.
Lemma nth_slice (d : list Z) off n k : 0 <= off -> 0 <= k < n -> nth (Z.to_nat k) (slice d off n) 0 = nth (Z.to_nat (off + k)) d 0.
Proof.
  intros H1 H2. change (slice d off n) with (ztake n (zdrop off d)). rewrite nth_ztake by lia. unfold zdrop. rewrite nth_skipn. f_equal. lia.
Qed.
Lemma nth_holds (d : list Z) off bs : 0 <= off -> off + zlen bs <= zlen d -> (forall k, 0 <= k < zlen bs -> nth (Z.to_nat (off + k)) d 0 = nth (Z.to_nat k) bs 0) -> holds d off bs.
Proof.
  intros H1 H2 H. split; [lia|]. split; [lia|]. pose proof (zlen_nonneg bs). pose proof (zlen_slice d off (zlen bs) ltac:(lia) ltac:(lia) ltac:(lia)) as L. apply (nth_ext _ _ 0 0).
  - unfold zlen in *. lia.
  - intros n Hn. assert (K : 0 <= Z.of_nat n < zlen bs) by (unfold zlen in *; lia). specialize (H (Z.of_nat n) K). rewrite Nat2Z.id in H. rewrite <- H.
    rewrite <- (Nat2Z.id n) at 1. apply nth_slice; lia.
Qed.
(** ** Writing and what stays *)
Lemma zlen_map {A B} (f : A -> B) l : zlen (map f l) = zlen l. Proof. unfold zlen. rewrite map_length. reflexivity. Qed.
Lemma wr_step d off bs : 0 <= off -> off + zlen bs <= zlen d -> exists d', wr d off bs = Ok d' /\ zlen d' = zlen d /\ holds d' off bs /\
  (forall o x, holds d o x -> o + zlen x <= off \/ off + zlen bs <= o -> holds d' o x) /\ (bytes d -> bytes bs -> bytes d').
Proof.
  intros H1 H2. destruct (wr_total d off bs H1 H2) as (d' & E & L). exists d'. split; [exact E|]. split; [exact L|].
  split; [apply (holds_wr_same _ _ _ _ E)|]. split; [intros o x H D; apply (holds_wr_other _ _ _ _ _ _ H E D)|].
  intros B1 B2. apply wr_inv in E as (_ & _ & ->). apply bytes_splice; assumption.
Qed.
Lemma holds_front (d : list Z) a : 0 <= a <= zlen d -> holds d 0 (ztake a d).
Proof. intros H. unfold holds. rewrite zlen_ztake by lia. split; [lia|]. split; [lia|]. change (ztake a (zdrop 0 d) = ztake a d). rewrite zdrop_0 by lia. reflexivity. Qed.
Lemma ztake_full {A} (l : list A) n : zlen l <= n -> ztake n l = l.
Proof. intros H. unfold ztake. apply firstn_all2. unfold zlen in H. lia. Qed.
Lemma holds_back (d : list Z) a : 0 <= a <= zlen d -> holds d a (zdrop a d).
Proof.
  intros H. unfold holds. rewrite zlen_zdrop by lia. split; [lia|]. split; [lia|]. change (ztake (zlen d - a) (zdrop a d) = zdrop a d).
  apply ztake_full. rewrite zlen_zdrop; lia.
Qed.
Lemma frame_within (d d' : list Z) a b : 0 <= a <= zlen d -> 0 <= b <= zlen d -> zlen d' = zlen d -> holds d' 0 (ztake a d) -> holds d' b (zdrop b d) -> within d d' a b.
Proof.
  intros Ha Hb L (_ & _ & H1) (_ & _ & H2). rewrite zlen_ztake in H1 by lia. rewrite zlen_zdrop in H2 by lia. split; [exact L|]. split.
  - rewrite <- H1. change (ztake a d' = ztake a (zdrop 0 d')). rewrite zdrop_0 by lia. reflexivity.
  - rewrite <- H2. symmetry. change (ztake (zlen d - b) (zdrop b d') = zdrop b d'). apply ztake_full. rewrite zlen_zdrop; lia.
Qed.
(** A part of what a region shows. *)
Lemma holds_part v d pos n off x : holds v pos (slice d pos n) -> 0 <= pos -> 0 <= n -> pos + n <= zlen d -> holds d off x -> pos <= off -> off + zlen x <= pos + n -> holds v off x.
Proof.
  intros (A1 & A2 & A3) Hp Hn Hl (B1 & B2 & B3) H1 H2. pose proof (zlen_nonneg x). rewrite zlen_slice in A2, A3 by lia. apply nth_holds; [lia|lia|]. intros k Hk.
  rewrite <- B3 at 1. rewrite nth_slice by lia. replace (off + k) with (pos + (off - pos + k)) by lia. rewrite <- (nth_slice v pos n) by lia. rewrite A3. apply nth_slice; lia.
Qed.
