(** Lemmas on reading from and writing to directories. *)
From Verif Require Export SpecDir BaseFacts UtilsFacts SectionFacts PeFacts PeEditFacts.

(** ** Reading any image *)
Lemma directory_exists_safe p id : readable p -> 0 <= id < 16 -> exists b, directory_exists p id = Ok b.
Proof.
  intros ((L & F) & _) H. unfold directory_exists. case_if C; [|eauto].
  unfold nth_ub. assert (zlen (h_dirs (p_nt p)) = 16) as -> by (unfold zlen; lia).
  replace ((0 <=? id) && (id <? 16)) with true by lia.
  destruct (nth_error _ _) eqn:E; [cbn [bind]; eauto|]. apply nth_error_None in E. lia.
Qed.
Lemma dir_get p id : readable p -> 0 <= id < 16 ->
  (exists rva size, is_u32 rva /\ is_u32 size /\ dir_is p id (rva, size) /\
     get_directory_rva p id = (if nrva p <=? id then Throw directory_does_not_exist else Ok rva) /\
     get_directory_size p id = (if nrva p <=? id then Throw directory_does_not_exist else Ok size) /\
     (id < nrva p -> directory_exists p id = Ok (negb (rva =? 0)))).
Proof.
  intros ((L & F) & N & _) H. destruct (nth_error (h_dirs (p_nt p)) (Z.to_nat id)) as [[rva size]|] eqn:E; [|apply nth_error_None in E; lia].
  pose proof (nth_Forall _ _ _ _ F E) as [A B]. exists rva, size. split; [exact A|]. split; [exact B|].
  assert (Nth : nth_ub (h_dirs (p_nt p)) id = Ok (rva, size)).
  { unfold nth_ub. assert (zlen (h_dirs (p_nt p)) = 16) as -> by (unfold zlen; lia). replace ((0 <=? id) && (id <? 16)) with true by lia. rewrite E. reflexivity. }
  split; [split; [lia|exact E]|]. unfold get_directory_rva, get_directory_size, directory_exists. rewrite Nth.
  split; [destruct (nrva p <=? id); reflexivity|]. split; [destruct (nrva p <=? id); reflexivity|].
  intros K. rewrite u32_small by lia. destruct (Z.leb_spec id (nrva p - 1)); [reflexivity|lia].
Qed.
Lemma has_reloc_safe p : readable p -> exists b, has_reloc p = Ok b.
Proof.
  intros R. unfold has_reloc. destruct (directory_exists_safe p dir_basereloc R ltac:(unfold dir_basereloc; lia)) as [b ->]. cbn [bind]. eauto.
Qed.
Lemma length_rva_safe p rva rva_in ty hdrs : Forall wf_section (p_sections p) -> safe (length_rva p rva rva_in ty hdrs).
Proof.
  intros W. unfold length_rva. case_if C; [exact I|].
  destruct (section_from_rva p rva) as [i| | |] eqn:E; cbn [bind]; try exact I; try (pose proof (section_from_rva_safe p rva) as S; rewrite E in S; exact S).
  destruct (section_from_rva_inv _ _ _ E) as (s & Hs & _). rewrite (get_section_ok _ _ _ Hs). cbn [bind].
  case_throw T; exact I.
Qed.
Lemma rd_len l off n bs : rd l off n = Ok bs -> zlen bs = n.
Proof. intros H. apply rd_inv in H as (A & B & C & ->). apply zlen_slice; lia. Qed.
Lemma read_rva_len p rva n ty hdrs bs : read_rva p rva n ty hdrs = Ok bs -> zlen bs = n.
Proof.
  intros H. unfold read_rva in H. destruct (hdrs && _ && _); [apply (rd_len _ _ _ _ H)|].
  bnd H i E1. bnd H s E2. thr H E3. apply (rd_len _ _ _ _ H).
Qed.
Lemma read_rva_bytes p rva n ty hdrs bs : readable p -> read_rva p rva n ty hdrs = Ok bs -> bytes bs.
Proof.
  intros (_ & _ & W & F & _) H. unfold read_rva in H. destruct (hdrs && _ && _).
  - apply rd_inv in H as (A & B & C & ->). apply bytes_slice, F.
  - bnd H i E1. bnd H s E2. thr H E3. apply rd_inv in H as (A & B & C & ->). apply bytes_slice.
    apply get_section_inv in E2. pose proof (nth_Forall _ _ _ _ W E2) as Ws.
    destruct ty; cbn [view]; [apply bytes_raw_view; exact Ws|apply bytes_virt_view; exact Ws].
Qed.

(** ** Making room *)
Lemma sec_empty_raw s : wf_section s -> sec_empty s = (zlen (raw_view s) =? 0).
Proof.
  intros W. apply wf_old in W. unfold old_ok, sec_empty, raw_view, unmap_virtual in *. destruct (s_old s) as [n|] eqn:E; [|reflexivity].
  cbn [set_s_old set_s_data s_data]. rewrite zlen_resize by lia. reflexivity.
Qed.
Lemma zlen_0_nil {A} (l : list A) : (zlen l =? 0) = true <-> l = [].
Proof. destruct l; unfold zlen; cbn [length]; split; intros; [reflexivity|reflexivity|lia|discriminate]. Qed.
Lemma pow2_ceil31 x a : power_of_two a -> a < 2^32 -> x <= 2^31 -> ceil_mult x a <= 2^31.
Proof.
  intros P L H. pose proof (pow2_le31 _ P L) as H31. assert (P31 : power_of_two (2^31)) by (exists 31; split; [lia|reflexivity]).
  apply (ceil_mult_least x a (pow2_pos _ P)); [apply (pow2_divide _ _ P P31 H31)|exact H].
Qed.
(** The section handed to the writer. *)
Definition opened (s : section) (d : list Z) : section := set_s_data d (unmap_virtual s).
Lemma open_room_ok p start i total len :
  room p start i total -> total <= len <= ceil_mult total (falign p) ->
  exists s d, nth_error (p_sections p) i = Some s /\ open_room p i total len = Ok (opened s d) /\ padded (raw_view s) d /\
    total <= zlen d /\ (zlen d = zlen (raw_view s) \/ zlen d = len) /\ zlen (raw_view s) <= zlen d.
Proof.
  intros (IO & T & s & Hs & Hz & Hf & Hv & Hr & R) Hl. exists s.
  pose proof IO as ((Ps & Pf & L) & W & _). pose proof (nth_Forall _ _ _ _ W Hs) as Ws.
  unfold open_room, section_attached.
  assert (K : Nat.ltb i (length (p_sections p)) = true) by (apply Nat.ltb_lt, (nth_lt _ _ _ Hs)). rewrite K. cbn [negb throw_if bind].
  rewrite (get_section_ok _ _ _ Hs). cbn [bind].
  assert (C : negb (Nat.eqb (S i) (length (p_sections p))) && (sec_empty s || (align_up (s_rawsize s) (falign p) <? total)) = false).
  { destruct (Nat.eqb (S i) (length (p_sections p))); [reflexivity|]. destruct R as (R1 & R2 & R3).
    rewrite (sec_empty_raw _ Ws). cbn [negb andb]. destruct (zlen (raw_view s) =? 0) eqn:Z0; [apply zlen_0_nil in Z0; congruence|].
    destruct (wf_ranges s Ws) as (_ & _ & U & _).
    unfold is_u32 in U. rewrite align_up_small by (try assumption; lia). cbn [orb]. lia. }
  rewrite C. cbn [throw_if bind]. fold (raw_view s). destruct (Z.ltb_spec (zlen (raw_view s)) total) as [C2|C2].
  - exists (resize (raw_view s) len). split; [exact Hs|]. split; [reflexivity|]. split; [apply resize_padded; lia|]. rewrite zlen_resize by lia. lia.
  - exists (raw_view s). split; [exact Hs|]. split.
    + unfold opened, raw_view. destruct (unmap_virtual s); reflexivity.
    + split; [apply padded_refl|]. lia.
Qed.
Lemma opened_fields s d :
  s_name (opened s d) = s_name s /\ s_vsize (opened s d) = s_vsize s /\ s_va (opened s d) = s_va s /\
  s_rawptr (opened s d) = s_rawptr s /\ s_chars (opened s d) = s_chars s /\ s_data (opened s d) = d /\
  s_old (opened s d) = None /\ raw_view (opened s d) = d.
Proof.
  destruct (unmap_fields s) as (A & B & C & D & F & _ & _ & _ & _ & H). pose proof (unmap_old s) as O.
  unfold opened. cbn [set_s_data s_name s_vsize s_va s_rawptr s_chars s_data s_old]. repeat (split; [assumption|]). split; [reflexivity|].
  split; [assumption|]. unfold raw_view. unfold unmap_virtual at 1. cbn [set_s_data s_old]. rewrite O. reflexivity.
Qed.
Lemma opened_wf s d : wf_section s -> bytes d -> zlen d < 2^63 -> wf_section (opened s d).
Proof.
  intros W B L. apply wf_unmap in W. pose proof (unmap_old s) as O.
  unfold opened, wf_section in *; cbn [set_s_data s_name s_vsize s_va s_rawsize s_rawptr s_relptr s_lineptr s_nrel s_nline s_chars s_data s_old].
  rewrite O in *. tauto.
Qed.
Lemma padded_bytes d d' : padded d d' -> bytes d -> bytes d'.
Proof. intros [n ->] B. apply bytes_app; split; [exact B|apply bytes_zeros]. Qed.

(** ** Storing the section *)
Lemma strip_keep1_padded d : padded (strip_keep1 d) d.
Proof.
  unfold strip_keep1. destruct (zlen d =? 0) eqn:Z0; [apply padded_refl|].
  destruct (trim_spec d) as ([[n E] _] & B). unfold trailing0_count in *.
  set (k := zlen d - leading0_count (rev d)) in *. unfold resize in E; replace (k <=? zlen d) with true in E by lia.
  destruct (Z.max_spec 1 k) as [[H ->]|[H ->]]; [exists n; exact E|].
  assert (k = 0 \/ k = 1) as [K|K] by lia; [|rewrite <- K; exists n; exact E].
  rewrite K in E. unfold ztake at 1 in E. cbn in E. exists (n - 1). rewrite E at 2.
  pose proof (zlen_nonneg d). assert (N : 0 < n) by (destruct (Z.leb_spec n 0); [|lia]; rewrite E in Z0; unfold zeros in Z0; replace (Z.to_nat n) with 0%nat in Z0 by lia; discriminate).
  rewrite E. unfold zeros. replace (Z.to_nat n) with (S (Z.to_nat (n - 1))) by lia. reflexivity.
Qed.
Lemma chain_ext_span sa start l l' :
  Forall2 (fun s t => s_va t = s_va s /\ span sa t = span sa s) l l' -> chain sa start l -> chain sa start l' /\ chain_end sa start l' = chain_end sa start l.
Proof.
  intros F; revert start; induction F as [|s t l l' [A B] F IH]; intros start C; cbn [chain chain_end] in *; [tauto|].
  destruct C as [C1 C2]. unfold send in *. rewrite A, B, <- C1. destruct (IH _ C2) as [D1 D2].
  split; [split; [reflexivity|exact D1]|exact D2].
Qed.
Lemma Forall2_upd {A} (R : A -> A -> Prop) l i s t : (forall x, R x x) -> nth_error l i = Some s -> R s t -> Forall2 R l (upd l i t).
Proof.
  intros Rr; revert i; induction l as [|h l IH]; intros [|i] H Hr; cbn [upd nth_error] in *; try discriminate.
  - inversion H; subst. constructor; [assumption|]. clear -Rr. induction l; constructor; auto.
  - constructor; [apply Rr|]. apply IH; assumption.
Qed.
Lemma chain_grow sa start l i s t : S i = length l -> nth_error l i = Some s -> s_va t = s_va s -> chain sa start l ->
  chain sa start (upd l i t) /\ chain_end sa start (upd l i t) = send sa t.
Proof.
  intros Hi Hs Ht C. destruct (nth_error_split _ _ Hs) as (l1 & l2 & -> & <-). rewrite app_length in Hi. cbn [length] in Hi.
  assert (l2 = []) as -> by (destruct l2; [reflexivity|cbn [length] in Hi; lia]). rewrite upd_last.
  apply chain_app in C as [C1 C2]. cbn [chain] in C2. rewrite chain_end_last. split; [|reflexivity].
  apply chain_app. split; [exact C1|]. cbn [chain]. rewrite Ht. tauto.
Qed.
(** What a section looks like when a rebuilder has stored data [d] in it. *)
Definition stored (s t : section) (d : list Z) : Prop :=
  s_name t = s_name s /\ s_va t = s_va s /\ s_rawptr t = s_rawptr s /\ s_chars t = s_chars s /\ s_old t = None /\
  padded (raw_view t) d.
Lemma store_le p start i total len s d0 d strip :
  room p start i total -> total <= len <= ceil_mult total (falign p) ->
  nth_error (p_sections p) i = Some s -> open_room p i total len = Ok (opened s d0) ->
  zlen d <= zlen d0 -> 0 < zlen d -> bytes d ->
  exists t, recalculate_section_sizes (put_section p i (opened s d)) i strip = Ok (put_section p i t) /\
    stored s t d /\ wf_section t /\ image_ok (put_section p i t) start /\ zlen d <= span (salign p) t /\
    0 < s_vsize t <= 2^31 /\ span (salign p) s <= span (salign p) t /\ zlen (raw_view t) <= zlen d /\ 
    (strip = false \/ S i = length (p_sections p) -> raw_view t = d) /\ well_sized p t.
Proof.
  intros R Hl Hs Ho Ld Lp Bd. destruct (open_room_ok _ _ _ _ _ R Hl) as (s' & d' & Hs' & Ho' & _ & _ & LL & LL2).
  rewrite Hs in Hs'. inversion Hs'; subst s'; clear Hs'.
  assert (d' = d0) by (rewrite Ho in Ho'; unfold opened in Ho'; inversion Ho'; reflexivity).
  subst d'. clear Ho'. destruct R as (IO & T & s' & Hs' & Hz & Hf & Hv & Hr & R). rewrite Hs in Hs'. inversion Hs'; subst s'; clear Hs'.
  pose proof IO as ((Ps & Pf & L) & W & Dv & St & Ch & Ce). pose proof (nth_Forall _ _ _ _ W Hs) as Ws.
  pose proof (pow2_pos _ Ps) as Ps0. pose proof (pow2_pos _ Pf) as Pf0. pose proof (pow2_le31 _ Ps ltac:(lia)) as H31.
  destruct (opened_fields s d) as (O1 & O2 & O3 & O4 & O5 & O6 & O7 & O8).
  pose proof (pow2_ceil31 total _ Pf ltac:(lia) ltac:(lia)) as T31.
  assert (Wo : wf_section (opened s d)) by (apply opened_wf; [exact Ws|exact Bd|lia]).
  set (q := put_section p i (opened s d)).
  assert (Hq : nth_error (p_sections q) i = Some (opened s d)) by (apply put_get, (nth_lt _ _ _ Hs)).
  unfold recalculate_section_sizes. rewrite (get_section_ok _ _ _ Hq). cbn [bind].
  change (falign q) with (falign p). change (salign q) with (salign p).
  destruct (prepare_section_total (falign p) (salign p) (opened s d)) as [t Et]; [exact Pf|lia|rewrite O8; lia|lia|right; rewrite O2; lia|].
  rewrite Et. cbn [bind].
  destruct (prepare_section_ok _ _ _ _ Pf Ps L Wo ltac:(rewrite O8; lia) ltac:(rewrite O2; lia) H31 Et) as (P1 & _ & P3 & P4 & P5).
  cbv zeta in P1, P4. rewrite O8 in P1, P4. rewrite O2 in P1. destruct (Z.eqb_spec (s_vsize s) 0) as [|_]; [lia|].
  assert (Uo : unmap_virtual (opened s d) = opened s d) by (unfold unmap_virtual; rewrite O7; reflexivity). rewrite Uo in P1.
  set (raw := ceil_mult (zlen d) (falign p)) in *.
  assert (F1 : s_vsize t = Z.max raw (ceil_mult (s_vsize s) (salign p))) by (rewrite P1; reflexivity).
  assert (F2 : s_rawsize t = raw) by (rewrite P1; reflexivity).
  assert (F3 : s_data t = d) by (rewrite P1; cbn [set_s_vsize set_s_rawsize s_data]; exact O6).
  assert (F4 : s_old t = None) by (rewrite P1; exact O7).
  assert (F5 : s_name t = s_name s /\ s_va t = s_va s /\ s_rawptr t = s_rawptr s /\ s_chars t = s_chars s) by (rewrite P1; cbn [set_s_vsize set_s_rawsize s_name s_va s_rawptr s_chars]; tauto).
  clear P1.
  pose proof (ceil_mult_least (zlen d) (falign p) Pf0) as (G1 & G2 & G3 & G4). fold raw in G1, G2, G3, G4.
  pose proof (ceil_mult_least (s_vsize s) (salign p) Ps0) as (V1 & V2 & V3 & V4).
  assert (Sp : span (salign p) s = ceil_mult (s_vsize s) (salign p)) by (unfold span; destruct (Z.eqb_spec (s_vsize s) 0); [lia|reflexivity]).
  assert (Fd : (falign p | salign p)) by (apply pow2_divide; try assumption; lia).
  set (t' := if strip && negb (Nat.eqb i (length (p_sections q) - 1)) then set_s_rawsize (u32 (zlen (strip_keep1 (s_data t)))) (set_s_data (strip_keep1 (s_data t)) t) else t).
  assert (Pad : padded (strip_keep1 d) d) by apply strip_keep1_padded.
  assert (Lk : zlen (strip_keep1 d) <= zlen d) by (destruct Pad as [n E]; rewrite E at 2; rewrite zlen_app; pose proof (zlen_nonneg (zeros n)); lia).
  pose proof (zlen_nonneg (strip_keep1 d)) as Ln.
  assert (E0 : s_name t' = s_name s /\ s_va t' = s_va s /\ s_rawptr t' = s_rawptr s /\ s_chars t' = s_chars s /\ s_old t' = None /\ s_vsize t' = s_vsize t /\ s_rawsize t' <= raw /\ 0 <= s_rawsize t' /\ (s_data t' = d \/ s_data t' = strip_keep1 d) /\ wf_section t' /\ (strip = false \/ S i = length (p_sections p) -> s_data t' = d) /\ zlen (s_data t') <= s_rawsize t').
  { unfold t'. destruct (strip && _) eqn:Cs.
    - cbn [set_s_rawsize set_s_data s_name s_va s_rawptr s_chars s_old s_vsize s_rawsize s_data]. rewrite F3. rewrite u32_small by lia.
      repeat (split; [tauto|]). split; [lia|]. split; [lia|]. split; [right; reflexivity|].
      split.
      + apply wf_set_rawsize; [unfold is_u32; lia|]. clear - P3 F4 Pad Bd Lk Ld LL Hr T31 Hl.
        assert (bytes (strip_keep1 d)) by (destruct Pad as [n E]; rewrite E in Bd; apply bytes_app in Bd; tauto).
        unfold wf_section in *. cbn [set_s_data s_name s_vsize s_va s_rawsize s_rawptr s_relptr s_lineptr s_nrel s_nline s_chars s_data s_old].
        rewrite F4 in *. repeat (split; [tauto|]). split; [lia|exact I].
      + split; [|lia]. intros [->|K]; [discriminate|]. exfalso. rewrite andb_true_iff, negb_true_iff, Nat.eqb_neq in Cs. destruct Cs as [_ Cs]. apply Cs.
        unfold q. cbn [put_section set_p_sections p_sections]. rewrite upd_length. lia.
    - repeat (split; [tauto|]). split; [lia|]. split; [lia|]. split; [tauto|]. split; [tauto|]. split; [tauto|]. rewrite F2, F3. exact G2. }
  clearbody t'. destruct E0 as (E1 & E2 & E3 & E4 & E5 & E6 & E7 & E8 & E9 & E10 & E11 & E12). 
  assert (Ct : align_up (s_vsize t') (salign p) <? align_up (s_rawsize t') (falign p) = false).
  { rewrite E6. pose proof (ceil_mult_least (s_rawsize t') (falign p) Pf0) as (H1 & H2 & _ & H4).
    pose proof (ceil_mult_least (s_vsize t) (salign p) Ps0) as (H5 & H6 & _ & H8).
    pose proof (pow2_ceil31 (s_vsize t) _ Ps ltac:(lia) ltac:(lia)).
    specialize (H4 raw G1 E7).
    rewrite !align_up_small by (try assumption; unfold is_u32; lia). lia. }
  rewrite Ct. unfold q. rewrite put_put. exists t'. split; [reflexivity|].
  assert (Rv : raw_view t' = s_data t') by (apply raw_view_unmapped; exact E5).
  split; [repeat (split; [assumption|]); rewrite Rv; destruct E9 as [-> | ->]; [apply padded_refl|exact Pad]|].
  split; [exact E10|].
  assert (Sp' : span (salign p) t' = ceil_mult (s_vsize t) (salign p)) by (unfold span; rewrite E6; destruct (Z.eqb_spec (s_vsize t) 0); [lia|reflexivity]).
  pose proof (ceil_mult_least (s_vsize t) (salign p) Ps0) as (H5 & H6 & _ & H8).
  pose proof (ceil_mult_least total (falign p) Pf0) as (J1 & J2 & _ & J4).
  pose proof (ceil_mult_least total (salign p) Ps0) as (K1 & K2 & _ & K4).
  split.
  { split; [split; [exact Ps|split; [exact Pf|exact L]]|]. split; [apply Forall_upd; assumption|]. split; [exact Dv|]. split; [exact St|].
    change (salign (put_section p i t')) with (salign p). cbn [put_section set_p_sections p_sections].
    destruct (Nat.eqb_spec (S i) (length (p_sections p))) as [Last|Nl].
    - destruct (chain_grow (salign p) start _ i s t' Last Hs E2 Ch) as [Q1 Q2]. split; [exact Q1|]. rewrite Q2. unfold send. rewrite Sp', E2.
      assert (Sb : span (salign p) s = ceil_mult (s_vsize s) (salign p)) by exact Sp.
      pose proof (chain_upper _ _ _ Ps0 W Ch) as Up. pose proof (nth_Forall _ _ _ _ Up Hs) as Us. cbn beta in Us. unfold send in Us. rewrite Sp in *.
      destruct (Z.leb_spec (ceil_mult (s_vsize t) (salign p)) (ceil_mult (s_vsize s) (salign p))) as [Q|Q]; [lia|].
      assert (ceil_mult (s_vsize t) (salign p) <= ceil_mult total (salign p)); [|lia].
      apply H8; [exact K1|]. rewrite F1. apply Z.max_lub.
      + apply G4; [apply (Z.divide_trans _ (salign p)); assumption|]. destruct LL as [LL|LL].
        * exfalso. assert (ceil_mult (s_vsize t) (salign p) <= ceil_mult (s_vsize s) (salign p)); [|lia]. apply H8; [exact V1|]. rewrite F1. apply Z.max_lub; [|lia].
          apply G4; [apply (Z.divide_trans _ (salign p)); assumption|lia].
        * apply Z.le_trans with (zlen d0); [exact Ld|]. rewrite LL. apply Z.le_trans with (ceil_mult total (falign p)); [lia|]. apply J4; [apply (Z.divide_trans _ (salign p)); assumption|lia].
      + destruct (Z.leb_spec (ceil_mult (s_vsize s) (salign p)) (ceil_mult total (salign p))) as [Q2'|Q2']; [exact Q2'|]. exfalso.
        assert (ceil_mult (s_vsize t) (salign p) <= ceil_mult (s_vsize s) (salign p)); [|lia]. apply H8; [exact V1|]. rewrite F1. apply Z.max_lub; [|lia].
        apply G4; [apply (Z.divide_trans _ (salign p)); assumption|]. destruct LL as [LL|LL]; [lia|].
        apply Z.le_trans with (zlen d0); [exact Ld|]. rewrite LL. apply Z.le_trans with (ceil_mult total (falign p)); [lia|]. apply J4; [apply (Z.divide_trans _ (salign p)); assumption|lia].
    - assert (ceil_mult (s_vsize t) (salign p) = ceil_mult (s_vsize s) (salign p)).
      { apply Z.le_antisymm; [|apply V4; [exact H5|lia]]. apply H8; [exact V1|]. rewrite F1. apply Z.max_lub; [|lia].
        apply G4; [apply (Z.divide_trans _ (salign p)); assumption|]. destruct LL as [LL|LL]; [lia|]. 
        pose proof (ceil_mult_least (s_rawsize s) (falign p) Pf0) as (X1 & _). pose proof (J4 _ X1 ltac:(lia)). lia. }
      destruct (chain_ext_span (salign p) start (p_sections p) (upd (p_sections p) i t')) as [Q1 Q2]; [|exact Ch|split; [exact Q1|rewrite Q2; exact Ce]].
      apply (Forall2_upd _ _ _ s); [auto|exact Hs|]. split; [exact E2|]. rewrite Sp', Sp. assumption. }
  split; [rewrite Sp'; lia|]. split; [lia|]. split; [rewrite Sp', Sp; apply V4; [exact H5|lia]|].
  split; [rewrite Rv; destruct E9 as [-> | ->]; lia|]. split; [rewrite Rv; exact E11|].
  pose proof (pow2_ceil31 (zlen d) _ Pf ltac:(lia) ltac:(lia)) as R31. fold raw in R31.
  split; [exact E5|]. split; [lia|]. split; [rewrite Rv; lia|].
  rewrite Sp'. pose proof (ceil_mult_least (s_rawsize t') (falign p) Pf0) as (_ & _ & _ & M4). specialize (M4 raw G1 E7). lia.
Qed.
Lemma store_ok p start i total len s d0 d strip :
  room p start i total -> total <= len <= ceil_mult total (falign p) ->
  nth_error (p_sections p) i = Some s -> open_room p i total len = Ok (opened s d0) ->
  zlen d = zlen d0 -> 0 < zlen d -> bytes d ->
  exists t, recalculate_section_sizes (put_section p i (opened s d)) i strip = Ok (put_section p i t) /\
    stored s t d /\ wf_section t /\ image_ok (put_section p i t) start /\ zlen d <= span (salign p) t /\
    0 < s_vsize t <= 2^31 /\ span (salign p) s <= span (salign p) t /\ zlen (raw_view t) <= zlen d /\ 
    (strip = false \/ S i = length (p_sections p) -> raw_view t = d) /\ well_sized p t.
Proof. intros R Hl Hs Ho Ld. apply (store_le p start i total len s d0 d strip R Hl Hs Ho). lia. Qed.

(** ** Reading a block back *)
(** The address range that starts at [base] shows exactly the bytes [v]. *)
Definition block (p : pe) (base : Z) (v : list Z) : Prop :=
  spec_layout p /\ zlen (p_full p) <= base /\ base + zlen v < 2^32 /\ bytes v /\
  exists i s, nth_error (p_sections p) i = Some s /\ s_va s = base /\ virt_view (salign p) s = v /\ zlen v = span (salign p) s.
Lemma block_sec p base v off : block p base v -> 0 <= off < zlen v ->
  exists i s, section_from_rva p (base + off) = Ok i /\ get_section p i = Ok s /\ s_va s = base /\ virt_view (salign p) s = v /\ aligned_vsize (salign p) s = zlen v.
Proof.
  intros (Lay & Hf & Hb & Bv & i & s & Hs & Va & Vv & Sp) H. exists i, s.
  split; [apply (section_from_rva_spec _ _ _ Lay); exists s; split; [exact Hs|unfold occupies, send; lia]|].
  split; [apply get_section_ok; exact Hs|]. repeat (split; [assumption|]).
  destruct Lay as ((P & _ & L) & W & _). destruct (wf_ranges _ (nth_Forall _ _ _ _ W Hs)) as (R1 & R2 & R3 & _). unfold is_u32 in *.
  rewrite Sp. apply aligned_vsize_span; try assumption; unfold is_u32; try lia.
Qed.
Lemma block_base p base v : block p base v -> 0 <= base.
Proof. intros (_ & H & _). pose proof (zlen_nonneg (p_full p)). lia. Qed.
Lemma block_read p base v off n : block p base v -> 0 <= off < zlen v -> 0 <= n -> off + n <= zlen v ->
  read_rva p (base + off) n VirtData true = Ok (slice v off n).
Proof.
  intros B Ho Hn Hl. pose proof (block_base _ _ _ B). destruct (block_sec _ _ _ _ B Ho) as (i & s & E1 & E2 & E3 & E4 & E5).
  destruct B as (_ & Hf & Hb & _). unfold read_rva.
  replace (true && is_sum_safe (base + off) n && (base + off + n <? zlen (p_full p))) with false by (destruct (is_sum_safe (base + off) n); lia).
  rewrite E1. cbn [bind]. rewrite E2. cbn [bind]. cbn [view]. rewrite E4, E3. rewrite u32_small by lia.
  replace (base + off - base) with off by lia. replace (zlen v <? off + n) with false by lia. cbn [throw_if bind].
  apply rd_ok; lia.
Qed.
Lemma block_ptr p base v off : block p base v -> 0 <= off < zlen v ->
  ptr_rva p (base + off) VirtData true = Ok (v, off).
Proof.
  intros B Ho. destruct (block_sec _ _ _ _ B Ho) as (i & s & E1 & E2 & E3 & E4 & E5).
  destruct B as (_ & Hf & Hb & _). unfold ptr_rva. replace (true && (base + off <? zlen (p_full p))) with false by lia.
  rewrite E1. cbn [bind]. rewrite E2. cbn [bind view]. rewrite E4, E3. do 2 f_equal. lia.
Qed.
Lemma block_length p base v off off2 : block p base v -> 0 <= off < zlen v -> 0 <= off2 <= zlen v ->
  length_rva p (base + off) (base + off2) VirtData true = Ok (zlen v - off2).
Proof.
  intros B Ho H2. pose proof (block_base _ _ _ B). destruct (block_sec _ _ _ _ B Ho) as (i & s & E1 & E2 & E3 & E4 & E5).
  destruct B as (_ & Hf & Hb & _). unfold length_rva.
  replace (true && (base + off <? zlen (p_full p)) && (base + off2 <? zlen (p_full p))) with false by lia.
  rewrite E1. cbn [bind]. rewrite E2. cbn [bind data_length]. rewrite E3, E5. replace (base + off2 <? base) with false by lia. cbn [throw_if bind].
  replace (zlen v + base - (base + off2) <? 0) with false by lia. rewrite u32_small by lia. f_equal. lia.
Qed.
Lemma block_ext p q base v : p_sections q = p_sections p -> p_full q = p_full p -> salign q = salign p -> falign q = falign p ->
  block p base v -> block q base v.
Proof. intros E1 E2 E3 E4 (A & B). unfold block, spec_layout, good_align in *. rewrite E1, E2, E3, E4. tauto. Qed.
Lemma store_block p start i t s d :
  image_ok (put_section p i t) start -> nth_error (p_sections p) i = Some s -> wf_section t -> stored s t d -> zlen d <= span (salign p) t ->
  bytes d -> zlen (p_full p) <= s_va s ->
  block (put_section p i t) (s_va s) (d ++ zeros (span (salign p) t - zlen d)).
Proof.
  intros (G & W & D & St & Ch & Ce) Hs Wt (S1 & S2 & S3 & S4 & S5 & [n Pd]) Hl Bd Hf.
  pose proof (chain_layout _ _ G W Ch Ce) as Lay.
  assert (Ht : nth_error (p_sections (put_section p i t)) i = Some t) by (apply put_get, (nth_lt _ _ _ Hs)).
  assert (Se : send (salign p) t < 2^32) by (destruct Lay as (_ & _ & F & _); exact (nth_Forall _ _ _ _ F Ht)).
  assert (L : zlen (d ++ zeros (span (salign p) t - zlen d)) = span (salign p) t) by (rewrite zlen_app, zlen_zeros by lia; lia).
  split; [exact Lay|]. split; [exact Hf|]. rewrite L. unfold send in Se. rewrite S2 in Se. split; [exact Se|].
  split; [apply bytes_app; split; [exact Bd|apply bytes_zeros]|]. exists i, t. split; [exact Ht|]. split; [exact S2|]. split; [|reflexivity].
  change (salign (put_section p i t)) with (salign p). rewrite virt_view_unmapped by exact S5.
  destruct (wf_ranges _ Wt) as (R1 & R2 & R3 & _). unfold is_u32 in *. destruct G as (P & _ & Lg).
  rewrite aligned_vsize_span; [|exact P|apply Lg|exact R1|exact R3|lia].
  rewrite (raw_view_unmapped _ S5) in Pd. rewrite Pd at 1. rewrite <- app_assoc. f_equal.
  rewrite Pd, zlen_app in *. pose proof (zlen_nonneg (s_data t)). unfold zeros in *. unfold zlen in *. rewrite repeat_length in *.
  rewrite <- repeat_app. f_equal. lia.
Qed.

(** ** What stays the same *)
Lemma nth_padded d d' k : padded d d' -> nth k d' 0 = nth k d 0.
Proof.
  intros [n ->]. destruct (Nat.ltb_spec k (length d)) as [H|H]; [apply app_nth1; exact H|].
  rewrite app_nth2 by exact H. rewrite (nth_overflow d) by exact H. unfold zeros. generalize (Z.to_nat n) as m. generalize (k - length d)%nat as j.
  intros j m; revert j; induction m; intros [|j]; cbn; auto.
Qed.
Lemma nth_skipn {A} (l : list A) n k x : nth k (skipn n l) x = nth (n + k) l x.
Proof. revert l; induction n as [|n IH]; intros [|h l]; cbn [skipn Nat.add nth]; try reflexivity; [destruct k; reflexivity|apply IH]. Qed.
Lemma nth_splice_out {d : list Z} pos out k : 0 <= pos -> pos + zlen out <= zlen d -> 0 <= k -> (k < pos \/ pos + zlen out <= k) ->
  nth (Z.to_nat k) (splice d pos out) 0 = nth (Z.to_nat k) d 0.
Proof.
  intros Hp Hl Hk Ho. unfold splice. pose proof (zlen_nonneg out). assert (A : length (ztake pos d) = Z.to_nat pos) by (unfold ztake, zlen in *; rewrite firstn_length; lia).
  destruct Ho as [Ho|Ho].
  - rewrite app_nth1 by lia. unfold ztake. rewrite <- (firstn_skipn (Z.to_nat pos) d) at 2. rewrite app_nth1; [reflexivity|unfold zlen in *; rewrite firstn_length; lia].
  - rewrite app_nth2 by lia. rewrite app_nth2 by (unfold zlen in *; lia). unfold zdrop. rewrite nth_skipn. f_equal. unfold zlen in *. lia.
Qed.
Lemma nth_splice_in {d : list Z} pos out k : 0 <= pos -> pos + zlen out <= zlen d -> 0 <= k < zlen out ->
  nth (Z.to_nat (pos + k)) (splice d pos out) 0 = nth (Z.to_nat k) out 0.
Proof.
  intros Hp Hl Hk. unfold splice. assert (A : length (ztake pos d) = Z.to_nat pos) by (unfold ztake, zlen in *; rewrite firstn_length; lia).
  rewrite app_nth2 by lia. rewrite app_nth1 by (unfold zlen in *; lia). f_equal. lia.
Qed.
Lemma stored_only p i s t d0 pos out :
  nth_error (p_sections p) i = Some s -> padded (raw_view s) d0 -> 0 <= pos -> pos + zlen out <= zlen d0 ->
  stored s t (splice d0 pos out) -> well_sized p t -> span (salign p) s <= span (salign p) t -> only_section p (put_section p i t) i pos out.
Proof.
  intros Hs Pd Hp Hl (S1 & S2 & S3 & S4 & S5 & S6) Sz Sn. unfold only_section. cbn [put_section set_p_sections p_sections]. rewrite upd_length. split; [reflexivity|].
  split; [intros j Hj; apply nth_error_upd_other; congruence|]. exists s, t. split; [exact Hs|].
  split; [apply nth_error_upd_same, (nth_lt _ _ _ Hs)|]. repeat (split; [assumption|]). unfold byte_of.
  split; intros k Hk.
  - intros Ho. rewrite <- (nth_padded _ _ _ S6), <- (nth_padded _ _ _ Pd). apply nth_splice_out; assumption.
  - rewrite <- (nth_padded _ _ _ S6). apply nth_splice_in; assumption.
Qed.
Lemma only_section_ext p p' q i pos out : p_sections q = p_sections p' -> only_section p p' i pos out -> only_section p q i pos out.
Proof. unfold only_section. intros ->. tauto. Qed.
Lemma set_directory_ok p id rva size : dirs_ok p -> 0 <= id < nrva p -> nrva p <= 16 ->
  set_directory p id rva size = Ok (store_dir p id (rva, size)).
Proof.
  intros (L & F) H N. unfold set_directory, set_directory_rva, set_directory_size.
  replace (nrva p <=? id) with false by lia. cbn [throw_if bind].
  destruct (nth_error (h_dirs (p_nt p)) (Z.to_nat id)) as [d|] eqn:E; [|apply nth_error_None in E; lia].
  rewrite (nth_ub_ok _ _ _ E) by lia. cbn [bind]. change (nrva (store_dir p id (rva, snd d))) with (nrva p).
  replace (nrva p <=? id) with false by lia. cbn [throw_if bind].
  change (h_dirs (p_nt (store_dir p id (rva, snd d)))) with (upd (h_dirs (p_nt p)) (Z.to_nat id) (rva, snd d)).
  rewrite (nth_ub_ok _ id (rva, snd d)); [|apply nth_error_upd_same; lia|lia]. cbn [bind fst]. f_equal.
  unfold store_dir, with_nt, set_p_nt, set_h_dirs. cbn -[upd Z.to_nat]. rewrite upd_upd. reflexivity.
Qed.
Lemma store_dir_only p q id d : dirs_ok p -> 0 <= id < 16 -> h_dirs (p_nt q) = h_dirs (p_nt p) -> only_directory p (store_dir q id d) id d.
Proof.
  intros D H E. assert (Dq : dirs_ok q) by (unfold dirs_ok in *; rewrite E; exact D). destruct (store_dir_is q id d Dq H) as [A B].
  split; [exact A|]. intros j e Hj. rewrite (B j e Hj). unfold dir_is. rewrite E. tauto.
Qed.

(** ** Byte strings inside byte strings *)
Definition holds (v : list Z) (off : Z) (bs : list Z) : Prop :=
  0 <= off /\ off + zlen bs <= zlen v /\ slice v off (zlen bs) = bs.
Lemma app_inj_len {A} (a b c d : list A) : a ++ b = c ++ d -> zlen a = zlen c -> a = c /\ b = d.
Proof.
  revert c; induction a as [|h a IH]; intros [|k c] H L; unfold zlen in *; cbn [length app] in *; try lia; [tauto|].
  inversion H; subst. destruct (IH c H2 ltac:(lia)) as [-> ->]. tauto.
Qed.
Lemma holds_app v off a b : holds v off (a ++ b) <-> holds v off a /\ holds v (off + zlen a) b.
Proof.
  unfold holds. rewrite zlen_app. pose proof (zlen_nonneg a). pose proof (zlen_nonneg b). split.
  - intros (H1 & H2 & H3). rewrite slice_split in H3 by lia.
    assert (La : zlen (slice v off (zlen a)) = zlen a) by (apply zlen_slice; lia).
    apply app_inj_len in H3; [|exact La]. destruct H3 as [H3 H4]. repeat split; try lia; assumption.
  - intros ((H1 & H2 & H3) & (H4 & H5 & H6)). split; [lia|]. split; [lia|]. rewrite slice_split, H3, H6 by lia. reflexivity.
Qed.
Lemma holds_nil v off : 0 <= off <= zlen v -> holds v off [].
Proof. intros H. unfold holds. change (@zlen Z []) with 0. split; [lia|]. split; [lia|]. reflexivity. Qed.
Lemma holds_slice v off bs n : holds v off bs -> n = zlen bs -> slice v off n = bs.
Proof. intros (_ & _ & H) ->. exact H. Qed.
Lemma holds_splice d off out : 0 <= off -> off + zlen out <= zlen d -> holds (splice d off out) off out.
Proof. intros H1 H2. unfold holds. rewrite zlen_splice by lia. split; [lia|]. split; [lia|]. apply slice_splice_same; lia. Qed.
Lemma holds_ext v w off bs : holds v off bs -> holds (v ++ w) off bs.
Proof.
  intros (H1 & H2 & H3). pose proof (zlen_nonneg bs). pose proof (zlen_nonneg w). unfold holds. rewrite zlen_app. split; [lia|]. split; [lia|].
  rewrite slice_app_l by lia. exact H3.
Qed.
Lemma holds_range v off bs : holds v off bs -> 0 <= off /\ off + zlen bs <= zlen v.
Proof. unfold holds; tauto. Qed.
(** Writing one more piece behind what has been written. *)
Lemma wr_append d pos out bs : 0 <= pos -> pos + zlen out + zlen bs <= zlen d ->
  wr (splice d pos out) (pos + zlen out) bs = Ok (splice d pos (out ++ bs)).
Proof.
  intros Hp Hl. pose proof (zlen_nonneg out). pose proof (zlen_nonneg bs). rewrite wr_ok by (rewrite ?zlen_splice; lia). f_equal.
  unfold splice. rewrite !zlen_app. rewrite ztake_app_r by (rewrite zlen_ztake; lia). rewrite zlen_ztake by lia.
  replace (pos + zlen out - pos) with (zlen out) by lia. rewrite ztake_exact. rewrite <- !app_assoc. do 2 f_equal. f_equal.
  rewrite zdrop_app_r by (rewrite zlen_ztake; lia). rewrite zlen_ztake by lia. rewrite zdrop_app_r by lia. rewrite zdrop_zdrop by lia. f_equal. lia.
Qed.
Lemma splice_nil (d : list Z) pos : 0 <= pos <= zlen d -> splice d pos [] = d.
Proof. intros H. unfold splice. change (@zlen Z []) with 0. cbn [app]. rewrite Z.add_0_r. apply ztake_zdrop. Qed.
Lemma block_holds p base v off bs n : block p base v -> holds v off bs -> n = zlen bs -> 0 < n ->
  read_rva p (base + off) n VirtData true = Ok bs.
Proof.
  intros B H -> Hn. pose proof (holds_range _ _ _ H). rewrite (block_read p base v) by (try assumption; lia).
  rewrite (holds_slice _ _ _ _ H eq_refl). reflexivity.
Qed.

(** ** Refusals *)
Lemma open_room_detached p i total len : nth_error (p_sections p) i = None -> open_room p i total len = Throw section_is_not_attached.
Proof.
  intros H. unfold open_room, section_attached. apply nth_error_None in H.
  replace (Nat.ltb i (length (p_sections p))) with false by (symmetry; apply Nat.ltb_ge; exact H). reflexivity.
Qed.
Lemma open_room_full p i total len : no_room p i total -> open_room p i total len = Throw insufficient_space.
Proof.
  intros ((Ps & Pf & Al) & L & s & H & W & C & D). unfold open_room, section_attached.
  replace (Nat.ltb i (length (p_sections p))) with true by (symmetry; apply Nat.ltb_lt; lia). cbn [negb throw_if bind].
  rewrite (get_section_ok p i s H). cbn [bind]. replace (Nat.eqb (S i) (length (p_sections p))) with false by (symmetry; apply Nat.eqb_neq; lia).
  assert (0 <= s_rawsize s < 2^32) by (unfold wf_section, is_u32 in W; tauto).
  rewrite align_up_small by (assumption || lia). rewrite sec_empty_raw by exact W. cbn [negb andb].
  destruct D as [D|D]; [rewrite D; reflexivity|]. replace (_ <? total) with true by lia. rewrite orb_true_r. reflexivity.
Qed.
