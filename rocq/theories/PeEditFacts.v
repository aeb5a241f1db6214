(** Lemmas about PeModel.v: editing the section table (C18-C23). *)
From Verif Require Export PeFacts.

Lemma rev_last {A} (l : list A) x t : rev l = x :: t -> l = rev t ++ [x].
Proof. intros H. rewrite <- (rev_involutive l), H. reflexivity. Qed.
Lemma rev_nil {A} (l : list A) : rev l = [] -> l = [].
Proof. intros H. rewrite <- (rev_involutive l), H. reflexivity. Qed.
Lemma chain_app sa start l1 l2 :
  chain sa start (l1 ++ l2) <-> chain sa start l1 /\ chain sa (chain_end sa start l1) l2.
Proof.
  revert start; induction l1 as [|s t IH]; intros start; cbn [app chain chain_end]; [tauto|].
  rewrite IH; tauto.
Qed.
Lemma chain_end_app sa start l1 l2 : chain_end sa start (l1 ++ l2) = chain_end sa (chain_end sa start l1) l2.
Proof. revert start; induction l1 as [|s t IH]; intros start; cbn [app chain_end]; [reflexivity|apply IH]. Qed.
Lemma chain_end_last sa start l s : chain_end sa start (l ++ [s]) = send sa s.
Proof. rewrite chain_end_app. reflexivity. Qed.
Lemma span_div sa s : 0 < sa -> (sa | span sa s).
Proof. intros; unfold span; apply ceil_mult_least; assumption. Qed.
Lemma chain_end_div sa start l : 0 < sa -> (sa | start) -> chain sa start l -> (sa | chain_end sa start l).
Proof.
  intros P; revert start; induction l as [|s t IH]; intros start D C; cbn [chain chain_end] in *; [assumption|].
  destruct C as [C1 C2]. apply IH; [|assumption]. unfold send. rewrite C1. apply Z.divide_add_r; [assumption|apply span_div; assumption].
Qed.
Lemma divide_mod a x : 0 < a -> (a | x) -> x mod a = 0.
Proof. intros; apply Z.mod_divide; [lia|assumption]. Qed.
Lemma align_up_id a x : power_of_two a -> a < 2^32 -> is_u32 x -> (a | x) -> align_up x a = x.
Proof.
  unfold is_u32; intros P L H D. pose proof (pow2_pos _ P).
  assert (E : ceil_mult x a = x) by (apply ceil_mult_id; [assumption|apply divide_mod; assumption]).
  rewrite align_up_small; [assumption|assumption|assumption|lia|lia].
Qed.
Lemma align_up64_small x a : power_of_two a -> a < 2^32 -> 0 <= x < 2^62 -> align_up64 x a = ceil_mult x a.
Proof.
  intros P L H. rewrite align_up64_pow2 by (try assumption; lia).
  pose proof (ceil_mult_least x a (pow2_pos _ P)) as (_ & C1 & C2 & _). apply u64_small. lia.
Qed.

Lemma pow2_le31 a : power_of_two a -> a < 2^32 -> a <= 2^31.
Proof. intros P L. destruct (pow2_lt32 _ P L) as [k [Hk ->]]. apply Z.pow_le_mono_r; lia. Qed.
Lemma ceil_mult_0 a : 0 < a -> ceil_mult 0 a = 0.
Proof. intros; apply ceil_mult_id; [assumption|apply Z.mod_0_l; lia]. Qed.
(** Fields of a prepared section. *)
Lemma prepare_section_ok fa sa s s' :
  power_of_two fa -> power_of_two sa -> fa <= sa < 2^32 -> wf_section s ->
  zlen (raw_view s) <= 2^31 -> s_vsize s <= 2^31 -> sa <= 2^31 ->
  prepare_section fa sa s = Ok s' ->
  let raw := ceil_mult (zlen (raw_view s)) fa in
  s' = set_s_vsize (if s_vsize s =? 0 then raw else Z.max raw (ceil_mult (s_vsize s) sa))
         (set_s_rawsize raw (unmap_virtual s)) /\
  (raw_view s <> [] \/ s_vsize s <> 0) /\
  wf_section s' /\ raw <= 2^31 /\ 0 < s_vsize s' <= 2^31.
Proof.
  intros Pf Ps L W Hd Hv Hs E raw. destruct (wf_ranges s W) as (H1 & H2 & H3 & H4).
  pose proof (zlen_nonneg (raw_view s)) as Hn.
  pose proof (pow2_pos _ Pf) as Pf0. pose proof (pow2_pos _ Ps) as Ps0.
  assert (P31 : power_of_two (2^31)) by (exists 31; split; [lia|reflexivity]).
  pose proof (ceil_mult_least (zlen (raw_view s)) fa Pf0) as (D1 & C1 & C2 & C3).
  pose proof (C3 (2^31) (pow2_divide _ _ Pf P31 ltac:(lia)) Hd) as C4. fold raw in D1, C1, C2, C3, C4.
  pose proof (ceil_mult_least (s_vsize s) sa Ps0) as (V1 & V2 & V3 & V4).
  pose proof (V4 (2^31) (pow2_divide _ _ Ps P31 ltac:(lia)) Hv) as V5.
  unfold is_u32 in *.
  unfold prepare_section in E. fold (raw_view s) in E.
  rewrite align_up64_small in E by (try assumption; lia). fold raw in E.
  rewrite u32_small in E by lia. cbn [set_s_rawsize s_rawsize s_vsize] in E.
  assert (U : s_vsize (unmap_virtual s) = s_vsize s) by (unfold unmap_virtual; destruct (s_old s); reflexivity).
  rewrite U in E.
  apply bind_ok in E as [u [E1 E2]]. apply throw_if_ok' in E1. inversion E2 as [E3]; clear E2 u.
  assert (A : align_up raw fa = raw) by (apply align_up_id; [assumption|lia|unfold is_u32; lia|assumption]).
  rewrite A. rewrite align_up_small by (try assumption; lia).
  assert (Wu : wf_section (unmap_virtual s)).
  { unfold unmap_virtual, wf_section in *. destruct (s_old s) as [k|] eqn:Ek; cbn [set_s_old set_s_data s_name s_vsize s_va s_rawsize s_rawptr s_relptr s_lineptr s_nrel s_nline s_chars s_data s_old]; [|rewrite Ek; tauto].
    destruct W as (W1 & W2 & W3 & W4 & W5 & W6 & W7 & W8 & W9 & W10 & W11 & W12 & W13 & W14).
    repeat (split; [assumption|]). split; [apply bytes_resize; assumption|]. split; [rewrite zlen_resize by lia; lia|exact I]. }
  assert (NE : raw_view s <> [] \/ s_vsize s <> 0).
  { destruct (raw_view s) as [|b t] eqn:Er; [|left; discriminate]. right.
    intros Z0. rewrite Z0 in E1. change (zlen (@nil Z)) with 0 in *.
    assert (R0 : raw = 0). { unfold raw. apply ceil_mult_id; [assumption|]. apply Z.mod_0_l; lia. }
    rewrite R0 in E1. discriminate. }
  split; [|split; [exact NE|]].
  - destruct (s_vsize s =? 0); reflexivity.
  - assert (V0 : 0 < (if s_vsize s =? 0 then raw else Z.max raw (ceil_mult (s_vsize s) sa)) <= 2^31).
    { destruct (Z.eqb_spec (s_vsize s) 0) as [Z0|Z0]; [|lia].
      destruct NE as [NE|NE]; [|congruence].
      assert (0 < zlen (raw_view s)) by (destruct (raw_view s); [congruence|rewrite zlen_cons; pose proof (zlen_nonneg l); lia]). lia. }
    split; [|split; [lia|]].
    + unfold wf_section in *.
      destruct (s_vsize s =? 0); cbn [set_s_vsize set_s_rawsize s_name s_vsize s_va s_rawsize s_rawptr s_relptr s_lineptr s_nrel s_nline s_chars s_data s_old];
      destruct Wu as (W1 & W2 & W3 & W4 & W5 & W6 & W7 & W8 & W9 & W10 & W11 & W12 & W13 & W14);
      unfold is_u32 in *; repeat (split; [assumption || lia|]); assumption.
    + destruct (s_vsize s =? 0); cbn [set_s_vsize s_vsize]; exact V0.
Qed.
Lemma prepare_section_total fa sa s :
  power_of_two fa -> fa < 2^32 -> zlen (raw_view s) <= 2^31 -> fa <= 2^31 ->
  (raw_view s <> [] \/ s_vsize s <> 0) -> exists s', prepare_section fa sa s = Ok s'.
Proof.
  intros P L Hd Hf H. unfold prepare_section. fold (raw_view s).
  pose proof (zlen_nonneg (raw_view s)). pose proof (pow2_pos _ P) as P0.
  assert (P31 : power_of_two (2^31)) by (exists 31; split; [lia|reflexivity]).
  pose proof (ceil_mult_least (zlen (raw_view s)) fa P0) as (D1 & C1 & C2 & C3).
  pose proof (C3 (2^31) (pow2_divide _ _ P P31 ltac:(lia)) Hd) as C4.
  rewrite align_up64_small by (try assumption; lia).
  rewrite u32_small by lia. cbn [set_s_rawsize s_rawsize s_vsize].
  assert (U : s_vsize (unmap_virtual s) = s_vsize s) by (unfold unmap_virtual; destruct (s_old s); reflexivity).
  rewrite U. case_throw C; [|eexists; reflexivity].
  exfalso. destruct H as [H|H]; [|lia].
  destruct (raw_view s) as [|b t]; [congruence|]. rewrite zlen_cons in *. pose proof (zlen_nonneg t). lia.
Qed.

Lemma keeps_refl s : keeps s s.
Proof. repeat split. Qed.
Lemma Forall2_keeps_refl l : Forall2 keeps l l.
Proof. induction l; constructor; [apply keeps_refl|assumption]. Qed.
Lemma upd_last {A} (l : list A) x y : upd (l ++ [x]) (length l) y = l ++ [y].
Proof. induction l as [|h t IH]; cbn [app length upd]; [reflexivity|rewrite IH; reflexivity]. Qed.
Lemma Forall2_app_last {A} (R : A -> A -> Prop) l x y : Forall2 R l l -> R x y -> Forall2 R (l ++ [x]) (l ++ [y]).
Proof. intros; apply Forall2_app; [assumption|constructor; [assumption|constructor]]. Qed.
Lemma keeps_autoupdate s n : keeps s (set_s_rawsize n (unmap_virtual s)).
Proof.
  unfold keeps, raw_view, unmap_virtual. destruct (s_old s) as [k|] eqn:E; cbn [set_s_rawsize set_s_old set_s_data s_name s_vsize s_va s_rawptr s_relptr s_lineptr s_nrel s_nline s_chars s_old s_data].
  - repeat split.
  - rewrite E. repeat split.
Qed.
Lemma wf_unmap s : wf_section s -> wf_section (unmap_virtual s).
Proof.
  intros W. unfold unmap_virtual, wf_section in *. destruct (s_old s) as [k|] eqn:Ek; cbn [set_s_old set_s_data s_name s_vsize s_va s_rawsize s_rawptr s_relptr s_lineptr s_nrel s_nline s_chars s_data s_old]; [|rewrite Ek; tauto].
  destruct W as (W1 & W2 & W3 & W4 & W5 & W6 & W7 & W8 & W9 & W10 & W11 & W12 & W13 & W14).
  repeat (split; [assumption|]). split; [apply bytes_resize; assumption|]. split; [rewrite zlen_resize by lia; lia|exact I].
Qed.
Lemma wf_set_rawsize n s : is_u32 n -> wf_section s -> wf_section (set_s_rawsize n s).
Proof.
  unfold wf_section; cbn [set_s_rawsize s_name s_vsize s_va s_rawsize s_rawptr s_relptr s_lineptr s_nrel s_nline s_chars s_data s_old]. tauto.
Qed.
Lemma wf_set_va n s : is_u32 n -> wf_section s -> wf_section (set_s_va n s).
Proof.
  unfold wf_section; cbn [set_s_va s_name s_vsize s_va s_rawsize s_rawptr s_relptr s_lineptr s_nrel s_nline s_chars s_data s_old]. tauto.
Qed.
Lemma wf_set_vsize n s : is_u32 n -> wf_section s -> wf_section (set_s_vsize n s).
Proof.
  unfold wf_section; cbn [set_s_vsize s_name s_vsize s_va s_rawsize s_rawptr s_relptr s_lineptr s_nrel s_nline s_chars s_data s_old]. tauto.
Qed.
Lemma span_rawsize sa n s : s_vsize s <> 0 -> span sa (set_s_rawsize n s) = span sa s.
Proof. intros H. unfold span. cbn [set_s_rawsize s_vsize s_rawsize]. destruct (Z.eqb_spec (s_vsize s) 0); [congruence|reflexivity]. Qed.
Lemma span_unmap sa s : span sa (unmap_virtual s) = span sa s.
Proof. unfold span, unmap_virtual. destruct (s_old s); reflexivity. Qed.
Lemma send_unmap sa s : send sa (unmap_virtual s) = send sa s.
Proof. unfold send; rewrite span_unmap; unfold unmap_virtual; destruct (s_old s); reflexivity. Qed.

(** Description of the image that add_section returns, for a table that is not empty. *)
Lemma add_section_spec p start s auto p' :
  image_ok p start -> p_sections p <> [] ->
  (forall t, nth_error (p_sections p) (length (p_sections p) - 1) = Some t -> s_vsize t <> 0 \/ (raw_view t = [] /\ s_rawsize t = 0)) ->
  wf_section s -> zlen (raw_view s) <= 2^31 -> s_vsize s <= 2^31 ->
  add_section p s auto = Ok p' ->
  exists olds snew,
    p_sections p' = olds ++ [snew] /\ Forall2 keeps (p_sections p) olds /\
    s_name snew = s_name s /\ s_chars snew = s_chars s /\ raw_view snew = raw_view s /\
    s_rawsize snew = ceil_mult (zlen (raw_view s)) (falign p) /\
    s_vsize s <= s_vsize snew /\ 0 < s_vsize snew /\
    s_va snew = chain_end (salign p) start (p_sections p) /\ 0 < span (salign p) snew /\
    zlen (raw_view s) <= span (salign p) snew /\
    chain (salign p) start (p_sections p') /\ Forall wf_section (p_sections p') /\
    h_nsections (p_nt p') = zlen (p_sections p) + 1 /\
    imagesize p' = u32 (imagesize p + span (salign p) snew) /\ rest_of p' = rest_of p.
Proof.
  intros (G & W & Dv & S0 & C & Ce) NE Hlast Ws Hd Hv E.
  pose proof G as (Ps & Pf & L). pose proof (pow2_pos _ Ps) as Ps0. pose proof (pow2_le31 _ Ps ltac:(lia)) as Hs.
  unfold add_section in E.
  apply bind_ok in E as [u [E0 E]]. apply throw_if_ok' in E0. unfold maximum_number_of_sections in E0.
  assert (Hn96 : zlen (p_sections p) < 96) by lia.
  apply bind_ok in E as [s1 [E1 E]].
  destruct (prepare_section_ok _ _ _ _ Pf Ps L Ws Hd Hv Hs E1) as (P1 & P2 & P3 & P4 & P5).
  destruct (rev (p_sections p)) as [|last t] eqn:R; [apply rev_nil in R; congruence|].
  apply rev_last in R. set (pre := rev t) in *.
  assert (Llen : (length (p_sections p) - 1)%nat = length pre) by (rewrite R, app_length; cbn [length]; lia).
  rewrite R in C, Ce, W, Hlast. rewrite app_length in Hlast. cbn [length] in Hlast.
  replace (length pre + 1 - 1)%nat with (length pre) in Hlast by lia.
  specialize (Hlast last). rewrite nth_error_app2, Nat.sub_diag in Hlast by lia. specialize (Hlast eq_refl).
  apply Forall_app in W as [Wp Wl]. pose proof (Forall_inv Wl) as Wlast.
  apply chain_app in C as [C1 C2]. cbn [chain] in C2. destruct C2 as [C2 _].
  rewrite chain_end_last in Ce.
  destruct (wf_ranges last Wlast) as (R1 & R2 & R3 & R4).
  pose proof (span_nonneg (salign p) last Ps0 R1 R3) as Sn.
  assert (Al : aligned_vsize (salign p) last = span (salign p) last).
  { apply aligned_vsize_span; try assumption; [lia|]. unfold send, is_u32 in *; lia. }
  rewrite Al in E.
  assert (Uva : u32 (s_va last + span (salign p) last) = send (salign p) last).
  { unfold send, is_u32 in *. apply u32_small; lia. }
  rewrite Uva in E.
  assert (Dend : (salign p | send (salign p) last)).
  { unfold send. apply Z.divide_add_r; [|apply span_div; assumption]. rewrite C2. apply chain_end_div; assumption. }
  assert (Hsend : is_u32 (send (salign p) last)) by (unfold is_u32, send in *; lia).
  rewrite align_up_id in E by (try assumption; lia).
  set (last' := if auto then _ else last) in E.
  assert (K : keeps last last').
  { unfold last'. destruct auto; [apply keeps_autoupdate|apply keeps_refl]. }
  assert (Sp' : span (salign p) last' = span (salign p) last).
  { unfold last'. destruct auto; [|reflexivity].
    destruct Hlast as [Hl|[Hl1 Hl2]].
    - rewrite span_rawsize; [apply span_unmap|]. unfold unmap_virtual; destruct (s_old last); exact Hl.
    - unfold span. fold (raw_view last). rewrite Hl1. change (zlen (@nil Z)) with 0.
      rewrite align_up64_small by (try assumption; lia).
      rewrite (ceil_mult_0 (falign p)) by (apply pow2_pos; assumption).
      unfold unmap_virtual. destruct (s_old last); cbn [set_s_rawsize set_s_old set_s_data s_vsize s_rawsize]; rewrite Hl2; reflexivity. }
  assert (Wl' : wf_section last').
  { unfold last'. destruct auto; [|assumption]. apply wf_set_rawsize; [apply u32_range|apply wf_unmap; assumption]. }
  assert (Va' : s_va last' = s_va last) by apply K.
  clearbody last'.
  rewrite R in E. rewrite app_length in E. cbn [length] in E.
  replace (length pre + 1 - 1)%nat with (length pre) in E by lia.
  rewrite upd_last in E. inversion E as [E2]; clear E.
  set (snew := set_s_va (send (salign p) last) s1) in *.
  assert (Wn : wf_section snew) by (unfold snew; apply wf_set_va; assumption).
  assert (Hvn : s_vsize snew = s_vsize s1) by reflexivity.
  assert (Spn : span (salign p) snew = ceil_mult (s_vsize s1) (salign p)).
  { unfold span. rewrite Hvn. destruct (Z.eqb_spec (s_vsize s1) 0); [lia|reflexivity]. }
  assert (Ps31 : power_of_two (2^31)) by (exists 31; split; [lia|reflexivity]).
  pose proof (ceil_mult_least (s_vsize s1) (salign p) Ps0) as (D1 & D2 & D3 & D4).
  pose proof (D4 (2^31) (pow2_divide _ _ Ps Ps31 ltac:(lia)) ltac:(lia)) as D5.
  assert (Aln : aligned_vsize (salign p) snew = span (salign p) snew).
  { destruct (wf_ranges snew Wn) as (N1 & N2 & N3 & N4). apply aligned_vsize_span; try assumption; lia. }
  exists (pre ++ [last']), snew.
  assert (Rs : s_rawsize s1 = ceil_mult (zlen (raw_view s)) (falign p)) by (rewrite P1; reflexivity).
  assert (Vs : s_vsize s1 = if s_vsize s =? 0 then ceil_mult (zlen (raw_view s)) (falign p) else Z.max (ceil_mult (zlen (raw_view s)) (falign p)) (ceil_mult (s_vsize s) (salign p))).
  { rewrite P1; reflexivity. }
  pose proof (ceil_mult_least (zlen (raw_view s)) (falign p) (pow2_pos _ Pf)) as (_ & F2 & _ & _).
  pose proof (ceil_mult_least (s_vsize s) (salign p) Ps0) as (_ & F3 & _ & _).
  pose proof (zlen_nonneg (raw_view s)) as Zn.
  cbn [set_size_of_image set_number_of_sections with_nt set_p_nt set_p_sections p_sections].
  split; [reflexivity|]. split; [rewrite R; apply Forall2_app_last; [apply Forall2_keeps_refl|assumption]|].
  assert (Nm : forall f : section -> Z, True) by (intros; exact I). clear Nm.
  split. { unfold snew; rewrite P1. unfold unmap_virtual; destruct (s_old s); reflexivity. }
  split. { unfold snew; rewrite P1. unfold unmap_virtual; destruct (s_old s); reflexivity. }
  split. { unfold snew; rewrite P1. unfold raw_view, unmap_virtual. destruct (s_old s) as [k|] eqn:Eo; cbn [set_s_va set_s_vsize set_s_rawsize set_s_old set_s_data s_old s_data]; [reflexivity|rewrite Eo; reflexivity]. }
  split. { exact Rs. }
  split. { rewrite Hvn, Vs. destruct (Z.eqb_spec (s_vsize s) 0); lia. }
  split. { rewrite Hvn. lia. }
  split. { rewrite R, chain_end_last. reflexivity. }
  split. { rewrite Spn; lia. }
  split. { rewrite Spn. destruct (Z.eqb_spec (s_vsize s) 0); lia. }
  split. { apply chain_app. split.
    - apply chain_app. split; [assumption|]. cbn [chain]. split; [rewrite Va'; assumption|exact I].
    - rewrite chain_end_last. cbn [chain]. split; [|exact I]. unfold send. rewrite Sp', Va'. reflexivity. }
  split. { apply Forall_app; split; [apply Forall_app; split; [assumption|constructor; [assumption|constructor]]|constructor; [assumption|constructor]]. }
  split. { unfold set_size_of_image, set_number_of_sections, with_nt; cbn [set_p_nt p_nt set_h_imagesize set_h_nsections h_nsections]. rewrite R in Hn96 |- *. rewrite !zlen_app in *. rewrite !zlen_cons in *. change (@zlen section []) with 0 in *. pose proof (zlen_nonneg pre). rewrite u16_small by lia. lia. }
  split.
  { rewrite <- Aln. reflexivity. }
  unfold rest_of, with_nt, set_p_nt, set_p_sections. destruct p as [? ? ? ? ? n]; destruct n; reflexivity.
Qed.

(** Adding to an image without sections. *)
Lemma add_first_section_spec p s auto p' :
  good_align p -> p_sections p = [] -> is_u32 (hdrsize p) -> wf_section s -> zlen (raw_view s) <= 2^31 -> s_vsize s <= 2^31 ->
  ceil_mult (if s_va s =? 0 then hdrsize p else s_va s) (salign p) < 2^32 ->
  add_section p s auto = Ok p' ->
  exists snew,
    p_sections p' = [snew] /\ s_name snew = s_name s /\ s_chars snew = s_chars s /\ raw_view snew = raw_view s /\
    s_rawsize snew = ceil_mult (zlen (raw_view s)) (falign p) /\ s_vsize s <= s_vsize snew /\
    s_va snew = ceil_mult (if s_va s =? 0 then hdrsize p else s_va s) (salign p) /\
    0 < span (salign p) snew /\ zlen (raw_view s) <= span (salign p) snew /\ wf_section snew /\
    h_nsections (p_nt p') = 1 /\ imagesize p' = u32 (imagesize p + span (salign p) snew) /\ rest_of p' = rest_of p.
Proof.
  intros G NE Hh Ws Hd Hv Hva E.
  pose proof G as (Ps & Pf & L). pose proof (pow2_pos _ Ps) as Ps0. pose proof (pow2_le31 _ Ps ltac:(lia)) as Hs.
  unfold add_section in E.
  apply bind_ok in E as [u [E0 E]].
  apply bind_ok in E as [s1 [E1 E]].
  destruct (prepare_section_ok _ _ _ _ Pf Ps L Ws Hd Hv Hs E1) as (P1 & P2 & P3 & P4 & P5).
  rewrite NE in E. cbn [rev app] in E.
  assert (V1 : s_va s1 = s_va s) by (rewrite P1; unfold unmap_virtual; destruct (s_old s); reflexivity).
  rewrite V1 in E. destruct (wf_ranges s Ws) as (R1 & R2 & R3 & R4).
  set (va := if s_va s =? 0 then _ else _) in E.
  assert (Va : va = ceil_mult (if s_va s =? 0 then hdrsize p else s_va s) (salign p)).
  { unfold va, is_u32 in *. destruct (s_va s =? 0); apply align_up_small; try assumption; lia. }
  assert (Va0 : 0 <= va < 2^32).
  { pose proof (ceil_mult_least (if s_va s =? 0 then hdrsize p else s_va s) (salign p) Ps0) as (_ & A & _).
    unfold is_u32 in *. destruct (s_va s =? 0); lia. }
  clearbody va. inversion E as [E2]; clear E.
  set (snew := set_s_va va s1) in *.
  assert (Wn : wf_section snew) by (unfold snew; apply wf_set_va; [exact Va0|assumption]).
  assert (Spn : span (salign p) snew = ceil_mult (s_vsize s1) (salign p)).
  { unfold span. change (s_vsize snew) with (s_vsize s1). destruct (Z.eqb_spec (s_vsize s1) 0); [lia|reflexivity]. }
  assert (Ps31 : power_of_two (2^31)) by (exists 31; split; [lia|reflexivity]).
  pose proof (ceil_mult_least (s_vsize s1) (salign p) Ps0) as (D1 & D2 & D3 & D4).
  pose proof (D4 (2^31) (pow2_divide _ _ Ps Ps31 ltac:(lia)) ltac:(lia)) as D5.
  assert (Aln : aligned_vsize (salign p) snew = span (salign p) snew).
  { destruct (wf_ranges snew Wn) as (N1 & N2 & N3 & N4). apply aligned_vsize_span; try assumption; lia. }
  exists snew.
  assert (Vs : s_vsize s1 = if s_vsize s =? 0 then ceil_mult (zlen (raw_view s)) (falign p) else Z.max (ceil_mult (zlen (raw_view s)) (falign p)) (ceil_mult (s_vsize s) (salign p))).
  { rewrite P1; reflexivity. }
  pose proof (ceil_mult_least (zlen (raw_view s)) (falign p) (pow2_pos _ Pf)) as (_ & F2 & _ & _).
  pose proof (ceil_mult_least (s_vsize s) (salign p) Ps0) as (_ & F3 & _ & _).
  pose proof (zlen_nonneg (raw_view s)) as Zn.
  split; [reflexivity|].
  split. { unfold snew; rewrite P1. unfold unmap_virtual; destruct (s_old s); reflexivity. }
  split. { unfold snew; rewrite P1. unfold unmap_virtual; destruct (s_old s); reflexivity. }
  split. { unfold snew; rewrite P1. unfold raw_view, unmap_virtual. destruct (s_old s) as [k|] eqn:Eo; cbn [set_s_va set_s_vsize set_s_rawsize set_s_old set_s_data s_old s_data]; [reflexivity|rewrite Eo; reflexivity]. }
  split. { unfold snew; rewrite P1; reflexivity. }
  split. { change (s_vsize snew) with (s_vsize s1). rewrite Vs. destruct (Z.eqb_spec (s_vsize s) 0); lia. }
  split. { exact Va. }
  split. { rewrite Spn; lia. }
  split. { rewrite Spn. destruct (Z.eqb_spec (s_vsize s) 0); lia. }
  split. { exact Wn. }
  split. { reflexivity. }
  split. { rewrite <- Aln. reflexivity. }
  unfold rest_of, with_nt, set_p_nt, set_p_sections. destruct p as [? ? ? ? ? n]; destruct n; reflexivity.
Qed.
(** add_section succeeds exactly when there is room and the section is not empty. *)
Lemma add_section_succeeds p s auto :
  good_align p -> wf_section s -> zlen (raw_view s) <= 2^31 ->
  (zlen (p_sections p) < 0x60 /\ (raw_view s <> [] \/ s_vsize s <> 0) -> exists p', add_section p s auto = Ok p') /\
  (0x60 <= zlen (p_sections p) -> add_section p s auto = Throw no_more_sections_can_be_added) /\
  (zlen (p_sections p) < 0x60 -> raw_view s = [] -> s_vsize s = 0 -> add_section p s auto = Throw zero_section_sizes).
Proof.
  intros (Ps & Pf & L) Ws Hd. unfold add_section, maximum_number_of_sections. split; [|split].
  - intros [H1 H2]. destruct (Z.leb_spec 96 (zlen (p_sections p))); [lia|]. cbn [throw_if bind].
    destruct (prepare_section_total (falign p) (salign p) s Pf ltac:(lia) Hd ltac:(pose proof (pow2_le31 _ Pf ltac:(lia)); lia) H2) as [s' E].
    rewrite E. cbn [bind]. destruct (rev (p_sections p)); eexists; reflexivity.
  - intros H. destruct (Z.leb_spec 96 (zlen (p_sections p))); [reflexivity|lia].
  - intros H1 H2 H3. destruct (Z.leb_spec 96 (zlen (p_sections p))); [lia|]. cbn [throw_if bind].
    unfold prepare_section. fold (raw_view s). rewrite H2. change (zlen (@nil Z)) with 0.
    rewrite align_up64_small by (try assumption; lia). rewrite ceil_mult_0 by (apply pow2_pos; assumption).
    unfold unmap_virtual. destruct (s_old s); cbn [set_s_rawsize set_s_old set_s_data s_rawsize s_vsize]; rewrite H3; reflexivity.
Qed.

(** ** C20 *)
Lemma put_get p i s : (i < length (p_sections p))%nat -> nth_error (p_sections (put_section p i s)) i = Some s.
Proof. intros; cbn [put_section set_p_sections p_sections]; apply nth_error_upd_same; assumption. Qed.
Lemma not_last_false p i s : nth_error (p_sections p) i = Some s -> (not_last p i = false <-> S i = length (p_sections p)).
Proof.
  intros H. assert (i < length (p_sections p))%nat by (apply nth_error_Some; congruence).
  unfold not_last. rewrite orb_false_iff, Nat.eqb_neq, Nat.ltb_ge. lia.
Qed.
Lemma nth_last {A} (l : list A) i x : nth_error l i = Some x -> S i = length l -> l = removelast l ++ [x].
Proof.
  intros H Hi. destruct l as [|a t]; [destruct i; discriminate|].
  rewrite (app_removelast_last a) at 1 by discriminate. f_equal. f_equal.
  rewrite (app_removelast_last a) in H by discriminate.
  rewrite (app_removelast_last a) in Hi by discriminate. rewrite app_length in Hi. cbn [length] in Hi.
  rewrite nth_error_app2 in H by lia. replace (i - length (removelast (a :: t)))%nat with O in H by lia.
  cbn [nth_error] in H. congruence.
Qed.
Lemma upd_at_last {A} (l : list A) i x y : l = removelast l ++ [x] -> S i = length l -> upd l i y = removelast l ++ [y].
Proof.
  intros H Hi. rewrite H at 1. rewrite H in Hi. rewrite app_length in Hi. cbn [length] in Hi.
  replace i with (length (removelast l)) by lia. apply upd_last.
Qed.
Lemma update_image_size_last p pre s :
  p_sections p = pre ++ [s] -> update_image_size p = set_size_of_image (u32 (s_va s + aligned_vsize (salign p) s)) p.
Proof. intros H. unfold update_image_size. rewrite H, rev_app_distr. reflexivity. Qed.
Lemma sec_empty_raw s : wf_section s -> (sec_empty s = true <-> raw_view s = []).
Proof.
  intros W. apply wf_old in W. unfold sec_empty, raw_view, unmap_virtual, old_ok in *. destruct (s_old s) as [n|]; cbn [set_s_old set_s_data s_data].
  - rewrite Z.eqb_eq. split; intros H.
    + subst n. unfold resize. destruct (Z.leb_spec 0 (zlen (s_data s))); [apply ztake_0; lia|lia].
    + assert (E : zlen (resize (s_data s) n) = 0) by (rewrite H; reflexivity). rewrite zlen_resize in E by lia. exact E.
  - rewrite Z.eqb_eq. split; intros H; [destruct (s_data s); [reflexivity|rewrite zlen_cons in H; pose proof (zlen_nonneg l); lia]|rewrite H; reflexivity].
Qed.
Lemma set_vsize_spec p i s v :
  nth_error (p_sections p) i = Some s -> wf_section s -> is_u32 v ->
  (S i <> length (p_sections p) -> set_section_virtual_size p i v = Throw error_changing_section_virtual_size) /\
  (S i = length (p_sections p) -> v = 0 -> raw_view s = [] -> set_section_virtual_size p i v = Throw error_changing_section_virtual_size) /\
  (S i = length (p_sections p) -> (v <> 0 \/ raw_view s <> []) ->
   exists p' t, set_section_virtual_size p i v = Ok p' /\
     p_sections p' = removelast (p_sections p) ++ [t] /\
     t = set_s_vsize (if v =? 0 then s_rawsize s else v) s /\
     imagesize p' = u32 (s_va t + aligned_vsize (salign p) t) /\
     h_nsections (p_nt p') = h_nsections (p_nt p) /\ rest_of p' = rest_of p).
Proof.
  intros Hs W Hv. pose proof (not_last_false p i s Hs) as NL. unfold set_section_virtual_size. split; [|split].
  - intros H. destruct (not_last p i); [reflexivity|exfalso; apply H, NL; reflexivity].
  - intros H -> Hr. rewrite (proj2 NL H). cbn [throw_if bind]. rewrite (get_section_ok _ _ _ Hs). cbn [bind].
    rewrite (proj2 (sec_empty_raw s W) Hr). reflexivity.
  - intros H Hne. rewrite (proj2 NL H). cbn [throw_if bind]. rewrite (get_section_ok _ _ _ Hs). cbn [bind].
    assert (Hl : p_sections p = removelast (p_sections p) ++ [s]) by (eapply nth_last; eassumption).
    assert (G : forall t, exists p', update_image_size (put_section p i t) = p' /\ p_sections p' = removelast (p_sections p) ++ [t] /\
       imagesize p' = u32 (s_va t + aligned_vsize (salign p) t) /\
       h_nsections (p_nt p') = h_nsections (p_nt p) /\ rest_of p' = rest_of p).
    { intros t. eexists; split; [reflexivity|].
      assert (E : p_sections (put_section p i t) = removelast (p_sections p) ++ [t]).
      { cbn [put_section set_p_sections p_sections]. apply (upd_at_last _ _ s); assumption. }
      rewrite (update_image_size_last _ _ _ E).
      split; [exact E|]. split; [reflexivity|]. split; [reflexivity|].
      unfold rest_of, with_nt, put_section, set_size_of_image, set_p_nt, set_p_sections. destruct p as [? ? ? ? ? n]; destruct n; reflexivity. }
    destruct (Z.eqb_spec v 0) as [->|Hv0].
    + destruct (sec_empty s) eqn:Em; [apply (sec_empty_raw s W) in Em; destruct Hne; congruence|]. cbn [throw_if bind].
      destruct (G (set_s_vsize (s_rawsize s) s)) as [p' [G1 G2]]. exists p'. eexists. split; [rewrite G1; reflexivity|].
      split; [apply G2|]. split; [reflexivity|apply G2].
    + destruct (G (set_s_vsize v s)) as [p' [G1 G2]]. exists p'. eexists. split; [rewrite G1; reflexivity|].
      split; [apply G2|]. split; [reflexivity|apply G2].
Qed.
Lemma raw_view_set_vsize v s : raw_view (set_s_vsize v s) = raw_view s.
Proof. unfold raw_view, unmap_virtual. cbn [set_s_vsize s_old]. destruct (s_old s); reflexivity. Qed.

(** ** C23 *)
Lemma set_file_alignment_spec p a :
  is_u32 a -> is_u32 (salign p) ->
  (power_of_two a /\ 512 <= a <= salign p -> set_file_alignment p a = Ok (with_nt (set_h_falign a) p)) /\
  (~ (power_of_two a /\ 512 <= a <= salign p) -> set_file_alignment p a = Throw incorrect_file_alignment).
Proof.
  unfold is_u32; intros Ha Hs. unfold set_file_alignment, minimum_file_alignment. split.
  - intros [P H]. destruct (Z.ltb_spec a 512); [lia|]. cbn [throw_if bind].
    rewrite (proj2 (is_power_of_2_spec a ltac:(lia)) P). cbn [negb throw_if bind].
    destruct (Z.ltb_spec (salign p) a); [lia|]. reflexivity.
  - intros H. destruct (Z.ltb_spec a 512); [reflexivity|]. cbn [throw_if bind].
    destruct (is_power_of_2 a) eqn:E; cbn [negb throw_if bind]; [|reflexivity].
    apply is_power_of_2_spec in E; [|lia].
    destruct (Z.ltb_spec (salign p) a); [reflexivity|]. exfalso; apply H; split; [assumption|lia].
Qed.

(** ** C21 *)
Lemma s32_small x : - 2^31 <= x < 2^31 -> s32 x = x.
Proof. intros H. unfold s32, u32. case_if C; lia. Qed.
Lemma upd_upd {A} (l : list A) i x y : upd (upd l i x) i y = upd l i y.
Proof. revert i; induction l as [|h t IH]; intros [|i]; cbn [upd]; try reflexivity. rewrite IH; reflexivity. Qed.
Lemma put_put p i s t : put_section (put_section p i s) i t = put_section p i t.
Proof. unfold put_section. cbn [set_p_sections p_sections]. rewrite upd_upd. reflexivity. Qed.
Lemma rest_of_put p i s : rest_of (put_section p i s) = rest_of p.
Proof. unfold rest_of, with_nt, put_section, set_p_nt, set_p_sections. destruct p as [? ? ? ? ? n]; destruct n; reflexivity. Qed.
Lemma resize_padded d n : zlen d <= n -> padded d (resize d n).
Proof.
  intros H. exists (n - zlen d). unfold resize. destruct (Z.leb_spec n (zlen d)).
  - assert (n = zlen d) by lia. subst. rewrite ztake_all, Z.sub_diag by lia. cbn. rewrite app_nil_r; reflexivity.
  - reflexivity.
Qed.
Lemma padded_refl d : padded d d.
Proof. exists 0. cbn. rewrite app_nil_r; reflexivity. Qed.
Lemma raw_view_with_raw f s : raw_view (with_raw f s) = f (raw_view s).
Proof.
  unfold with_raw, raw_view at 1. unfold unmap_virtual at 1. cbn [set_s_data s_old]. rewrite unmap_old. reflexivity.
Qed.
Lemma wf_with_raw f s : wf_section s -> bytes (f (raw_view s)) -> zlen (f (raw_view s)) < 2^63 -> wf_section (with_raw f s).
Proof.
  intros W B L. unfold with_raw. fold (raw_view s). apply wf_unmap in W. pose proof (unmap_old s) as O.
  unfold wf_section in *; cbn [set_s_data s_name s_vsize s_va s_rawsize s_rawptr s_relptr s_lineptr s_nrel s_nline s_chars s_data s_old].
  rewrite O in *. tauto.
Qed.
Lemma with_raw_fields f s :
  s_name (with_raw f s) = s_name s /\ s_vsize (with_raw f s) = s_vsize s /\ s_va (with_raw f s) = s_va s /\
  s_rawsize (with_raw f s) = s_rawsize s /\ s_rawptr (with_raw f s) = s_rawptr s /\ s_relptr (with_raw f s) = s_relptr s /\
  s_lineptr (with_raw f s) = s_lineptr s /\ s_nrel (with_raw f s) = s_nrel s /\ s_nline (with_raw f s) = s_nline s /\
  s_chars (with_raw f s) = s_chars s.
Proof. unfold with_raw, unmap_virtual. destruct (s_old s); repeat split. Qed.
Lemma unmap_fields s :
  s_name (unmap_virtual s) = s_name s /\ s_vsize (unmap_virtual s) = s_vsize s /\ s_va (unmap_virtual s) = s_va s /\
  s_rawsize (unmap_virtual s) = s_rawsize s /\ s_rawptr (unmap_virtual s) = s_rawptr s /\ s_relptr (unmap_virtual s) = s_relptr s /\
  s_lineptr (unmap_virtual s) = s_lineptr s /\ s_nrel (unmap_virtual s) = s_nrel s /\ s_nline (unmap_virtual s) = s_nline s /\
  s_chars (unmap_virtual s) = s_chars s.
Proof. unfold unmap_virtual. destruct (s_old s); repeat split. Qed.
Lemma length_in_section_spec p s rva ty n :
  - 2^31 <= data_length p s ty + s_va s - rva < 2^31 ->
  length_in_section p s rva ty = Ok n ->
  in_section (salign p) rva s = true /\ n = Z.max 0 (data_length p s ty + s_va s - rva).
Proof.
  intros B E. unfold length_in_section in E. destruct (in_section (salign p) rva s); [|discriminate].
  split; [reflexivity|]. rewrite s32_small in E by assumption.
  inversion E. destruct (Z.ltb_spec (data_length p s ty + s_va s - rva) 0); lia.
Qed.
(** Result of recalculate_section_sizes(s, false) on an attached section. *)
Lemma recalculate_spec p i s p' :
  good_align p -> nth_error (p_sections p) i = Some s -> wf_section s ->
  zlen (raw_view s) <= 2^31 -> s_vsize s <= 2^31 ->
  recalculate_section_sizes p i false = Ok p' ->
  exists t, p' = put_section p i t /\ wf_section t /\
    s_name t = s_name s /\ s_va t = s_va s /\ s_chars t = s_chars s /\ s_rawptr t = s_rawptr s /\ raw_view t = raw_view s /\
    s_rawsize t = ceil_mult (zlen (raw_view s)) (falign p) /\
    s_vsize t = (if s_vsize s =? 0 then s_rawsize t else Z.max (s_rawsize t) (ceil_mult (s_vsize s) (salign p))).
Proof.
  intros (Ps & Pf & L) Hs W Hd Hv E. pose proof (pow2_pos _ Ps) as Ps0. pose proof (pow2_le31 _ Ps ltac:(lia)) as H31.
  unfold recalculate_section_sizes in E. rewrite (get_section_ok _ _ _ Hs) in E. cbn [bind] in E.
  apply bind_ok in E as [t [E1 E]].
  destruct (prepare_section_ok _ _ _ _ Pf Ps L W Hd Hv H31 E1) as (P1 & P2 & P3 & P4 & P5).
  cbn [andb] in E.
  assert (Rs : s_rawsize t = ceil_mult (zlen (raw_view s)) (falign p)) by (rewrite P1; reflexivity).
  assert (Vs : s_vsize t = (if s_vsize s =? 0 then s_rawsize t else Z.max (s_rawsize t) (ceil_mult (s_vsize s) (salign p)))).
  { rewrite P1; reflexivity. }
  assert (Ps31 : power_of_two (2^31)) by (exists 31; split; [lia|reflexivity]).
  pose proof (ceil_mult_least (s_vsize t) (salign p) Ps0) as (D1 & D2 & D3 & D4).
  pose proof (D4 (2^31) (pow2_divide _ _ Ps Ps31 ltac:(lia)) ltac:(lia)) as D5.
  pose proof (ceil_mult_least (zlen (raw_view s)) (falign p) (pow2_pos _ Pf)) as (F1 & F2 & _ & _).
  pose proof (zlen_nonneg (raw_view s)) as Zn.
  assert (A1 : align_up (s_rawsize t) (falign p) = s_rawsize t).
  { apply align_up_id; [assumption|lia|unfold is_u32; lia|rewrite Rs; assumption]. }
  assert (A2 : align_up (s_vsize t) (salign p) = ceil_mult (s_vsize t) (salign p)) by (apply align_up_small; try assumption; lia).
  rewrite A1, A2 in E.
  destruct (Z.ltb_spec (ceil_mult (s_vsize t) (salign p)) (s_rawsize t)) as [C|C].
  { exfalso. destruct (s_vsize s =? 0); lia. }
  inversion E; subst p'. exists t. split; [reflexivity|]. split; [assumption|].
  destruct (unmap_fields s) as (U1 & U2 & U3 & U4 & U5 & U6 & U7 & U8 & U9 & U10).
  split; [rewrite P1; exact U1|]. split; [rewrite P1; exact U3|]. split; [rewrite P1; exact U10|]. split; [rewrite P1; exact U5|].
  split; [|split; assumption].
  rewrite P1. unfold raw_view at 1. unfold unmap_virtual at 1. cbn [set_s_vsize set_s_rawsize s_old]. rewrite unmap_old. reflexivity.
Qed.
Lemma ceil_mult_mono x y a : 0 < a -> x <= y -> ceil_mult x a <= ceil_mult y a.
Proof. intros Ha H. apply (ceil_mult_least x a Ha); [apply (ceil_mult_least y a Ha)|]. pose proof (ceil_mult_least y a Ha) as (_ & ? & _). lia. Qed.
Lemma upd_nth_same {A} (l : list A) i x : nth_error l i = Some x -> upd l i x = l.
Proof. revert i; induction l as [|h t IH]; intros [|i] H; cbn [upd nth_error] in *; try congruence. rewrite IH; [reflexivity|assumption]. Qed.
Lemma nth_lt {A} (l : list A) i x : nth_error l i = Some x -> (i < length l)%nat.
Proof. intros H. apply nth_error_Some. congruence. Qed.
Lemma expand_raw_spec p i s rva n p' b :
  good_align p -> nth_error (p_sections p) i = Some s -> wf_section s -> is_u32 rva -> 0 < n ->
  send (salign p) s < 2^32 ->
  zlen (raw_view s) < 2^31 -> s_vsize s <= 2^31 -> rva - s_va s + n <= 2^31 -> s_va s <= rva ->
  (s_vsize s = 0 -> s_rawsize s <= ceil_mult (zlen (raw_view s)) (falign p)) ->
  expand_section p i rva n ExpandRaw = Ok (p', b) ->
  S i = length (p_sections p) /\ occupies (salign p) s rva /\
  exists t, p' = put_section p i t /\
    (b = false -> t = s) /\ (b = true <-> zlen (raw_view s) < rva - s_va s + n) /\
    rva - s_va s + n <= zlen (raw_view t) /\ padded (raw_view s) (raw_view t) /\ wf_section t /\
    s_name t = s_name s /\ s_va t = s_va s /\ s_chars t = s_chars s /\ s_rawptr t = s_rawptr s /\
    span (salign p) s <= span (salign p) t /\
    (b = true -> s_rawsize t = ceil_mult (zlen (raw_view t)) (falign p)).
Proof.
  intros G Hs W Hr Hn Hse Hd Hv Hb Hva Hraw E. pose proof G as (Ps & Pf & L).
  pose proof (pow2_pos _ Ps) as Ps0. pose proof (zlen_nonneg (raw_view s)) as Zn.
  destruct (wf_ranges s W) as (R1 & R2 & R3 & _). pose proof R1 as R1'; pose proof R2 as R2'; unfold is_u32 in R1', R2', Hr.
  pose proof (span_nonneg (salign p) s Ps0 R1 R3) as Hsp. unfold send in Hse.
  unfold expand_section in E. thr E Hc. pose proof (proj1 (not_last_false p i s Hs) Hc) as HL.
  rewrite (get_section_ok _ _ _ Hs) in E. cbn [bind] in E.
  apply bind_ok in E as [len [E1 E]].
  assert (DL : data_length p s RawData = zlen (raw_view s)) by reflexivity.
  pose proof (length_in_section_spec p s rva RawData len) as LS. rewrite DL in LS.
  specialize (LS ltac:(lia) E1) as [Hin Hlen].
  apply in_section_occupies in Hin; try assumption; try lia.
  split; [exact HL|]. split; [exact Hin|].
  destruct (Z.ltb_spec len n) as [C|C].
  - apply bind_ok in E as [p1 [E2 E]]. inversion E; subst p' b; clear E.
    revert E2. set (m := rva - s_va s + n) in *. change (u32 m) with (m mod 2^32). rewrite Z.mod_small by lia. intros E2.
    set (s1 := with_raw (fun d => resize d m) s) in *.
    assert (RV : raw_view s1 = resize (raw_view s) m) by (apply (raw_view_with_raw (fun d => resize d m))).
    assert (W1 : wf_section s1).
    { apply (wf_with_raw (fun d => resize d m)); [assumption| |].
      - apply bytes_resize, bytes_raw_view; assumption.
      - cbv beta. rewrite zlen_resize by lia. lia. }
    destruct (with_raw_fields (fun d => resize d m) s) as (F1 & F2 & F3 & F4 & F5 & F6 & F7 & F8 & F9 & F10). fold s1 in F1, F2, F3, F4, F5, F6, F7, F8, F9, F10.
    assert (G1 : good_align (put_section p i s1)) by exact G.
    destruct (recalculate_spec (put_section p i s1) i s1 p1 G1 (put_get _ _ _ (nth_lt _ _ _ Hs)) W1) as (t & T1 & T2 & T3 & T4 & T5 & T6 & T7 & T8 & T9); try assumption.
    { rewrite RV, zlen_resize by lia. lia. }
    { rewrite F2. assumption. }
    change (falign (put_section p i s1)) with (falign p) in *. change (salign (put_section p i s1)) with (salign p) in *.
    rewrite put_put in T1. exists t. split; [assumption|]. split; [discriminate|].
    split; [split; [intros _; subst m; lia|reflexivity]|].
    rewrite T7, RV. rewrite zlen_resize by lia. split; [lia|]. split; [apply resize_padded; lia|]. split; [assumption|].
    split; [congruence|]. split; [congruence|]. split; [congruence|]. split; [congruence|].
    rewrite RV, zlen_resize in T8 by lia. split; [|intros _; assumption].
    unfold span. rewrite F2 in T9.
    pose proof (ceil_mult_least m (falign p) (pow2_pos _ Pf)) as (M1 & M2 & _).
    pose proof (ceil_mult_least (s_vsize s) (salign p) Ps0) as (M3 & M4 & _).
    revert T9. destruct (Z.eqb_spec (s_vsize s) 0) as [Z0|Z0]; intros T9.
    + specialize (Hraw Z0).
      assert (Q : ceil_mult (zlen (raw_view s)) (falign p) <= ceil_mult m (falign p)) by (apply ceil_mult_mono; [apply pow2_pos; assumption|lia]).
      rewrite T9. destruct (s_rawsize t =? 0); apply ceil_mult_mono; rewrite ?T8; lia.
    + destruct (Z.eqb_spec (s_vsize t) 0) as [Z1|Z1]; [lia|]. apply ceil_mult_mono; lia.
  - inversion E; subst p' b; clear E. exists s. split; [unfold put_section; rewrite (upd_nth_same _ _ _ Hs); destruct p; reflexivity|].
    split; [reflexivity|]. split; [split; [discriminate|intros; lia]|]. split; [lia|]. split; [apply padded_refl|].
    split; [assumption|]. split; [reflexivity|]. split; [reflexivity|]. split; [reflexivity|]. split; [reflexivity|].
    split; [lia|discriminate].
Qed.
Lemma expand_virtual_spec p i s rva n p' b :
  good_align p -> nth_error (p_sections p) i = Some s -> wf_section s -> is_u32 rva -> 0 < n ->
  send (salign p) s < 2^32 -> span (salign p) s < 2^31 -> rva - s_va s + n <= 2^31 -> s_va s <= rva ->
  expand_section p i rva n ExpandVirtual = Ok (p', b) ->
  S i = length (p_sections p) /\ occupies (salign p) s rva /\
  (b = true <-> span (salign p) s < rva - s_va s + n) /\
  (b = false -> p' = p) /\
  (b = true -> exists t, p_sections p' = removelast (p_sections p) ++ [t] /\
     t = set_s_vsize (rva - s_va s + n) s /\
     imagesize p' = u32 (s_va t + aligned_vsize (salign p) t) /\
     h_nsections (p_nt p') = h_nsections (p_nt p) /\ rest_of p' = rest_of p).
Proof.
  intros G Hs W Hr Hn Hse Hsp31 Hb Hva E. pose proof G as (Ps & Pf & L).
  pose proof (pow2_pos _ Ps) as Ps0.
  destruct (wf_ranges s W) as (R1 & R2 & R3 & _). pose proof R1 as R1'; pose proof R2 as R2'; unfold is_u32 in R1', R2', Hr.
  pose proof (span_nonneg (salign p) s Ps0 R1 R3) as Hsp. unfold send in Hse.
  unfold expand_section in E. thr E Hc. pose proof (proj1 (not_last_false p i s Hs) Hc) as HL.
  rewrite (get_section_ok _ _ _ Hs) in E. cbn [bind] in E.
  bnd E len E1.
  assert (DL : data_length p s VirtData = span (salign p) s).
  { cbn [data_length]. apply aligned_vsize_span; try assumption; lia. }
  pose proof (length_in_section_spec p s rva VirtData len) as LS. rewrite DL in LS.
  specialize (LS ltac:(lia) E1) as [Hin Hlen].
  apply in_section_occupies in Hin; try assumption; try lia.
  split; [exact HL|]. split; [exact Hin|]. unfold occupies, send in Hin.
  destruct (Z.ltb_spec len n) as [C|C].
  - bnd E p1 E2. inversion E; subst p' b; clear E.
    revert E2. set (m := rva - s_va s + n) in *. change (u32 m) with (m mod 2^32). rewrite Z.mod_small by lia. intros E2.
    split; [split; [intros _; lia|reflexivity]|]. split; [discriminate|]. intros _.
    destruct (set_vsize_spec p i s m Hs W ltac:(unfold is_u32; lia)) as (_ & _ & SV).
    destruct (SV HL ltac:(left; lia)) as (p2 & t & V1 & V2 & V3 & V4 & V5 & V6).
    assert (p2 = p1) by congruence. subst p2. exists t. split; [assumption|]. split; [|tauto].
    rewrite V3. destruct (Z.eqb_spec m 0); [lia|reflexivity].
  - inversion E; subst p' b; clear E. split; [split; [discriminate|intros; lia]|]. split; [reflexivity|discriminate].
Qed.
Lemma expand_throws_if_not_last p i rva n k : S i <> length (p_sections p) -> (i < length (p_sections p))%nat ->
  expand_section p i rva n k = Throw error_expanding_section.
Proof.
  intros H Hi. destruct (nth_error (p_sections p) i) as [s|] eqn:Hs; [|apply nth_error_None in Hs; lia].
  unfold expand_section. pose proof (not_last_false p i s Hs) as N. destruct (not_last p i); [reflexivity|]. exfalso. apply H, N. reflexivity.
Qed.

(** ** C19 *)
Definition last_ok (p : pe) : Prop :=
  exists pre s, p_sections p = pre ++ [s] /\ s_vsize s <> 0.
Lemma rest_of_align p q : rest_of p = rest_of q -> salign p = salign q /\ falign p = falign q /\ hdrsize p = hdrsize q.
Proof.
  intros E. assert (E2 : p_nt (rest_of p) = p_nt (rest_of q)) by (rewrite E; reflexivity).
  unfold rest_of, with_nt in E2. cbn [set_p_nt set_p_sections p_nt] in E2.
  pose proof (f_equal h_salign E2) as A. pose proof (f_equal h_falign E2) as B. pose proof (f_equal h_hdrsize E2) as C.
  exact (conj A (conj B C)).
Qed.
Lemma good_align_rest p q : rest_of p = rest_of q -> good_align p -> good_align q.
Proof. intros E. destruct (rest_of_align _ _ E) as (A & B & _). unfold good_align. rewrite A, B. tauto. Qed.
Lemma vsize_step p q start i s v :
  image_ok p start -> nth_error (p_sections p) i = Some s -> S i = length (p_sections p) -> 0 < v < 2^32 ->
  p_sections q = removelast (p_sections p) ++ [set_s_vsize v s] ->
  imagesize q = u32 (s_va (set_s_vsize v s) + aligned_vsize (salign p) (set_s_vsize v s)) ->
  rest_of q = rest_of p -> chain_end (salign q) start (p_sections q) < 2^32 ->
  image_ok q start /\ last_ok q /\ imagesize q = chain_end (salign q) start (p_sections q).
Proof.
  intros (G & W & Dv & S0 & C & Ce) Hs HL Hv Eq Ei Er Hc. set (t := set_s_vsize v s) in *.
  pose proof (nth_last _ _ _ Hs HL) as Lst. destruct (rest_of_align _ _ Er) as (A1 & A2 & _).
  pose proof (nth_Forall _ _ _ _ W Hs) as Ws.
  assert (Wt : wf_section t) by (apply wf_set_vsize; [unfold is_u32; lia|assumption]).
  pose proof G as (Ps & Pf & L). pose proof (pow2_pos _ Ps) as Ps0.
  rewrite Lst in W, C. apply Forall_app in W as [W1 W2]. apply chain_app in C as [C1 [C2 _]].
  assert (C2' : s_va t = chain_end (salign p) start (removelast (p_sections p))) by exact C2.
  destruct (wf_ranges t Wt) as (N1 & N2 & N3 & N4).
  pose proof (span_nonneg (salign p) t Ps0 N1 N3) as Sn.
  split; [|split].
  - unfold image_ok. rewrite Eq in *. rewrite A1 in *. split; [apply (good_align_rest p); [congruence|assumption]|].
    split; [apply Forall_app; split; [assumption|constructor; [assumption|constructor]]|].
    split; [assumption|]. split; [assumption|]. split; [|assumption].
    apply chain_app. split; [assumption|]. cbn [chain]. split; [assumption|exact I].
  - exists (removelast (p_sections p)), t. split; [assumption|]. cbn [t set_s_vsize s_vsize]. lia.
  - rewrite Eq, Ei. rewrite Eq, A1, chain_end_last in Hc. rewrite A1, chain_end_last. unfold send in *. unfold is_u32 in *.
    rewrite aligned_vsize_span by (try assumption; lia). apply u32_small. lia.
Qed.
Lemma edit_step p q start op :
  image_ok p start -> last_ok p -> imagesize p = chain_end (salign p) start (p_sections p) ->
  edit_args op -> run_edit op p = Ok q -> chain_end (salign q) start (p_sections q) < 2^32 ->
  image_ok q start /\ last_ok q /\ imagesize q = chain_end (salign q) start (p_sections q).
Proof.
  intros I (pre & l & Hl & Hv) Hi Ha E Hc. pose proof I as (G & W & Dv & S0 & C & Ce).
  pose proof G as (Ps & Pf & L). pose proof (pow2_pos _ Ps) as Ps0.
  assert (Len : length (p_sections p) = S (length pre)) by (rewrite Hl, app_length; cbn [length]; lia).
  assert (Nth : nth_error (p_sections p) (length pre) = Some l) by (rewrite Hl, nth_error_app2, Nat.sub_diag by lia; reflexivity).
  assert (Wl : wf_section l) by exact (nth_Forall _ _ _ _ W Nth).
  destruct op as [s a|i v|i rva n|]; cbn [run_edit edit_args] in *.
  - destruct Ha as (Ws & Hd & Hvs).
    destruct (add_section_spec p start s a q I) as (olds & snew & A1 & A2 & A3 & A4 & A5 & A6 & A7 & A8 & A9 & A10 & A11 & A12 & A13 & A14 & A15 & A16); try assumption.
    { rewrite Hl. destruct pre; discriminate. }
    { intros t Ht. left. rewrite Len in Ht. replace (S (length pre) - 1)%nat with (length pre) in Ht by lia. congruence. }
    destruct (rest_of_align _ _ A16) as (B1 & B2 & _).
    split; [|split].
    + unfold image_ok. rewrite B1. rewrite B1 in Hc. split; [apply (good_align_rest p); [congruence|assumption]|]. tauto.
    + exists olds, snew. split; [assumption|lia].
    + rewrite A15, Hi. rewrite A1, B1, chain_end_last in Hc. rewrite A1, B1, chain_end_last. unfold send in *. rewrite A9 in *.
      apply u32_small. split; [|lia].
      destruct (wf_ranges snew) as (N1 & N2 & _). { rewrite A1 in A13. apply Forall_app in A13 as [_ A13]. exact (Forall_inv A13). }
      unfold is_u32 in *. lia.
  - destruct (nth_error (p_sections p) i) as [s|] eqn:Hs.
    2:{ unfold set_section_virtual_size in E. thr E T. bnd E s E1. apply get_section_inv in E1. congruence. }
    pose proof (nth_Forall _ _ _ _ W Hs) as Ws.
    destruct (set_vsize_spec p i s v Hs Ws ltac:(unfold is_u32; lia)) as (V1 & V2 & V3).
    destruct (Nat.eq_dec (S i) (length (p_sections p))) as [HL|HL]; [|rewrite (V1 HL) in E; discriminate].
    destruct (V3 HL ltac:(left; lia)) as (q' & t & Q1 & Q2 & Q3 & Q4 & Q5 & Q6).
    assert (q' = q) by congruence. subst q'. destruct (Z.eqb_spec v 0) as [|_]; [lia|]. subst t.
    apply (vsize_step p q start i s v); try assumption.
  - bnd E r E1. destruct r as [q' b]. inversion E; subst q'; clear E. cbn [fst] in *.
    unfold expand_section in E1. thr E1 NL. bnd E1 s E2. apply get_section_inv in E2.
    pose proof (proj1 (not_last_false p i s E2) NL) as HL. pose proof (nth_Forall _ _ _ _ W E2) as Ws.
    bnd E1 len E3. unfold length_in_section in E3. destruct (in_section (salign p) rva s) eqn:Ein; [|discriminate].
    assert (Ssp : send (salign p) s < 2^32).
    { pose proof (nth_last _ _ _ E2 HL) as Lst. rewrite Lst in Ce. rewrite chain_end_last in Ce. exact Ce. }
    apply in_section_occupies in Ein; try assumption; try lia. unfold occupies in Ein.
    destruct (wf_ranges s Ws) as (R1 & R2 & R3 & R4). unfold is_u32 in R2.
    destruct (Z.ltb_spec len n) as [Cn|Cn].
    + bnd E1 p1 E4. inversion E1; subst p1 b; clear E1.
      rewrite u32_small in E4 by lia.
      destruct (set_vsize_spec p i s (rva - s_va s + n) E2 Ws ltac:(unfold is_u32; lia)) as (V1 & V2 & V3).
      destruct (V3 HL ltac:(left; lia)) as (q' & t & Q1 & Q2 & Q3 & Q4 & Q5 & Q6).
      assert (q' = q) by congruence. subst q'. destruct (Z.eqb_spec (rva - s_va s + n) 0) as [|_]; [lia|]. subst t.
      apply (vsize_step p q start i s (rva - s_va s + n)); try assumption. lia.
    + inversion E1; subst q b; clear E1. split; [assumption|]. split; [|assumption]. exists pre, l; tauto.
  - inversion E; subst q; clear E.
    rewrite (update_image_size_last _ pre l Hl). split; [exact I|]. split; [exists pre, l; tauto|].
    rewrite Hl in Ce.
    change (u32 (s_va l + aligned_vsize (salign p) l) = chain_end (salign p) start (p_sections p)).
    rewrite Hl. rewrite chain_end_last in *. unfold send in *.
    destruct (wf_ranges l Wl) as (R1 & R2 & R3 & R4). pose proof (span_nonneg (salign p) l Ps0 R1 R3) as Sn. unfold is_u32 in *.
    rewrite aligned_vsize_span by (try assumption; lia). apply u32_small. lia.
Qed.
Lemma edits_image_size start p q :
  edits start p q -> image_ok p start -> last_ok p -> imagesize p = chain_end (salign p) start (p_sections p) ->
  image_ok q start /\ last_ok q /\ imagesize q = chain_end (salign q) start (p_sections q).
Proof.
  induction 1 as [p|p q r op Ha E Hc H IH]; intros I Lo Hi; [tauto|].
  destruct (edit_step p q start op I Lo Hi Ha E Hc) as (J1 & J2 & J3). apply IH; assumption.
Qed.

(** ** C22 *)
Lemma zlen_rev {A} (l : list A) : zlen (rev l) = zlen l.
Proof. unfold zlen. rewrite rev_length. reflexivity. Qed.
Lemma leading0_split l : exists t, l = zeros (leading0_count l) ++ t /\ (t = [] \/ exists b u, t = b :: u /\ b <> 0) /\ 0 <= leading0_count l.
Proof.
  induction l as [|b l (t & E & H & Hn)]; cbn [leading0_count].
  - exists []. split; [reflexivity|]. split; [left; reflexivity|lia].
  - destruct (Z.eqb_spec b 0) as [->|Hb].
    + exists t. split; [|split; [assumption|lia]]. rewrite E at 1. unfold zeros.
      replace (Z.to_nat (1 + leading0_count l)) with (S (Z.to_nat (leading0_count l))) by lia. reflexivity.
    + exists (b :: l). split; [reflexivity|]. split; [right; exists b, l; tauto|lia].
Qed.
Lemma rev_zeros n : rev (zeros n) = zeros n.
Proof.
  unfold zeros. induction (Z.to_nat n) as [|k IH]; [reflexivity|]. cbn [repeat rev]. rewrite IH.
  change (repeat 0 k ++ repeat 0 1 = repeat 0 (S k)). rewrite <- repeat_app. f_equal. lia.
Qed.
Lemma trim_spec d : trimmed d (resize d (zlen d - trailing0_count d)) /\ 0 <= zlen d - trailing0_count d <= zlen d.
Proof.
  unfold trailing0_count. destruct (leading0_split (rev d)) as (t & E & H & Hn).
  set (k := leading0_count (rev d)) in *.
  assert (Ed : d = rev t ++ zeros k).
  { rewrite <- (rev_involutive d), E, rev_app_distr, rev_zeros. reflexivity. }
  assert (Lk : zlen d - k = zlen (rev t)) by (rewrite Ed at 1; rewrite zlen_app, zlen_zeros by lia; lia).
  rewrite Lk. pose proof (zlen_nonneg (rev t)).
  split; [|rewrite Ed, zlen_app, zlen_zeros by lia; lia].
  assert (Rt : resize d (zlen (rev t)) = rev t).
  { unfold resize. rewrite Ed at 1. rewrite zlen_app. rewrite zlen_zeros by lia.
    destruct (Z.leb_spec (zlen (rev t)) (zlen (rev t) + k)); [|lia]. rewrite Ed, ztake_app_l by lia. apply ztake_all; lia. }
  rewrite Rt. split; [exists k; exact Ed|].
  destruct H as [->|(b & u & -> & Hb)]; [left; reflexivity|]. right. exists b, (rev u). split; [reflexivity|assumption].
Qed.
Lemma raw_view_set_data d n s : raw_view (set_s_data d (set_s_rawsize n (unmap_virtual s))) = d.
Proof. unfold raw_view, unmap_virtual at 1. cbn [set_s_data set_s_rawsize s_old s_data]. rewrite unmap_old. reflexivity. Qed.
Lemma realign_section_spec p i s :
  good_align p -> nth_error (p_sections p) i = Some s -> wf_section s -> zlen (raw_view s) < 2^32 ->
  s_rawsize s <= 2^31 ->
  (S i <> length (p_sections p) -> zlen (raw_view s) <= ceil_mult (s_rawsize s) (falign p)) ->
  exists t, realign_section p i = Ok (put_section p i t) /\
    realigned (falign p) (Nat.eqb (S i) (length (p_sections p))) s t /\ wf_section t.
Proof.
  intros (Ps & Pf & L) Hs W Hd Hr H. pose proof (nth_lt _ _ _ Hs) as Hlt. pose proof (pow2_pos _ Pf) as Pf0.
  pose proof (bytes_raw_view s W) as B. pose proof (pow2_le31 _ Pf ltac:(lia)) as Pf31.
  unfold realign_section. destruct (Nat.ltb_spec i (length (p_sections p))) as [_|]; [|lia]. cbn [negb throw_if bind].
  rewrite (get_section_ok _ _ _ Hs). cbn [bind]. fold (raw_view s).
  destruct (unmap_fields s) as (U1 & U2 & U3 & U4 & U5 & U6 & U7 & U8 & U9 & U10).
  assert (WF : forall d n, bytes d -> zlen d < 2^63 -> is_u32 n -> wf_section (set_s_data d (set_s_rawsize n (unmap_virtual s)))).
  { intros d n Bd Ld Un. pose proof (wf_set_rawsize n _ Un (wf_unmap s W)) as W2. pose proof (unmap_old s) as O.
    unfold wf_section in *; cbn [set_s_data set_s_rawsize s_name s_vsize s_va s_rawsize s_rawptr s_relptr s_lineptr s_nrel s_nline s_chars s_data s_old] in *.
    rewrite O in *. tauto. }
  destruct (Nat.eqb_spec i (length (p_sections p) - 1)) as [EL|NL].
  - destruct (trim_spec (raw_view s)) as [T R].
    set (n := zlen (raw_view s) - trailing0_count (raw_view s)) in *.
    rewrite u32_small by lia. eexists. split; [reflexivity|].
    destruct (Nat.eqb_spec (S i) (length (p_sections p))); [|lia].
    split; [|apply WF; [apply bytes_resize; assumption|rewrite zlen_resize; lia|unfold is_u32; lia]].
    unfold realigned. rewrite !raw_view_set_data. cbn [set_s_data set_s_rawsize s_name s_vsize s_va s_rawsize s_rawptr s_relptr s_lineptr s_nrel s_nline s_chars].
    rewrite zlen_resize by lia. tauto.
  - destruct (wf_ranges s W) as (R1 & R2 & R3 & R4). unfold is_u32 in R3.
    pose proof (ceil_mult_least (s_rawsize s) (falign p) Pf0) as (D1 & D2 & D3 & D4).
    assert (Ps31 : power_of_two (2^31)) by (exists 31; split; [lia|reflexivity]).
    pose proof (D4 (2^31) (pow2_divide _ _ Pf Ps31 ltac:(lia)) ltac:(lia)) as D5.
    assert (A : aligned_rawsize (falign p) (unmap_virtual s) = ceil_mult (s_rawsize s) (falign p)).
    { unfold aligned_rawsize. rewrite U4. destruct (Z.eqb_spec (s_rawsize s) 0) as [->|]; [rewrite ceil_mult_0 by assumption; reflexivity|]. apply align_up_small; try assumption; lia. }
    rewrite A. eexists. split; [reflexivity|].
    specialize (H ltac:(lia)).
    destruct (Nat.eqb_spec (S i) (length (p_sections p))); [lia|].
    split; [|apply WF; [apply bytes_resize; assumption|rewrite zlen_resize; lia|unfold is_u32; lia]].
    unfold realigned. rewrite !raw_view_set_data. cbn [set_s_data set_s_rawsize s_name s_vsize s_va s_rawsize s_rawptr s_relptr s_lineptr s_nrel s_nline s_chars].
    rewrite zlen_resize by lia. pose proof (resize_padded (raw_view s) (ceil_mult (s_rawsize s) (falign p)) H). tauto.
Qed.
Definition realign_pre (p : pe) : Prop :=
  forall i s, nth_error (p_sections p) i = Some s ->
  wf_section s /\ zlen (raw_view s) < 2^32 /\ s_rawsize s <= 2^31 /\
  (S i <> length (p_sections p) -> zlen (raw_view s) <= ceil_mult (s_rawsize s) (falign p)).
Lemma realign_all_aux p0 : good_align p0 -> realign_pre p0 ->
  forall m k p, (k + m)%nat = length (p_sections p0) ->
  set_p_sections [] p = set_p_sections [] p0 -> length (p_sections p) = length (p_sections p0) ->
  (forall i s, nth_error (p_sections p0) i = Some s ->
     exists t, nth_error (p_sections p) i = Some t /\
       if Nat.ltb i k then realigned (falign p0) (Nat.eqb (S i) (length (p_sections p0))) s t /\ wf_section t else t = s) ->
  exists p', mfold realign_section (seq k m) p = Ok p' /\ set_p_sections [] p' = set_p_sections [] p0 /\
    length (p_sections p') = length (p_sections p0) /\
    forall i s, nth_error (p_sections p0) i = Some s ->
     exists t, nth_error (p_sections p') i = Some t /\
       realigned (falign p0) (Nat.eqb (S i) (length (p_sections p0))) s t /\ wf_section t.
Proof.
  intros G HP. induction m as [|m IH]; intros k p Hk Ep El Hi; cbn [seq mfold].
  - exists p. split; [reflexivity|]. split; [assumption|]. split; [assumption|].
    intros i s Hs. destruct (Hi i s Hs) as (t & Ht & H). exists t. split; [assumption|].
    pose proof (nth_lt _ _ _ Hs). destruct (Nat.ltb_spec i k); [assumption|lia].
  - assert (Hn : exists s, nth_error (p_sections p0) k = Some s).
    { destruct (nth_error (p_sections p0) k) eqn:E; [eexists; reflexivity|]. apply nth_error_None in E. lia. }
    destruct Hn as [s Hs]. destruct (Hi k s Hs) as (t & Ht & H). destruct (Nat.ltb_spec k k) as [|_]; [lia|]. subst t.
    assert (En : p_nt p = p_nt p0) by (exact (f_equal p_nt Ep)).
    assert (Ef : falign p = falign p0) by (unfold falign; rewrite En; reflexivity).
    assert (G' : good_align p) by (unfold good_align, salign, falign in *; rewrite En; assumption).
    destruct (HP k s Hs) as (H1 & H2 & H3 & H4).
    destruct (realign_section_spec p k s G' Ht H1 H2 H3) as (t & R1 & R2 & R3).
    { rewrite El, Ef. assumption. }
    rewrite R1. cbn [bind]. apply IH.
    + lia.
    + rewrite <- Ep. reflexivity.
    + unfold put_section; cbn [set_p_sections p_sections]. rewrite upd_length. assumption.
    + intros i s' Hs'. unfold put_section; cbn [set_p_sections p_sections].
      destruct (Nat.eq_dec i k) as [->|Nk].
      * rewrite nth_error_upd_same by (rewrite El; lia). exists t. split; [reflexivity|].
        destruct (Nat.ltb_spec k (S k)); [|lia]. assert (s' = s) by congruence. subst s'. rewrite El, Ef in R2. tauto.
      * rewrite nth_error_upd_other by congruence. destruct (Hi i s' Hs') as (t' & Ht' & H'). exists t'. split; [assumption|].
        destruct (Nat.ltb_spec i k); destruct (Nat.ltb_spec i (S k)); try lia; assumption.
Qed.
Lemma realign_all_spec p : good_align p -> realign_pre p ->
  exists p', realign_all_sections p = Ok p' /\ set_p_sections [] p' = set_p_sections [] p /\
    length (p_sections p') = length (p_sections p) /\
    forall i s, nth_error (p_sections p) i = Some s ->
     exists t, nth_error (p_sections p') i = Some t /\
       realigned (falign p) (Nat.eqb (S i) (length (p_sections p))) s t /\ wf_section t.
Proof.
  intros G HP. unfold realign_all_sections. apply (realign_all_aux p G HP _ 0%nat p); try reflexivity; try lia.
  intros i s Hs. exists s. split; [assumption|]. reflexivity.
Qed.
Lemma realign_file_spec p a :
  good_align p -> power_of_two a -> 512 <= a <= salign p ->
  (forall i s, nth_error (p_sections p) i = Some s ->
     wf_section s /\ zlen (raw_view s) < 2^32 /\ s_rawsize s <= 2^31 /\
     (S i <> length (p_sections p) -> zlen (raw_view s) <= ceil_mult (s_rawsize s) a)) ->
  exists p', realign_file p a = Ok p' /\ set_p_sections [] p' = set_p_sections [] (with_nt (set_h_falign a) p) /\
    length (p_sections p') = length (p_sections p) /\
    forall i s, nth_error (p_sections p) i = Some s ->
     exists t, nth_error (p_sections p') i = Some t /\
       realigned a (Nat.eqb (S i) (length (p_sections p))) s t /\ wf_section t.
Proof.
  intros (Ps & Pf & L) Pa Ha H. unfold realign_file.
  destruct (set_file_alignment_spec p a ltac:(unfold is_u32; lia) ltac:(pose proof (pow2_pos _ Ps); unfold is_u32; lia)) as [S1 _].
  rewrite (S1 (conj Pa Ha)). cbn [bind]. apply (realign_all_spec (with_nt (set_h_falign a) p)).
  - split; [exact Ps|]. split; [exact Pa|]. change (a <= salign p < 2^32). lia.
  - exact H.
Qed.
Lemma update_image_size_spec p pre s :
  good_align p -> p_sections p = pre ++ [s] -> wf_section s -> send (salign p) s < 2^32 ->
  imagesize (update_image_size p) = send (salign p) s.
Proof.
  intros (Ps & Pf & L) E W H. rewrite (update_image_size_last _ _ _ E).
  change (u32 (s_va s + aligned_vsize (salign p) s) = send (salign p) s).
  destruct (wf_ranges s W) as (R1 & R2 & R3 & R4). pose proof (span_nonneg (salign p) s (pow2_pos _ Ps) R1 R3) as Sn.
  unfold send, is_u32 in *. rewrite aligned_vsize_span by (try assumption; lia). apply u32_small. lia.
Qed.
Lemma set_vsize_full p i s v :
  nth_error (p_sections p) i = Some s -> wf_section s -> is_u32 v ->
  (S i <> length (p_sections p) -> set_section_virtual_size p i v = Throw error_changing_section_virtual_size) /\
  (S i = length (p_sections p) -> v = 0 -> raw_view s = [] -> set_section_virtual_size p i v = Throw error_changing_section_virtual_size) /\
  (S i = length (p_sections p) -> (v <> 0 \/ raw_view s <> []) ->
   exists p' t, set_section_virtual_size p i v = Ok p' /\
     p_sections p' = removelast (p_sections p) ++ [t] /\
     t = set_s_vsize (if v =? 0 then s_rawsize s else v) s /\ raw_view t = raw_view s /\
     (good_align p -> send (salign p) t < 2^32 -> imagesize p' = send (salign p) t) /\
     h_nsections (p_nt p') = h_nsections (p_nt p) /\ rest_of p' = rest_of p).
Proof.
  intros Hs W Hv. destruct (set_vsize_spec p i s v Hs W Hv) as (A & B & C). split; [exact A|]. split; [exact B|].
  intros H1 H2. destruct (C H1 H2) as (p' & t & C1 & C2 & C3 & C4 & C5 & C6). exists p', t.
  split; [assumption|]. split; [assumption|]. split; [assumption|]. split; [rewrite C3; apply raw_view_set_vsize|].
  split; [|tauto]. intros (Ps & Pf & L) H. rewrite C4.
  assert (Wt : wf_section t).
  { rewrite C3. apply wf_set_vsize; [|assumption]. destruct (v =? 0); [apply (wf_ranges s W)|assumption]. }
  destruct (wf_ranges t Wt) as (R1 & R2 & R3 & R4). pose proof (span_nonneg (salign p) t (pow2_pos _ Ps) R1 R3) as Sn.
  unfold send, is_u32 in *. rewrite aligned_vsize_span by (try assumption; lia). apply u32_small. lia.
Qed.
Lemma expand_virtual_full p i s rva n p' b :
  good_align p -> nth_error (p_sections p) i = Some s -> wf_section s -> is_u32 rva -> 0 < n ->
  send (salign p) s < 2^32 -> span (salign p) s < 2^31 -> rva - s_va s + n <= 2^31 -> s_va s <= rva ->
  expand_section p i rva n ExpandVirtual = Ok (p', b) ->
  S i = length (p_sections p) /\ occupies (salign p) s rva /\
  (b = true <-> span (salign p) s < rva - s_va s + n) /\
  (b = false -> p' = p) /\
  (b = true -> exists t, p_sections p' = removelast (p_sections p) ++ [t] /\
     t = set_s_vsize (rva - s_va s + n) s /\ raw_view t = raw_view s /\ rva - s_va s + n <= span (salign p) t /\
     (send (salign p) t < 2^32 -> imagesize p' = send (salign p) t) /\
     h_nsections (p_nt p') = h_nsections (p_nt p) /\ rest_of p' = rest_of p).
Proof.
  intros G Hs W Hr Hn H1 H2 H3 H4 E.
  destruct (expand_virtual_spec p i s rva n p' b G Hs W Hr Hn H1 H2 H3 H4 E) as (A & B & C & D & F).
  repeat (split; [assumption|]). intros Hb. destruct (F Hb) as (t & F1 & F2 & F3 & F4 & F5). exists t.
  pose proof G as (Ps & Pf & L). pose proof (pow2_pos _ Ps) as Ps0.
  assert (Wt : wf_section t) by (rewrite F2; apply wf_set_vsize; [unfold is_u32 in *; lia|assumption]).
  assert (St : span (salign p) t = ceil_mult (rva - s_va s + n) (salign p)).
  { rewrite F2. unfold span. cbn [set_s_vsize s_vsize]. destruct (Z.eqb_spec (rva - s_va s + n) 0); [lia|reflexivity]. }
  split; [assumption|]. split; [assumption|]. split; [rewrite F2; apply raw_view_set_vsize|].
  split; [rewrite St; apply (ceil_mult_least _ _ Ps0)|]. split; [|tauto].
  intros H. rewrite F3. destruct (wf_ranges t Wt) as (R1 & R2 & R3 & R4). pose proof (span_nonneg (salign p) t Ps0 R1 R3) as Sn.
  unfold send, is_u32 in *. rewrite aligned_vsize_span by (try assumption; lia). apply u32_small. lia.
Qed.
