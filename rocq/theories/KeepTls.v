(** Proof of C80 for the TLS directory. *)
From Verif Require Export KeepEdit TlsGrow TlsRound.

(** ** The rebuilder does not depend on the cached header bytes *)
Lemma full_recalc p i strip q : recalculate_section_sizes p i strip = Ok q -> p_full q = p_full p.
Proof.
  intros E. unfold recalculate_section_sizes in E. bnd E s Es. bnd E s1 E1. destruct (_ <? _) in E; [|injection E as <-; reflexivity].
  unfold set_section_virtual_size in E. thr E A. bnd E s2 E2. match type of E with (if ?c then _ else _) = _ => destruct c end; [thr E B|]; injection E as <-; unfold update_image_size; destruct (rev _); reflexivity.
Qed.
Lemma expand_hl p i rva n k : expand_section (hl p) i rva n k = rmap hl1 (expand_section p i rva n k).
Proof.
  unfold expand_section. change (not_last (hl p) i) with (not_last p i). rewrite rmap_bind. apply bind_ext. intros _ _. change (get_section (hl p) i) with (get_section p i). rewrite rmap_bind. apply bind_ext. intros s _. destruct k.
  - change (length_in_section (hl p) s rva RawData) with (length_in_section p s rva RawData). rewrite rmap_bind. apply bind_ext. intros len _. destruct (len <? n); [|reflexivity]. cbv zeta.
    match goal with |- context [put_section (hl p) i ?x] => change (put_section (hl p) i x) with (hl (put_section p i x)) end. rewrite recalc_hl, bind_rmap, rmap_bind. apply bind_ext. reflexivity.
  - change (length_in_section (hl p) s rva VirtData) with (length_in_section p s rva VirtData). rewrite rmap_bind. apply bind_ext. intros len _. destruct (len <? n); [|reflexivity].
    rewrite resize_hl, bind_rmap, rmap_bind. apply bind_ext. reflexivity.
Qed.
Lemma try_hl p rva n k : try_expand (hl p) rva n k = rmap hl (try_expand p rva n k).
Proof.
  unfold try_expand. change (section_from_rva (hl p) rva) with (section_from_rva p rva). destruct (section_from_rva p rva) as [i|e|u|]; cbn [bind]; try reflexivity. rewrite expand_hl. destruct (expand_section p i rva n k) as [[q b]|e|u|]; reflexivity.
Qed.
Lemma full_virtual p i v q : set_section_virtual_size p i v = Ok q -> p_full q = p_full p.
Proof.
  intros E. unfold set_section_virtual_size in E. thr E A. bnd E s2 E2. match type of E with (if ?c then _ else _) = _ => destruct c end; [thr E B|]; injection E as <-; unfold update_image_size; destruct (rev _); reflexivity.
Qed.
Lemma full_try p rva n k q : try_expand p rva n k = Ok q -> p_full q = p_full p.
Proof.
  unfold try_expand. destruct (section_from_rva p rva) as [i|e|u|]; cbn [bind]; intros E; try discriminate E; [|injection E as <-; reflexivity].
  destruct (expand_section p i rva n k) as [[q1 b]|e|u|] eqn:X; try discriminate E; injection E as <-; [|reflexivity]. unfold expand_section in X. thr X A. bnd X s Es. destruct k.
  - bnd X len El. destruct (len <? n); [|injection X as <- _; reflexivity]. bnd X p1 Ep. injection X as <- _. exact (full_recalc _ _ _ _ Ep).
  - bnd X len El. destruct (len <? n); [|injection X as <- _; reflexivity]. bnd X p1 Ep. injection X as <- _. exact (full_virtual _ _ _ _ Ep).
Qed.
Lemma length_hl p a ty : zlen (p_full p) <= a -> length_rva (hl p) a a ty true = length_rva p a a ty true.
Proof. intros H. pose proof (zlen_nonneg (p_full p)). unfold length_rva. change (zlen (p_full (hl p))) with 0. replace (a <? 0) with false by lia. replace (a <? zlen (p_full p)) with false by lia. reflexivity. Qed.
Lemma write_hl p a bs : zlen (p_full p) <= a -> write_rva (hl p) a bs = rmap hl (write_rva p a bs).
Proof.
  intros H. pose proof (zlen_nonneg (p_full p)). unfold write_rva. change (zlen (p_full (hl p))) with 0. replace (a <? 0) with false by lia. replace (a <? zlen (p_full p)) with false by lia.
  repeat (rewrite rmap_bind; apply bind_ext; intros ? _). reflexivity.
Qed.
Lemma full_write p a bs q : zlen (p_full p) <= a -> write_rva p a bs = Ok q -> p_full q = p_full p.
Proof. intros H E. unfold write_rva in E. replace (a <? zlen (p_full p)) with false in E by lia. bnd E i Ei. bnd E s Es. thr E A. bnd E d Ed. injection E as <-. reflexivity. Qed.
Lemma data_hl p t k : zlen (p_full p) <= t_start t -> write_tls_data (hl p) t k = rmap hl (write_tls_data p t k).
Proof.
  intros H. unfold write_tls_data. cbv zeta. rewrite try_hl, bind_rmap, rmap_bind. apply bind_ext. intros p1 E1. pose proof (full_try _ _ _ _ _ E1) as F1. rewrite <- F1 in H.
  rewrite !length_hl by exact H. rewrite rmap_bind. apply bind_ext. intros raw _. rewrite rmap_bind. apply bind_ext. intros m _. destruct (m =? 0); [reflexivity|]. rewrite rmap_bind. apply bind_ext. intros bs _. apply write_hl, H.
Qed.
Lemma full_data p t k q : zlen (p_full p) <= t_start t -> write_tls_data p t k = Ok q -> p_full q = p_full p.
Proof.
  intros H E. unfold write_tls_data in E. cbv zeta in E. bnd E p1 E1. pose proof (full_try _ _ _ _ _ E1) as F1. rewrite <- F1. bnd E raw Er. bnd E m Em. destruct (m =? 0); [injection E as <-; reflexivity|]. bnd E bs Eb. rewrite <- F1 in H. exact (full_write _ _ _ _ H E).
Qed.
Lemma callbacks_hl p t : zlen (p_full p) <= t_callbacks t -> write_tls_callbacks (hl p) t = rmap hl (write_tls_callbacks p t).
Proof.
  intros H. unfold write_tls_callbacks. cbv zeta. change (base_size (hl p)) with (base_size p). rewrite try_hl, bind_rmap, rmap_bind. apply bind_ext. intros p1 E1. pose proof (full_try _ _ _ _ _ E1) as F1. rewrite <- F1 in H.
  rewrite !length_hl by exact H. do 4 (rewrite rmap_bind; apply bind_ext; intros ? _). change (mmap (rva_to_va (hl p1)) (t_list t)) with (mmap (rva_to_va p1) (t_list t)). do 2 (rewrite rmap_bind; apply bind_ext; intros ? _). apply write_hl, H.
Qed.
Lemma tls_hl p t i off callbacks data k save strip : (data = true -> t_start t <> 0 -> zlen (p_full p) <= t_start t) -> (callbacks = true -> t_callbacks t <> 0 -> zlen (p_full p) <= t_callbacks t) ->
  rebuild_tls (hl p) t i off callbacks data k save strip = rmap hl1 (rebuild_tls p t i off callbacks data k save strip).
Proof.
  intros H1 H2. unfold rebuild_tls. cbv zeta. change (base_size (hl p)) with (base_size p). change (tls_size (hl p)) with (tls_size p). change (tls_widths (hl p)) with (tls_widths p).
  change (open_room (hl p) i) with (open_room p i). rewrite rmap_bind. apply bind_ext. intros s1 _. rewrite rmap_bind. apply bind_ext. intros _ _. change (rva_to_va (hl p)) with (rva_to_va p).
  do 5 (rewrite rmap_bind; apply bind_ext; intros ? _). match goal with |- context [put_section (hl p) i ?x] => change (put_section (hl p) i x) with (hl (put_section p i x)); set (p1 := put_section p i x) end.
  assert (F1 : p_full p1 = p_full p) by reflexivity. clearbody p1.
  set (c1 := data && negb (t_start t =? 0) && negb (t_start t =? t_end t)). assert (H1' : c1 = true -> zlen (p_full p1) <= t_start t) by (rewrite F1; unfold c1; intros C; apply H1; destruct data; try discriminate C; [reflexivity|]; destruct (Z.eqb_spec (t_start t) 0); [discriminate C|assumption]).
  assert (X : (if c1 then write_tls_data (hl p1) t k else Ok (hl p1)) = rmap hl (if c1 then write_tls_data p1 t k else Ok p1)) by (destruct c1; [apply data_hl, H1', eq_refl|reflexivity]).
  rewrite X. clear X. rewrite bind_rmap, rmap_bind. apply bind_ext. intros p2 E2. assert (F2 : p_full p2 = p_full p) by (destruct c1; [rewrite <- F1; exact (full_data _ _ _ _ (H1' eq_refl) E2)|injection E2 as <-; exact F1]).
  set (c2 := callbacks && negb (t_callbacks t =? 0)). assert (H2' : c2 = true -> zlen (p_full p2) <= t_callbacks t) by (rewrite F2; unfold c2; intros C; apply H2; destruct callbacks; try discriminate C; [reflexivity|]; destruct (Z.eqb_spec (t_callbacks t) 0); [discriminate C|assumption]).
  assert (X : (if c2 then write_tls_callbacks (hl p2) t else Ok (hl p2)) = rmap hl (if c2 then write_tls_callbacks p2 t else Ok p2)) by (destruct c2; [apply callbacks_hl, H2', eq_refl|reflexivity]).
  rewrite X. clear X. rewrite bind_rmap, rmap_bind. apply bind_ext. intros p3 _. rewrite recalc_hl, bind_rmap, rmap_bind. apply bind_ext. intros p4 _.
  destruct save; [|reflexivity]. rewrite set_dir_hl, bind_rmap, rmap_bind. apply bind_ext. reflexivity.
Qed.

Lemma wf_section_va s : wf_section s -> 0 <= s_va s.
Proof. unfold wf_section, is_u32. intros H. repeat match goal with K : _ /\ _ |- _ => destruct K end. assumption. Qed.
(** ** Sections whose data are replaced by data of the same length *)
Lemma editable_mid a p start i s x : editable a p -> image_ok p start -> nth_error (p_sections p) i = Some s -> zlen (raw_view s) < 2^31 -> mid p i (zlen (raw_view s)) x -> editable a x /\ image_ok x start.
Proof.
  intros Ed IO Hs Lr M. pose proof IO as (Gd & W & _). assert (Hn : 0 <= zlen (raw_view s)) by apply zlen_nonneg.
  destruct Ed as (((Wm & Wd & Wz & Wl & Wst & Wf & Wdd & Wn & Ww & Wb & Wfl) & L1 & L2 & L3 & L4 & L5 & G & L6 & (start0 & S1 & S2 & S3 & S4)) & U & R & Pa & Ha).
  assert (Ix : image_ok x start).
  { apply (mid_ok p start i (zlen (raw_view s))); try assumption; lia. }
  split; [|exact Ix]. pose proof (mid_length _ _ _ _ M) as Len. destruct (mid_fields _ _ _ _ M) as (X1 & X2 & X3 & X4 & X5).
  assert (Es : start = start0).
  { destruct IO as (_ & _ & _ & _ & Ch & _). destruct (p_sections p) as [|s0 l]; [change (zlen (@nil section)) with 0 in L6; lia|]. destruct Ch as [<- _]. destruct S3 as [<- _]. reflexivity. }
  subst start0. pose proof M as (l & -> & Ll & F). destruct Ix as (G' & W' & _ & _ & Ch' & Ce').
  assert (Each : forall j t, nth_error l j = Some t -> exists s0 d, nth_error (p_sections p) j = Some s0 /\ t = opened s0 d /\ zlen d = zlen (raw_view s0)).
  { intros j t Ht. destruct (nth_error (p_sections p) j) as [s0|] eqn:H0; [|apply nth_error_None in H0; assert (j < length l)%nat by (apply nth_error_Some; congruence); lia]. destruct (F j s0 H0) as (d & D1 & _ & D2). rewrite Ht in D1. injection D1 as ->.
    exists s0, d. split; [reflexivity|]. split; [reflexivity|]. destruct (Nat.eqb_spec j i) as [->|]; [congruence|exact D2]. }
  split; [|split; [|split]].
  - split; [repeat (split; [assumption|]); exact Wfl|]. repeat (split; [assumption|]). split; [unfold zlen in *; cbn [set_p_sections p_sections]; rewrite Ll; exact L6|]. exists start. repeat (split; [assumption|]). exact Ce'.
  - apply Forall_forall. intros y Hy. cbn [set_p_sections p_sections] in Hy. apply In_nth_error in Hy as (j & Hj). destruct (Each j y Hj) as (s0 & d & _ & -> & _). apply opened_fields.
  - intros j t Ht. cbn [set_p_sections p_sections] in Ht. destruct (Each j t Ht) as (s0 & d & H0 & -> & Ld). destruct (R j s0 H0) as (R1 & R2 & R3 & R4 & R5 & R6). destruct (opened_fields s0 d) as (_ & O2 & _ & _ & _ & _ & _ & O8).
    change (salign (set_p_sections l p)) with (salign p). rewrite O2, O8, opened_span, opened_rawsize, Ld. cbn [set_p_sections p_sections]. rewrite Ll. split; [exact (nth_Forall _ _ _ _ W' Ht)|]. repeat (split; [assumption|]). exact R6.
  - split; [exact Pa|exact Ha].
Qed.
Theorem tls_saved p start i t off callbacks data k strip s a : let pos := ceil_mult off (Z.of_nat (word_size p)) in editable a p ->
  0 <= off -> valid_tls p t -> (t_start t = 0 -> t_zero t = 0) -> room p start i (pos + tls_bytes p) -> pos + tls_bytes p < 2^31 -> dir_tls < nrva p <= 16 -> base_ok p ->
  nth_error (p_sections p) i = Some s -> zlen (raw_view s) < 2^31 -> tls_places p t (s_va s + pos) callbacks data -> imagebase p + t_callbacks t + zlen (callback_table p t) <= base_mod p ->
  exists p', rebuild_tls p t i off callbacks data k true strip = Ok (p', (s_va s + pos, tls_bytes p)) /\ editable a p' /\ get_tls p' = Ok t /\ forall r, saved p' a r -> get_tls r = Ok t.
Proof.
  intros pos Ed Ho V Z0 R Hp N B Hs Lr Pl Hcb. pose proof Ed as (((_ & _ & _ & _ & _ & _ & D & _) & _) & U & _).
  destruct (rebuild_tls_full p start i t off callbacks data k true strip s Ho V Z0 R Hp U D N B Hs Lr Pl Hcb) as (p' & X1 & X2 & X3 & X4 & _ & X6 & Len & (x & Hx & Wz) & Oth). fold pos in X1, X4. specialize (X6 eq_refl).
  assert (Ed' : editable a p').
  { pose proof R as (IO & _). set (y := set_p_sections (upd (p_sections p') i s) p).
    assert (My : mid p i (zlen (raw_view s)) y).
    { exists (upd (p_sections p') i s). split; [reflexivity|]. split; [rewrite upd_length; exact Len|]. intros j sj Hj. destruct (Nat.eqb_spec j i) as [->|Nj].
      - exists (raw_view s). rewrite Hs in Hj. injection Hj as <-. split; [rewrite nth_error_upd_same by exact (nth_lt _ _ _ Hx); rewrite opened_self by exact (nth_Forall _ _ _ _ U Hs); reflexivity|]. split; [|reflexivity]. apply bytes_raw_view. destruct IO as (_ & W & _). exact (nth_Forall _ _ _ _ W Hs).
      - destruct (Oth j sj Hj Nj) as (d & D1 & D2 & D3). exists d. rewrite nth_error_upd_other by congruence. auto. }
    destruct (editable_mid a p start i s y Ed IO Hs Lr My) as [Ey Iy].
    apply (ready_headers a y p' start i x Ey Iy X3); try assumption.
    - apply (directory_ok p p' dir_tls (s_va s + pos, tls_bytes p)); try assumption; [unfold dir_tls; lia|..]. 
      all: destruct (where_range p start i _ s pos (tls_bytes p) R Hs ltac:(unfold pos; pose proof (ceil_mult_least off (Z.of_nat (word_size p)) ltac:(unfold word_size; destruct (p_plus p); lia)); lia) ltac:(unfold tls_bytes; destruct (p_plus p); lia) ltac:(lia)) as [R1 R2]; try assumption; split; assumption.
    - unfold y. cbn [set_p_sections p_sections]. rewrite upd_length. reflexivity.
    - intros j Nj. unfold y. cbn [set_p_sections p_sections]. rewrite nth_error_upd_other by congruence. reflexivity. }
  exists p'. split; [exact X1|]. split; [exact Ed'|]. split; [exact X6|]. intros r Sv. assert (N' : 0 < nrva p') by (rewrite (headers_nrva _ _ X2); unfold dir_tls in N; lia).
  assert (Va : forall j s0, nth_error (p_sections p) j = Some s0 -> 0 <= s_va s0) by (intros j s0 H0; destruct R as ((_ & W & _) & _); pose proof (nth_Forall _ _ _ _ W H0) as W0; pose proof (wf_section_va _ W0); lia).
  assert (Pl' : tls_places (hl p) t (s_va s + pos) callbacks data).
  { destruct Pl as (P1 & P2 & P3). assert (Q : forall b bs w, place p b bs w -> place (hl p) b bs w).
    { intros b bs w (j & s0 & A1 & A2 & A3 & A4). exists j, s0. split; [exact A1|]. split; [exact A2|]. split; [change (zlen (p_full (hl p))) with 0; exact (Va j s0 A1)|exact A4]. }
    split; [intros H; destruct (P1 H); split; [apply Q|]; assumption|]. split; [intros H; destruct (P2 H); split; [apply Q|]; assumption|exact P3]. }
  destruct (rebuild_tls_ok (hl p) start i t off callbacks data k true strip s Ho V Z0 (room_hl _ _ _ _ R) Hp U D N B Hs Lr Pl' Hcb) as (p2 & Y1 & _ & _ & _ & _ & Y6).
  assert (Hd : forall b bs w, place p b bs w -> zlen (p_full p) <= b) by (intros b bs w (j & s0 & _ & A2 & A3 & _); unfold occupies in A2; lia).
  rewrite tls_hl, X1 in Y1; [|intros _ H; destruct Pl as (P1 & _); destruct (P1 H) as [H1 _]; exact (Hd _ _ _ H1)|intros _ H; destruct Pl as (_ & P2 & _); destruct (P2 H) as [H1 _]; exact (Hd _ _ _ H1)].
  injection Y1 as <-. destruct (saved_tables a p' r Ed' N' Sv) as (_ & _ & _ & T & _). exact (T t (Y6 eq_refl)).
Qed.
(** The same for a section that grows. *)
Theorem tls_grown_saved p start i t off strip s a : let pos := ceil_mult off (Z.of_nat (word_size p)) in editable a p ->
  0 <= off -> valid_tls p t -> (t_start t = 0 -> t_zero t = 0) -> room p start i (pos + tls_bytes p) -> pos + tls_bytes p < 2^31 -> dir_tls < nrva p <= 16 -> base_ok p ->
  nth_error (p_sections p) i = Some s -> S i = length (p_sections p) -> zlen (raw_view s) < 2^31 -> tls_grows p t s pos -> imagebase p + t_callbacks t + zlen (callback_table p t) <= base_mod p ->
  exists p', rebuild_tls p t i off true true ExpandRaw true strip = Ok (p', (s_va s + pos, tls_bytes p)) /\ editable a p' /\ get_tls p' = Ok t /\ forall r, saved p' a r -> get_tls r = Ok t.
Proof.
  intros pos Ed Ho V Z0 R Hp N B Hs HL Lr Pl Hcb. pose proof Ed as (((_ & _ & _ & _ & _ & _ & D & _) & _) & U & _).
  destruct (rebuild_tls_grown p start i t off true strip s Ho V Z0 R Hp U D N B Hs HL Lr Pl Hcb) as (p' & X1 & X2 & X3 & X4 & X5 & X6 & Len & x & Hx & Wz & _). fold pos in X1, X4. specialize (X6 eq_refl).
  assert (Ed' : editable a p').
  { pose proof R as (IO & _). apply (ready_headers a p p' start i x Ed IO X3); try assumption.
    apply (directory_ok p p' dir_tls (s_va s + pos, tls_bytes p)); try assumption; [unfold dir_tls; lia|..].
    all: destruct (where_range p start i _ s pos (tls_bytes p) R Hs ltac:(unfold pos; pose proof (ceil_mult_least off (Z.of_nat (word_size p)) ltac:(unfold word_size; destruct (p_plus p); lia)); lia) ltac:(unfold tls_bytes; destruct (p_plus p); lia) ltac:(lia)) as [R1 R2]; try assumption; split; assumption. }
  exists p'. split; [exact X1|]. split; [exact Ed'|]. split; [exact X6|]. intros r Sv. assert (N' : 0 < nrva p') by (rewrite (headers_nrva _ _ X2); unfold dir_tls in N; lia).
  destruct (rebuild_tls_grown (hl p) start i t off true strip s Ho V Z0 (room_hl _ _ _ _ R) Hp U D N B Hs HL Lr Pl Hcb) as (p2 & Y1 & _ & _ & _ & _ & Y6 & _).
  assert (Hf : zlen (p_full p) <= s_va s) by (destruct R as (_ & _ & s' & Hs' & _ & Hf & _); rewrite Hs in Hs'; injection Hs' as <-; exact Hf).
  destruct Pl as (_ & P1 & P2 & _). rewrite tls_hl, X1 in Y1; [|intros _ H; destruct (P1 H) as [[H1 _] _]; lia|intros _ H; destruct (P2 H) as [[H1 _] _]; lia].
  injection Y1 as <-. destruct (saved_tables a p' r Ed' N' Sv) as (_ & _ & _ & T & _). exact (T t (Y6 eq_refl)).
Qed.
