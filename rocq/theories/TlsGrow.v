(** TLS data and callbacks placed in the last section, which grows for them. *)
From Verif Require Import FailSafe TlsRound.
Import SpecTls TlsRound.

Section Grow.
Variables (p : pe) (start : Z) (i : nat) (s : section) (M : Z).
Hypothesis IO : image_ok p start.
Hypothesis U : unmapped p.
Hypothesis Hs : nth_error (p_sections p) i = Some s.
Hypothesis HL : S i = length (p_sections p).
Hypothesis Hf : zlen (p_full p) <= s_va s.
Hypothesis Hz : 0 < s_va s.
Hypothesis HM : 0 <= M < 2^31.
Hypothesis HB : s_va s + ceil_mult M (salign p) < 2^32.
(** The last section while it grows. *)
Definition last_state (x : section) : Prop :=
  wf_section x /\ s_va x = s_va s /\ s_name x = s_name s /\ s_chars x = s_chars s /\ s_rawptr x = s_rawptr s /\ s_old x = None /\ 0 < s_vsize x <= 2^31 /\ 0 < zlen (s_data x) <= M /\ zlen (s_data x) <= span (salign p) x /\
  span (salign p) s <= span (salign p) x /\ image_ok (put_section p i x) start.
Lemma st_raw x : last_state x -> raw_view x = s_data x.
Proof. intros (_ & _ & _ & _ & _ & O & _). unfold raw_view. rewrite (no_old x O). reflexivity. Qed.
Lemma st_open x d : last_state x -> opened x d = set_s_data d x.
Proof. intros (_ & _ & _ & _ & _ & O & _). unfold opened. rewrite (no_old x O). reflexivity. Qed.
Lemma Li : (i < length (p_sections p))%nat. Proof. clear -Hs. exact (nth_lt _ _ _ Hs). Qed.
Lemma st_nth x : nth_error (p_sections (put_section p i x)) i = Some x.
Proof. apply put_get, Li. Qed.
Lemma st_len x : S i = length (p_sections (put_section p i x)).
Proof. clear -HL. unfold put_section. cbn [set_p_sections p_sections]. rewrite upd_length. exact HL. Qed.
Lemma st_unmapped x : s_old x = None -> unmapped (put_section p i x).
Proof.
  clear -U Hs. intros O. apply Forall_forall. intros y Hy. apply In_nth_error in Hy as [j Hj]. destruct (Nat.eq_dec i j) as [<-|N].
  - rewrite put_get in Hj by exact (nth_lt _ _ _ Hs). injection Hj as <-. exact O.
  - unfold put_section in Hj. cbn [set_p_sections p_sections] in Hj. rewrite nth_error_upd_other in Hj by congruence. exact (nth_Forall _ _ _ _ U Hj).
Qed.
Lemma ceil_mono a b m : 0 < m -> a <= b -> ceil_mult a m <= ceil_mult b m.
Proof. clear. intros Hm H. pose proof (ceil_mult_least a m Hm) as (D & A & _ & L). pose proof (ceil_mult_least b m Hm) as (D2 & B & _ & _). apply L; [exact D2|lia]. Qed.
(** The sizes are recalculated for data [d] that is at most [M] long. *)
Lemma st_sizes x d strip : last_state x -> bytes d -> 0 < zlen d <= M -> exists t, recalculate_section_sizes (put_section p i (set_s_data d x)) i strip = Ok (put_section p i t) /\ last_state t /\ s_data t = d /\ well_sized p t.
Proof.
  intros St Bd Ld. pose proof St as (Wx & Vx & Nx & Cx & Rx & Ox & Vs & Zd & Zs & Sp & IOx). pose proof IO as ((Ps & Pf & L) & W & _). pose proof (pow2_pos _ Ps) as Ps0. pose proof (pow2_pos _ Pf) as Pf0.
  set (P := put_section p i x) in *. assert (R : room P start i (zlen d)).
  { split; [exact IOx|]. split; [lia|]. exists x. split; [apply st_nth|]. rewrite Vx. split; [exact Hz|]. split; [exact Hf|]. split; [exact Vs|]. rewrite (st_raw x St). split; [change (salign P) with (salign p); lia|].
    replace (length (p_sections P)) with (S i) by apply st_len. rewrite Nat.eqb_refl. change (salign P) with (salign p). pose proof (ceil_mono (zlen d) M (salign p) Ps0 ltac:(lia)). lia. }
  assert (Hl : zlen d <= zlen d <= ceil_mult (zlen d) (falign P)) by (pose proof (ceil_mult_least (zlen d) (falign p) Pf0); change (falign P) with (falign p); lia).
  destruct (open_room_ok P start i (zlen d) (zlen d) R Hl) as (x' & d0 & Hx' & Eo & _ & L1 & _ & _). unfold P in Hx'. rewrite st_nth in Hx'. injection Hx' as <-.
  destruct (store_le P start i (zlen d) (zlen d) x d0 d strip R Hl (st_nth x) Eo L1 ltac:(lia) Bd) as (t & Er & (S1 & S2 & S3 & S4 & S5 & _) & Wt & IOt & Lt & Vt & Spt & _ & Rt & Wz).
  unfold P in Er, IOt. rewrite put_put in Er. rewrite (put_put p i x t) in Er. rewrite put_put in IOt. rewrite (st_open x d St) in Er. specialize (Rt (or_intror (st_len x))).
  change (salign P) with (salign p) in *. assert (Dt : s_data t = d) by (unfold raw_view in Rt; rewrite (no_old t S5) in Rt; exact Rt).
  exists t. split; [exact Er|]. split; [|split; [exact Dt|exact Wz]]. unfold last_state. rewrite S2, S1, S4, S3, Dt. split; [exact Wt|]. repeat (split; [congruence || assumption|]). split; [lia|exact IOt].
Qed.

Lemma st_find x a : last_state x -> occupies (salign p) s a -> section_from_rva (put_section p i x) a = Ok i /\ in_section (salign p) a x = true /\ aligned_vsize (salign p) x = span (salign p) x /\ s_va s <= a < s_va s + span (salign p) s /\ s_va s + span (salign p) x < 2^32.
Proof.
  intros (Wx & Vx & _ & _ & _ & _ & Vs & _ & _ & Sp & IOx) Oc. unfold occupies, send in Oc. destruct IOx as (G & W & D & St & Ch & Ce). pose proof (chain_layout _ _ G W Ch Ce) as Lay. pose proof Lay as ((P & _ & L) & _ & Se & _).
  pose proof (nth_Forall _ _ _ _ Se (st_nth x)) as Ss. cbn beta in Ss. unfold send in Ss. change (salign (put_section p i x)) with (salign p) in *. assert (Ox : occupies (salign p) x a) by (unfold occupies, send; lia).
  split; [apply (section_from_rva_spec _ _ _ Lay); exists x; split; [apply st_nth|exact Ox]|]. split; [apply in_section_occupies; try assumption; unfold send; lia|]. split; [destruct (wf_ranges _ Wx) as (R1 & R2 & R3 & _); apply aligned_vsize_span; try assumption; unfold send; lia|lia].
Qed.
Lemma s32_small x : - 2^31 <= x < 2^31 -> s32 x = x.
Proof. clear. intros H. unfold s32, u32. destruct (Z.ltb_spec (x mod 2^32) (2^31)); lia. Qed.
Lemma st_expand x a n : last_state x -> occupies (salign p) s a -> 0 < n -> a - s_va s + n <= M ->
  exists x', try_expand (put_section p i x) a n ExpandRaw = Ok (put_section p i x') /\ last_state x' /\ padded (s_data x) (s_data x') /\ a - s_va s + n <= zlen (s_data x').
Proof.
  intros St Oc Hn Ha. destruct (st_find x a St Oc) as (Fi & In & Av & Ra & _). pose proof St as (Wx & Vx & Nx & Cx & Rx & Ox & Vs & Zd & Zs & Sp & IOx).
  unfold try_expand. rewrite Fi. cbn [bind]. unfold expand_section. replace (not_last (put_section p i x) i) with false by (symmetry; apply (not_last_false _ _ _ (st_nth x)), st_len). cbn [throw_if bind].
  rewrite (get_section_ok _ _ _ (st_nth x)). cbn [bind]. unfold length_in_section. change (salign (put_section p i x)) with (salign p). rewrite In. cbn [bind data_length]. rewrite (st_raw x St), Vx. rewrite s32_small by lia.
  assert (Bx : bytes (s_data x)) by (rewrite <- (st_raw x St); apply bytes_raw_view, Wx).
  destruct (_ <? n) eqn:C.
  - rewrite u32_small by lia. unfold with_raw. rewrite (no_old x Ox), put_put. set (d := resize (s_data x) (a - s_va s + n)).
    assert (Lx : zlen (s_data x) < a - s_va s + n) by (destruct (zlen (s_data x) + s_va s - a <? 0) eqn:C0; lia). assert (Ld : zlen d = a - s_va s + n) by (apply zlen_resize; lia). assert (Pd : padded (s_data x) d) by (apply resize_padded; lia).
    destruct (st_sizes x d false St (padded_bytes _ _ Pd Bx) ltac:(lia)) as (t & Er & St' & Dt & _). rewrite Er. cbn [bind]. exists t. split; [reflexivity|]. split; [exact St'|]. rewrite Dt. split; [exact Pd|lia].
  - exists x. split; [reflexivity|]. split; [exact St|]. split; [apply padded_refl|]. destruct (zlen (s_data x) + s_va s - a <? 0) eqn:C0; lia.
Qed.
Lemma st_put x d : last_state x -> bytes d -> zlen d = zlen (s_data x) -> last_state (set_s_data d x).
Proof.
  intros St Bd Ld. pose proof St as (Wx & Vx & Nx & Cx & Rx & Ox & Vs & Zd & Zs & Sp & IOx). rewrite <- (st_open x d St). destruct (opened_fields x d) as (F1 & F2 & F3 & F4 & F5 & F6 & F7 & F8).
  unfold last_state. rewrite F1, F2, F3, F4, F5, F6, F7, opened_span, Ld. split; [apply opened_wf; try assumption; lia|]. do 9 (split; [assumption || reflexivity|]).
  assert (W : Forall wf_section (p_sections (put_section p i x))) by apply IOx.
  replace (put_section p i (opened x d)) with (put_section (put_section p i x) i (opened x d)) by apply put_put. apply (mid_ok (put_section p i x) start i (zlen d)); [exact IOx|apply mid_self; [apply st_unmapped, Ox|exact W|apply st_nth|exact Bd]|lia].
Qed.
Lemma st_write x a bs : last_state x -> occupies (salign p) s a -> 0 < zlen bs -> bytes bs -> a - s_va s + zlen bs <= zlen (s_data x) ->
  write_rva (put_section p i x) a bs = Ok (put_section p i (set_s_data (splice (s_data x) (a - s_va s) bs) x)) /\ last_state (set_s_data (splice (s_data x) (a - s_va s) bs) x).
Proof.
  intros St Oc Zb Bb Hl. destruct (st_find x a St Oc) as (Fi & In & Av & Ra & _). pose proof St as (Wx & Vx & Nx & Cx & Rx & Ox & Vs & Zd & Zs & Sp & IOx).
  assert (Bx : bytes (s_data x)) by (rewrite <- (st_raw x St); apply bytes_raw_view, Wx). split.
  - unfold write_rva. change (p_full (put_section p i x)) with (p_full p). replace (a <? zlen (p_full p)) with false by lia. rewrite Fi. cbn [bind]. rewrite (get_section_ok _ _ _ (st_nth x)). cbn [bind]. rewrite (st_raw x St), Vx.
    replace (zlen (s_data x) =? 0) with false by lia. cbn [throw_if bind]. rewrite wr_ok by lia. cbn [bind]. rewrite put_put. unfold with_raw. rewrite (no_old x Ox). reflexivity.
  - apply st_put; [exact St|apply bytes_splice; assumption|apply zlen_splice; lia].
Qed.
Lemma st_length x a ty : last_state x -> occupies (salign p) s a -> a - s_va s <= zlen (s_data x) -> exists n, length_rva (put_section p i x) a a ty true = Ok n /\ zlen (s_data x) - (a - s_va s) <= n.
Proof.
  intros St Oc Hl. destruct (st_find x a St Oc) as (Fi & In & Av & Ra & Bx). pose proof St as (Wx & Vx & Nx & Cx & Rx & Ox & Vs & Zd & Zs & Sp & IOx).
  unfold length_rva. change (p_full (put_section p i x)) with (p_full p). replace (a <? zlen (p_full p)) with false by lia. cbn [andb]. rewrite Fi. cbn [bind]. rewrite (get_section_ok _ _ _ (st_nth x)). cbn [bind]. rewrite Vx. replace (a <? s_va s) with false by lia. cbn [throw_if bind].
  assert (Dl : zlen (s_data x) <= data_length (put_section p i x) x ty <= span (salign p) x) by (destruct ty; cbn [data_length]; change (salign (put_section p i x)) with (salign p); rewrite ?(st_raw x St), ?Av; lia).
  destruct (Z.ltb_spec (data_length (put_section p i x) x ty + s_va s - a) 0); [lia|]. rewrite u32_small by lia. eexists. split; [reflexivity|lia].
Qed.
Lemma st_data x t : last_state x -> occupies (salign p) s (t_start t) -> is_u32 (t_start t) -> is_u32 (t_end t) -> zlen (t_data t) = t_end t - t_start t -> t_start t <> t_end t -> bytes (t_data t) -> t_end t - s_va s <= M ->
  exists y, write_tls_data (put_section p i x) t ExpandRaw = Ok (put_section p i y) /\ last_state y /\ holds (s_data y) (t_start t - s_va s) (t_data t) /\
    (forall o cs, holds (s_data x) o cs -> o + zlen cs <= t_start t - s_va s \/ t_end t - s_va s <= o -> holds (s_data y) o cs) /\
    forall k, 0 <= k -> k < t_start t - s_va s \/ t_end t - s_va s <= k -> nth (Z.to_nat k) (s_data y) 0 = nth (Z.to_nat k) (s_data x) 0.
Proof.
  intros St Oc U1 U2 Ld Ne Bd Hm. pose proof (zlen_nonneg (t_data t)) as Zt. unfold is_u32 in *. unfold write_tls_data. rewrite <- Ld. rewrite u32_small by lia.
  destruct (st_expand x (t_start t) (zlen (t_data t)) St Oc ltac:(lia) ltac:(lia)) as (x' & -> & St' & [m Pd] & Lx). cbn [bind]. destruct (st_length x' (t_start t) RawData St' Oc ltac:(lia)) as (n & -> & Hn). cbn [bind].
  replace (n <? zlen (t_data t)) with false by lia. cbn [bind]. replace (zlen (t_data t) =? 0) with false by lia. rewrite rd_ok by lia. cbn [bind]. rewrite slice_all by lia.
  destruct (st_write x' (t_start t) (t_data t) St' Oc ltac:(lia) Bd Lx) as [E Sw]. rewrite E. eexists. split; [reflexivity|]. split; [exact Sw|]. cbn [set_s_data s_data]. unfold occupies in Oc. split; [apply holds_splice; lia|].
  split; [intros o cs H A; apply holds_splice_apart; [rewrite Pd; apply holds_ext, H|lia|lia|lia]|].
  intros k Hk A. rewrite nth_splice_out by lia. apply nth_padded. exists m. exact Pd.
Qed.
Lemma st_callbacks x t : last_state x -> base_ok p -> Forall (has_va p) (t_list t) -> occupies (salign p) s (t_callbacks t) -> t_callbacks t + zlen (callback_table p t) - s_va s <= M ->
  exists y, write_tls_callbacks (put_section p i x) t = Ok (put_section p i y) /\ last_state y /\ holds (s_data y) (t_callbacks t - s_va s) (callback_table p t) /\
    (forall o cs, holds (s_data x) o cs -> o + zlen cs <= t_callbacks t - s_va s \/ t_callbacks t + zlen (callback_table p t) - s_va s <= o -> holds (s_data y) o cs) /\
    forall k, 0 <= k -> k < t_callbacks t - s_va s \/ t_callbacks t + zlen (callback_table p t) - s_va s <= k -> nth (Z.to_nat k) (s_data y) 0 = nth (Z.to_nat k) (s_data x) 0.
Proof.
  intros St B V Oc Hm. unfold write_tls_callbacks. change (base_size (put_section p i x)) with (base_size p).
  assert (En : (zlen (t_list t) + 1) * Z.of_nat (base_size p) = zlen (callback_table p t)).
  { unfold callback_table. change (concat (map (le (word_size p)) ?l)) with (wordn (base_size p) l). rewrite wordn_len, zlen_app, zlen_map. change (zlen [0]) with 1. lia. }
  assert (Hsz : 0 < Z.of_nat (base_size p)) by (destruct (base_mod_cases p) as [(_ & -> & _)|(_ & -> & _)]; lia). pose proof (zlen_nonneg (t_list t)) as Zt.
  assert (Zc : Z.of_nat (base_size p) <= zlen (callback_table p t)) by (rewrite <- En; nia). pose proof Oc as Oc'. unfold occupies in Oc'. rewrite En. rewrite u32_small by lia.
  destruct (st_expand x (t_callbacks t) (zlen (callback_table p t)) St Oc ltac:(lia) ltac:(lia)) as (x' & -> & St' & [m Pd] & Lx). cbn [bind].
  destruct (st_length x' (t_callbacks t) RawData St' Oc ltac:(lia)) as (n & -> & Hn). destruct (st_length x' (t_callbacks t) VirtData St' Oc ltac:(lia)) as (n2 & -> & Hn2). cbn [bind].
  rewrite u64_small by lia. replace (n <? zlen (callback_table p t) - Z.of_nat (base_size p)) with false by lia. cbn [throw_if bind]. replace (n2 <? zlen (callback_table p t)) with false by lia. cbn [throw_if bind].
  replace (mmap (rva_to_va (put_section p i x')) (t_list t)) with (mmap (rva_to_va p) (t_list t)) by reflexivity.
  rewrite lock_vas by assumption. cbn [bind]. change (concat (map (le (base_size p)) (map (Z.add (imagebase p)) (t_list t) ++ [0]))) with (callback_table p t). rewrite rd_ok by lia. cbn [bind]. rewrite slice_all by lia.
  destruct (st_write x' (t_callbacks t) (callback_table p t) St' Oc ltac:(lia) (wordn_bytes (base_size p) _) ltac:(lia)) as [E Sw]. rewrite E. eexists. split; [reflexivity|]. split; [exact Sw|]. cbn [set_s_data s_data]. split; [apply holds_splice; lia|].
  split; [intros o cs H A; apply holds_splice_apart; [rewrite Pd; apply holds_ext, H|lia|lia|lia]|].
  intros k Hk A. rewrite nth_splice_out by lia. apply nth_padded. exists m. exact Pd.
Qed.
Lemma st_shows x a bs : last_state x -> s_va s <= a < s_va s + span (salign p) x -> holds (s_data x) (a - s_va s) bs \/ bs = [] -> shows (put_section p i x) a bs.
Proof.
  intros St Ra H. pose proof St as (Wx & Vx & Nx & Cx & Rx & Ox & Vs & Zd & Zs & Sp & IOx). exists (s_va s), (s_data x ++ zeros (span (salign p) x - zlen (s_data x))).
  assert (Lv : zlen (s_data x ++ zeros (span (salign p) x - zlen (s_data x))) = span (salign p) x) by (rewrite zlen_app, zlen_zeros by lia; lia).
  split; [|split; [lia|]].
  - apply (store_block p start i x s (s_data x)); try assumption; [|rewrite <- (st_raw x St); apply bytes_raw_view, Wx]. unfold stored. do 5 (split; [assumption|]). rewrite (st_raw x St). apply padded_refl.
  - destruct H as [H| ->]; [apply holds_ext, H|]. split; [lia|]. change (zlen (@nil Z)) with 0. split; [lia|]. reflexivity.
Qed.
End Grow.

(** ** Reading *)
Lemma tls_read p p5 t at_ : p_plus p5 = p_plus p -> imagebase p5 = imagebase p -> base_ok p -> valid_tls p t -> directory_exists p5 dir_tls = Ok true -> get_directory_rva p5 dir_tls = Ok at_ ->
  shows p5 at_ (enc_fields (tls_widths p) [(if t_start t =? 0 then 0 else imagebase p + t_start t); (if t_end t =? 0 then 0 else imagebase p + t_end t); imagebase p + t_index t; (if t_callbacks t =? 0 then 0 else imagebase p + t_callbacks t); t_zero t; t_chars t]) ->
  (t_start t <> 0 -> shows p5 (t_start t) (t_data t)) -> (t_callbacks t <> 0 -> shows p5 (t_callbacks t) (callback_table p t)) -> imagebase p + t_callbacks t + zlen (callback_table p t) <= base_mod p -> get_tls p5 = Ok t.
Proof.
  intros Ep Eb B V Dx Dr Se Sd Sc Hcb. pose proof V as (Vl & Vd & Vz & Vc & Vse & Ve & Vi0 & Vi & Vc0 & Vcb & Vs0 & Vs1 & Vcl). pose proof B as [B1 B2].
  set (sz := Z.of_nat (base_size p)) in *. assert (Hsz : sz = 4 \/ sz = 8) by (unfold sz; destruct (base_mod_cases p) as [(_ & -> & _)|(_ & -> & _)]; lia).
  assert (Ts : 24 <= tls_size p <= 40) by (rewrite tls_size_eq; destruct (p_plus p); lia).
  assert (Hst : t_start t <> 0 -> has_va p (t_start t)) by (intros Hne; destruct Ve as [Ve1 Ve2]; unfold has_va, is_u32 in *; lia).
  set (start' := if t_start t =? 0 then 0 else imagebase p + t_start t) in *. set (end' := if t_end t =? 0 then 0 else imagebase p + t_end t) in *. set (cb' := if t_callbacks t =? 0 then 0 else imagebase p + t_callbacks t) in *.
  set (e := enc_fields (tls_widths p) _) in *. assert (Le : zlen e = tls_size p) by (unfold e, tls_size; apply enc_fields_length; reflexivity).
  assert (Lt : 0 < zlen (callback_table p t)).
  { unfold callback_table. change (concat (map (le (word_size p)) ?l)) with (wordn (base_size p) l). rewrite wordn_len, zlen_app, zlen_map. change (zlen [0]) with 1. fold sz. pose proof (zlen_nonneg (t_list t)). lia. }
  assert (Ew : tls_widths p5 = tls_widths p) by (unfold tls_widths, base_size; rewrite Ep; reflexivity). assert (Esz : base_size p5 = base_size p) by (unfold base_size; rewrite Ep; reflexivity). assert (Em : base_mod p5 = base_mod p) by (unfold base_mod; rewrite Ep; reflexivity).
  assert (Bp : base_ok p5) by (unfold base_ok; rewrite Eb, Em; exact B). assert (Hv : forall r, has_va p r -> va_to_rva p5 (imagebase p + r) true = Ok r) by (intros r Hr; rewrite <- Eb; apply base_va; [exact Bp|unfold has_va; rewrite Eb, Em; exact Hr]).
  unfold get_tls. rewrite Dx. cbn [bind negb throw_if]. rewrite Dr. cbn [bind]. unfold tls_size. rewrite Ew. fold (tls_size p). rewrite (shows_read p5 _ e) by (exact Se || lia). cbn [bind]. rewrite <- (app_nil_r e). unfold e.
  assert (Bm : base_mod p = 256 ^ sz) by (unfold sz; destruct (base_mod_cases p) as [(-> & -> & _)|(-> & -> & _)]; reflexivity). assert (Bm2 : 2^32 <= base_mod p <= 2^64) by (destruct (base_mod_cases p) as [(-> & _)|(-> & _)]; lia).
  rewrite dec_enc_fields.
  2: { unfold tls_widths. cbn [fits]. fold sz. rewrite <- Bm. change (256 ^ Z.of_nat 4) with (2^32). unfold start', end', cb'. unfold has_va, is_u32 in *. destruct (Z.eqb_spec (t_start t) 0), (Z.eqb_spec (t_end t) 0), (Z.eqb_spec (t_callbacks t) 0); repeat split; try lia; exact I. }
  rewrite Em.
  assert (Fx : fix_addresses p5 start' end' = Ok (start', end')).
  { unfold fix_addresses. destruct (Z.eqb_spec end' start') as [Es|Es]; [|reflexivity]. pose proof (va_to_rva_safe p5 end' true) as Sf. destruct (Z.eqb_spec (t_start t) 0) as [E0|E0].
    - assert (Z1 : start' = 0) by (unfold start'; replace (t_start t =? 0) with true by lia; reflexivity). rewrite Z1 in Es. rewrite Z1, Es in *. destruct (va_to_rva p5 0 true); try reflexivity; destruct Sf.
    - unfold start' in Es. replace (t_start t =? 0) with false in Es by lia. rewrite Es. rewrite (Hv _ (Hst E0)). unfold start'. replace (t_start t =? 0) with false by lia. reflexivity. }
  rewrite Fx. cbn [bind].
  assert (F1 : field_rva p5 start' = Ok (t_start t)).
  { unfold field_rva, start'. destruct (Z.eqb_spec (t_start t) 0) as [E0|E0]; [rewrite E0; reflexivity|]. pose proof (Hst E0) as [_ Hx]. replace (imagebase p + t_start t =? 0) with false by lia. apply Hv, Hst, E0. }
  assert (F2 : field_rva p5 end' = Ok (t_end t)).
  { unfold field_rva, end'. destruct (Z.eqb_spec (t_end t) 0) as [E0|E0]; [rewrite E0; reflexivity|]. pose proof Ve as [_ Hx]. replace (imagebase p + t_end t =? 0) with false by lia. apply Hv, Ve. }
  assert (F3 : field_rva p5 (imagebase p + t_index t) = Ok (t_index t)).
  { unfold field_rva. pose proof Vi as [_ Hx]. replace (imagebase p + t_index t =? 0) with false by lia. apply Hv, Vi. }
  assert (F4 : field_rva p5 cb' = Ok (t_callbacks t)).
  { unfold field_rva, cb'. destruct (Z.eqb_spec (t_callbacks t) 0) as [E0|E0]; [rewrite E0; reflexivity|]. pose proof Vcb as [_ Hx]. replace (imagebase p + t_callbacks t =? 0) with false by lia. apply Hv, Vcb. }
  rewrite F1, F2, F3, F4.
  assert (Ck : (if start' =? 0 then Ok tt else len <- length_va p5 start' start' VirtData true ;; throw_if (len <? (end' - start') mod base_mod p) incorrect_tls_directory) = Ok tt).
  { unfold start', end'. destruct (Z.eqb_spec (t_start t) 0) as [E0|E0]; [reflexivity|]. pose proof (Hst E0) as [_ Hx]. replace (imagebase p + t_start t =? 0) with false by lia. unfold length_va. rewrite (Hv _ (Hst E0)). cbn [bind].
    destruct (shows_length _ _ _ (Sd E0)) as (x & -> & Lx). cbn [bind]. rewrite (Vs1 E0) in Lx. replace (t_end t =? 0) with false by lia. replace (imagebase p + t_end t - (imagebase p + t_start t)) with (t_end t - t_start t) by lia. 
    unfold has_va, is_u32 in Ve. rewrite Z.mod_small by lia. replace (x <? t_end t - t_start t) with false by lia. reflexivity. }
  rewrite Ck. cbn [bind].
  assert (Dt : (if (start' =? 0) || (start' =? end') then Ok [] else r <- va_to_rva p5 start' true ;; q <- ptr_rva p5 r VirtData true ;; rd (fst q) (snd q) (u32 ((end' - start') mod base_mod p))) = Ok (t_data t)).
  { unfold start', end'. destruct (Z.eqb_spec (t_start t) 0) as [E0|E0]; [rewrite (Vs0 E0); reflexivity|]. pose proof (Hst E0) as [_ Hx]. replace (imagebase p + t_start t =? 0) with false by lia. replace (t_end t =? 0) with false by lia. cbn [orb].
    destruct (Z.eqb_spec (imagebase p + t_start t) (imagebase p + t_end t)) as [E1|E1]; [specialize (Vs1 E0); destruct (t_data t) as [|x l]; [reflexivity|rewrite zlen_cons in Vs1; pose proof (zlen_nonneg l); lia]|].
    rewrite (Hv _ (Hst E0)). cbn [bind]. apply (shows_ptr p5 (t_start t) (t_data t)); [exact (Sd E0)|]. rewrite (Vs1 E0). replace (imagebase p + t_end t - (imagebase p + t_start t)) with (t_end t - t_start t) by lia. unfold has_va, is_u32 in Ve. rewrite Z.mod_small by lia. apply u32_small. lia. }
  rewrite Dt. cbn [bind].
  assert (Lc : (if t_callbacks t =? 0 then Ok [] else va_list p5 VirtData true (fun k => u32 (k + Z.of_nat (base_size p5))) (fun va => va_to_rva p5 va false) cb') = Ok (t_list t)).
  { unfold cb'. destruct (Z.eqb_spec (t_callbacks t) 0) as [E0|E0]; [rewrite (Vcl E0); reflexivity|]. pose proof (Sc E0) as S3. rewrite <- Eb.
    assert (Tl : zlen (callback_table p t) = sz * (zlen (t_list t) + 1)) by (unfold callback_table; change (concat (map (le (word_size p)) ?l)) with (wordn (base_size p) l); rewrite wordn_len, zlen_app, zlen_map; reflexivity).
    apply (va_list_ok p5 VirtData true _ (fun va => va_to_rva p5 va false)) with (ws := map (Z.add (imagebase p5)) (t_list t)); rewrite ?zlen_map, ?Esz, ?Em, ?Eb; fold sz; try assumption; try lia.
    - intros x X1 X2. apply u32_small. lia.
    - apply shows_words; [unfold sz in Hsz; lia|exact S3|]. apply Forall_app. split; [|constructor; [fold sz; rewrite <- Bm; lia|constructor]]. apply Forall_map. fold sz. rewrite <- Bm. apply (Forall_impl _ (fun r (Hr : has_va p r) => conj (Z.lt_le_incl _ _ (proj1 (proj2 Hr))) (proj2 (proj2 Hr))) Vl).
    - apply Forall_map. apply (Forall_impl _ (fun r (Hr : has_va p r) => not_eq_sym (Z.lt_neq _ _ (proj1 (proj2 Hr)))) Vl).
    - rewrite <- Eb. apply lock_conv_free; [exact Bp|]. unfold has_va in *. rewrite Eb, Em. exact Vl.
    - destruct S3 as (b & v & (_ & _ & Hb & _) & Hr & Hh). pose proof (holds_range _ _ _ Hh) as Rg. rewrite Tl in Rg. lia. }
  rewrite Lc. cbn [bind]. destruct t; reflexivity.
Qed.


(** ** The whole rebuilder *)
Lemma rebuild_tls_grown p start i t off save strip s : let pos := ceil_mult off (Z.of_nat (word_size p)) in
  0 <= off -> valid_tls p t -> (t_start t = 0 -> t_zero t = 0) -> room p start i (pos + tls_bytes p) -> pos + tls_bytes p < 2^31 -> unmapped p -> dirs_ok p -> dir_tls < nrva p <= 16 -> base_ok p ->
  nth_error (p_sections p) i = Some s -> S i = length (p_sections p) -> zlen (raw_view s) < 2^31 -> tls_grows p t s pos -> imagebase p + t_callbacks t + zlen (callback_table p t) <= base_mod p ->
  exists p', rebuild_tls p t i off true true ExpandRaw save strip = Ok (p', (s_va s + pos, tls_bytes p)) /\ same_headers p p' /\ image_ok p' start /\
    (if save then only_directory p p' dir_tls (s_va s + pos, tls_bytes p) else h_dirs (p_nt p') = h_dirs (p_nt p)) /\
    (forall j, j <> i -> nth_error (p_sections p') j = nth_error (p_sections p) j) /\
    (save = true -> get_tls p' = Ok t) /\ length (p_sections p') = length (p_sections p) /\
    exists x, nth_error (p_sections p') i = Some x /\ well_sized p x /\ s_name x = s_name s /\ s_va x = s_va s /\ s_chars x = s_chars s /\ span (salign p) s <= span (salign p) x /\
      (forall k, 0 <= k -> (k < pos \/ pos + tls_bytes p <= k) -> (t_start t <> 0 -> s_va s + k < t_start t \/ t_end t <= s_va s + k) ->
        (t_callbacks t <> 0 -> s_va s + k < t_callbacks t \/ t_callbacks t + zlen (callback_table p t) <= s_va s + k) -> byte_of x k = byte_of s k) /\
      holds (raw_view x) pos (enc_fields (tls_widths p) [(if t_start t =? 0 then 0 else imagebase p + t_start t); (if t_end t =? 0 then 0 else imagebase p + t_end t); imagebase p + t_index t; (if t_callbacks t =? 0 then 0 else imagebase p + t_callbacks t); t_zero t; t_chars t]) /\
      (t_start t <> 0 -> holds (raw_view x) (t_start t - s_va s) (t_data t) \/ t_data t = []) /\ (t_callbacks t <> 0 -> holds (raw_view x) (t_callbacks t - s_va s) (callback_table p t)).
Proof.
  intros pos Ho V Z0 R Hp U D N B Hs HL Lr (Ts1 & Pl1 & Pl2 & Ap3) Hcb. assert (Etb : tls_bytes p = tls_size p) by (symmetry; apply tls_size_eq). rewrite Etb in *. change (word_size p) with (base_size p) in *. pose proof V as (Vl & Vd & Vz & Vc & Vse & Ve & Vi0 & Vi & Vc0 & Vcb & Vs0 & Vs1 & Vcl).
  set (sz := Z.of_nat (base_size p)) in *. assert (Hsz : sz = 4 \/ sz = 8) by (unfold sz; destruct (base_mod_cases p) as [(_ & -> & _)|(_ & -> & _)]; lia).
  assert (Ts : 24 <= tls_size p <= 40) by (rewrite tls_size_eq; destruct (p_plus p); lia).
  assert (P4 : power_of_two sz) by (destruct Hsz as [-> | ->]; [exists 2|exists 3]; split; [lia|reflexivity|lia|reflexivity]).
  pose proof (ceil_mult_least off sz ltac:(lia)) as (_ & Q2 & Q3 & _). fold pos in Q2, Q3. pose proof R as (IO & Tt & s' & Hs' & Hz0 & Hf & Hv & Hr & _). rewrite Hs in Hs'. injection Hs' as <-.
  pose proof IO as ((Ps & Pf & L) & W & _). pose proof (nth_Forall _ _ _ _ W Hs) as Ws. pose proof B as [B1 B2]. pose proof (pow2_pos _ Ps) as Ps0.
  assert (Se : s_va s + span (salign p) s < 2^32) by (destruct IO as (G & W' & _ & _ & Ch & Ce); pose proof (chain_layout _ _ G W' Ch Ce) as (_ & _ & Sx & _); exact (nth_Forall _ _ _ _ Sx Hs)).
  assert (Al : align_up off sz = pos) by (apply align_up_small; [exact P4|lia|lia|fold pos; lia]).
  assert (Hq : 0 <= pos /\ pos + tls_size p <= span (salign p) s) by (split; [lia|exact Ts1]).
  set (total := pos + tls_size p) in *. destruct (open_room_ok p start i total total R ltac:(pose proof (ceil_mult_least total (falign p) (pow2_pos _ Pf)); lia)) as (s' & d0 & Hs' & Eo & Pd & L1 & L2 & L3). rewrite Hs in Hs'. injection Hs' as <-.
  set (M := Z.max (zlen d0) (Z.max (if t_start t =? 0 then 0 else t_end t - s_va s) (if t_callbacks t =? 0 then 0 else t_callbacks t + zlen (callback_table p t) - s_va s))).
  assert (Lt : 0 < zlen (callback_table p t)).
  { unfold callback_table. change (concat (map (le (word_size p)) ?l)) with (wordn (base_size p) l). rewrite wordn_len, zlen_app, zlen_map. change (zlen [0]) with 1. fold sz. pose proof (zlen_nonneg (t_list t)). lia. }
  assert (Cs : forall a, 0 <= a <= span (salign p) s -> ceil_mult a (salign p) <= span (salign p) s).
  { intros a Ha. pose proof (ceil_mult_least a (salign p) Ps0) as (_ & _ & _ & Q). apply Q; [unfold span; apply (ceil_mult_least _ _ Ps0)|lia]. }
  assert (HM : 0 <= M < 2^31 /\ s_va s + ceil_mult M (salign p) < 2^32).
  { assert (H0 : zlen d0 < 2^31 /\ s_va s + ceil_mult (zlen d0) (salign p) < 2^32) by (clear -Cs L1 L2 Hr Hq Se Hp Lr Ts; subst total; pose proof (zlen_nonneg d0); pose proof (Cs (zlen d0)); lia).
    assert (H1 : t_start t <> 0 -> t_end t - s_va s < 2^31 /\ s_va s + ceil_mult (t_end t - s_va s) (salign p) < 2^32) by (intros E0; apply Pl1, E0).
    assert (H2 : t_callbacks t <> 0 -> t_callbacks t + zlen (callback_table p t) - s_va s < 2^31 /\ s_va s + ceil_mult (t_callbacks t + zlen (callback_table p t) - s_va s) (salign p) < 2^32) by (intros E0; apply Pl2, E0).
    pose proof (zlen_nonneg d0). assert (HZ : s_va s + ceil_mult 0 (salign p) < 2^32) by (clear -Cs Hr Hq Se Ts; subst total; pose proof (Cs 0); lia).
    assert (HX : M < 2^31 /\ s_va s + ceil_mult M (salign p) < 2^32).
    { unfold M. apply Z.max_case; [exact H0|]. apply Z.max_case; [destruct (Z.eqb_spec (t_start t) 0) as [E0|E0]; [split; [reflexivity|exact HZ]|exact (H1 E0)]|destruct (Z.eqb_spec (t_callbacks t) 0) as [E0|E0]; [split; [reflexivity|exact HZ]|exact (H2 E0)]]. }
    destruct HX as [X1 X2]. split; [split; [clear -L1 Tt; unfold M; lia|exact X1]|exact X2]. }
  destruct HM as [HM HB].
  unfold rebuild_tls. fold sz. rewrite Al. rewrite (u32_small (tls_size p + pos)) by lia. replace (tls_size p + pos) with total by (unfold total; lia). rewrite Eo. cbn [bind].
  replace (t_end t <? t_start t) with false by lia. replace (t_index t =? 0) with false by lia. cbn [orb throw_if bind].
  assert (Hst : t_start t <> 0 -> has_va p (t_start t)) by (intros Hne; destruct Ve as [Ve1 Ve2]; unfold has_va, is_u32 in *; lia).
  set (start' := if t_start t =? 0 then 0 else imagebase p + t_start t). set (end' := if t_end t =? 0 then 0 else imagebase p + t_end t). set (cb' := if t_callbacks t =? 0 then 0 else imagebase p + t_callbacks t).
  replace (if t_start t =? 0 then Ok 0 else rva_to_va p (t_start t)) with (Ok start') by (unfold start'; destruct (Z.eqb_spec (t_start t) 0) as [E0|E0]; [reflexivity|]; destruct (Hst E0); rewrite rva_to_va_ok by (assumption || lia); reflexivity). cbn [bind].
  replace (if t_end t =? 0 then Ok 0 else rva_to_va p (t_end t)) with (Ok end') by (unfold end'; destruct (Z.eqb_spec (t_end t) 0) as [E0|E0]; [reflexivity|]; destruct Ve; rewrite rva_to_va_ok by (assumption || lia); reflexivity). cbn [bind].
  rewrite (rva_to_va_ok p (t_index t)) by (try apply Vi; assumption). cbn [bind].
  replace (if t_callbacks t =? 0 then Ok 0 else rva_to_va p (t_callbacks t)) with (Ok cb') by (unfold cb'; destruct (Z.eqb_spec (t_callbacks t) 0) as [E0|E0]; [reflexivity|]; destruct Vcb; rewrite rva_to_va_ok by (assumption || lia); reflexivity). cbn [bind].
  replace (if t_start t =? 0 then 0 else t_zero t) with (t_zero t) by (destruct (Z.eqb_spec (t_start t) 0) as [E0|E0]; [apply Z0, E0|reflexivity]).
  set (e := enc_fields (tls_widths p) _). assert (Le : zlen e = tls_size p) by (unfold e, tls_size; apply enc_fields_length; reflexivity).
  destruct (opened_fields s d0) as (_ & _ & O3 & _ & _ & O6 & _). rewrite O6. assert (Bd0 : bytes d0) by (apply (padded_bytes _ _ Pd), bytes_raw_view, Ws).
  rewrite wr_ok by (clear -L1 Hq Le; subst total; lia). cbn [bind]. set (d1 := splice d0 pos e). replace (set_s_data d1 (opened s d0)) with (opened s d1) by (unfold opened; destruct (unmap_virtual s); reflexivity).
  assert (Ld1 : zlen d1 = zlen d0) by (apply zlen_splice; unfold total in *; lia). assert (Bd1 : bytes d1) by (apply bytes_splice; [exact Bd0|apply bytes_enc_fields]).
  set (x1 := opened s d1). destruct (opened_fields s d1) as (F1 & F2 & F3 & F4 & F5 & F6 & F7 & F8).
  assert (St1 : last_state p start i s M x1).
  { unfold last_state, x1. rewrite F1, F2, F3, F4, F5, F6, F7, opened_span, Ld1. split; [apply opened_wf; try assumption; lia|]. do 5 (split; [reflexivity|]). split; [exact Hv|]. split; [clear -L1 Hq Ts; subst total; unfold M; lia|]. split; [clear -L2 Hr Hq; subst total; lia|]. split; [clear; lia|].
    apply (mid_ok p start i (zlen d1)); [exact IO|apply mid_self; assumption|pose proof (zlen_nonneg d1); unfold M in HM; lia]. }
  assert (K1 : forall k, 0 <= k -> (k < pos \/ pos + tls_size p <= k) -> nth (Z.to_nat k) (s_data x1) 0 = byte_of s k).
  { intros k Hk A. unfold x1. rewrite F6. unfold d1. rewrite nth_splice_out by (clear -Hk A L1 Hq Le; subst total; lia). exact (nth_padded _ _ _ Pd). }
  assert (H1s : holds (s_data x1) pos e) by (unfold x1; rewrite F6; apply holds_splice; clear -L1 Hq Le; subst total; lia).
  assert (Step2 : exists x2, (if true && negb (t_start t =? 0) && negb (t_start t =? t_end t) then write_tls_data (put_section p i x1) t ExpandRaw else Ok (put_section p i x1)) = Ok (put_section p i x2) /\ last_state p start i s M x2 /\
    (t_start t <> 0 -> holds (s_data x2) (t_start t - s_va s) (t_data t) \/ t_data t = []) /\ (forall o bs, holds (s_data x1) o bs -> (t_start t <> 0 -> apart (t_start t) (zlen (t_data t)) (s_va s + o) (zlen bs)) -> holds (s_data x2) o bs) /\
    forall k, 0 <= k -> (t_start t <> 0 -> s_va s + k < t_start t \/ t_end t <= s_va s + k) -> nth (Z.to_nat k) (s_data x2) 0 = nth (Z.to_nat k) (s_data x1) 0).
  { destruct (Z.eqb_spec (t_start t) 0) as [E0|E0]; cbn [negb andb]; [exists x1; split; [reflexivity|]; split; [exact St1|]; split; [intros X; contradiction|split; [intros; assumption|reflexivity]]|]. specialize (Vs1 E0).
    destruct (Z.eqb_spec (t_start t) (t_end t)) as [E1|E1]; cbn [negb andb].
    - exists x1. split; [reflexivity|]. split; [exact St1|]. split; [|split; [intros; assumption|reflexivity]]. intros _. right. destruct (t_data t) as [|b l]; [reflexivity|]. rewrite zlen_cons in Vs1. pose proof (zlen_nonneg l). lia.
    - destruct (Pl1 E0) as (Oc & Ap & _). destruct (st_data p start i s M IO U Hs HL Hf Hz0 HM HB x1 t St1 Oc) as (x2 & E & St2 & H2 & Pr & Nk); try assumption; [apply Hst, E0|apply Ve|unfold M; replace (t_start t =? 0) with false by lia; clear; lia|].
      exists x2. split; [exact E|]. split; [exact St2|]. split; [left; exact H2|]. split; [intros o bs H A; apply Pr; [exact H|]; specialize (A E0); unfold apart in A; clear -A Vs1 E0; try specialize (Vs1 E0); lia|]. intros k Hk A. apply Nk; [exact Hk|]. specialize (A E0). lia. }
  destruct Step2 as (x2 & -> & St2 & H2d & K2 & N2). cbn [bind].
  assert (Step3 : exists x3, (if true && negb (t_callbacks t =? 0) then write_tls_callbacks (put_section p i x2) t else Ok (put_section p i x2)) = Ok (put_section p i x3) /\ last_state p start i s M x3 /\
    (t_callbacks t <> 0 -> holds (s_data x3) (t_callbacks t - s_va s) (callback_table p t)) /\ (forall o bs, holds (s_data x2) o bs -> (t_callbacks t <> 0 -> apart (t_callbacks t) (zlen (callback_table p t)) (s_va s + o) (zlen bs)) -> holds (s_data x3) o bs) /\
    forall k, 0 <= k -> (t_callbacks t <> 0 -> s_va s + k < t_callbacks t \/ t_callbacks t + zlen (callback_table p t) <= s_va s + k) -> nth (Z.to_nat k) (s_data x3) 0 = nth (Z.to_nat k) (s_data x2) 0).
  { destruct (Z.eqb_spec (t_callbacks t) 0) as [E0|E0]; cbn [negb andb]; [exists x2; split; [reflexivity|]; split; [exact St2|]; split; [intros X; contradiction|split; [intros; assumption|reflexivity]]|].
    destruct (Pl2 E0) as (Oc & Ap & _). destruct (st_callbacks p start i s M IO U Hs HL Hf Hz0 HM HB x2 t St2 B Vl Oc) as (x3 & E & St3 & H3 & Pr & Nk); [unfold M; replace (t_callbacks t =? 0) with false by (clear -E0; lia); clear; lia|].
    exists x3. split; [exact E|]. split; [exact St3|]. split; [intros _; exact H3|]. split; [intros o bs H A; apply Pr; [exact H|]; specialize (A E0); unfold apart in A; clear -A Vs1 E0; try specialize (Vs1 E0); lia|]. intros k Hk A. apply Nk; [exact Hk|]. specialize (A E0). lia. }
  destruct Step3 as (x3 & -> & St3 & H3c & K3 & N3). cbn [bind].
  pose proof St3 as (W3 & _ & _ & _ & _ & O3' & _ & Z3 & _). assert (B3 : bytes (s_data x3)) by (pose proof (bytes_raw_view _ W3) as Bx; unfold raw_view in Bx; rewrite (no_old x3 O3') in Bx; exact Bx).
  destruct (st_sizes p start i s M IO Hs HL Hf Hz0 HM HB x3 (s_data x3) strip St3 B3 Z3) as (x & Er & St & Dx & Wz). replace (set_s_data (s_data x3) x3) with x3 in Er by (destruct x3; reflexivity). rewrite Er. cbn [bind].
  set (p4 := put_section p i x) in *. pose proof St as (Wx & Vx & Nx & Cx & Rx & Ox & Vsx & Zx & Zs & Sp & IO4).
  assert (Rx' : raw_view x = s_data x3) by (rewrite <- Dx; unfold raw_view; rewrite (no_old x Ox); reflexivity).
  assert (Rv : rva_from_section_offset (opened s d0) pos = s_va s + pos) by (unfold rva_from_section_offset; rewrite O3; apply u32_small; clear -Hq Ts Hz0 Se; lia). rewrite Rv.
  assert (Ksec : forall j, j <> i -> nth_error (p_sections p4) j = nth_error (p_sections p) j) by (intros j Hj; unfold p4, put_section; cbn [set_p_sections p_sections]; apply nth_error_upd_other; congruence).
  assert (Nx4 : nth_error (p_sections p4) i = Some x) by (apply put_get, (nth_lt _ _ _ Hs)). assert (Len4 : length (p_sections p4) = length (p_sections p)) by (unfold p4, put_section; cbn [set_p_sections p_sections]; apply upd_length).
  assert (Hse : holds (s_data x3) pos e).
  { apply K3; [apply K2; [exact H1s|]|]; intros E0; [destruct (Pl1 E0) as (_ & Ap & _)|destruct (Pl2 E0) as (_ & Ap & _)]; unfold apart in *; rewrite Le; lia. }
  assert (Hsd : t_start t <> 0 -> holds (s_data x3) (t_start t - s_va s) (t_data t) \/ t_data t = []).
  { intros E0. destruct (H2d E0) as [H|H]; [left|right; exact H]. apply K3; [exact H|]. intros E1. specialize (Ap3 E0 E1). unfold apart in *. lia. }
  assert (Fr : (forall k, 0 <= k -> (k < pos \/ pos + tls_size p <= k) -> (t_start t <> 0 -> s_va s + k < t_start t \/ t_end t <= s_va s + k) ->
        (t_callbacks t <> 0 -> s_va s + k < t_callbacks t \/ t_callbacks t + zlen (callback_table p t) <= s_va s + k) -> byte_of x k = byte_of s k) /\
      holds (raw_view x) pos e /\ (t_start t <> 0 -> holds (raw_view x) (t_start t - s_va s) (t_data t) \/ t_data t = []) /\ (t_callbacks t <> 0 -> holds (raw_view x) (t_callbacks t - s_va s) (callback_table p t))).
  { split; [|rewrite Rx'; split; [exact Hse|split; [exact Hsd|exact H3c]]]. intros k Hk A1 A2 A3. unfold byte_of at 1. rewrite Rx', (N3 k Hk A3), (N2 k Hk A2). exact (K1 k Hk A1). }
  destruct save; cbn [bind].
  2: { exists p4. split; [reflexivity|]. split; [reflexivity|]. split; [exact IO4|]. split; [reflexivity|]. split; [exact Ksec|]. split; [discriminate|]. split; [exact Len4|]. exists x. repeat (split; [assumption|]). exact Fr. }
  rewrite set_directory_ok by (try exact D; change (nrva p4) with (nrva p); unfold dir_tls in *; clear -N; lia). cbn [bind].
  set (p5 := store_dir p4 dir_tls (s_va s + pos, tls_size p)). exists p5. split; [reflexivity|]. split; [reflexivity|]. split; [exact IO4|].
  assert (Od : only_directory p p5 dir_tls (s_va s + pos, tls_size p)) by (apply store_dir_only; [exact D|unfold dir_tls; clear; lia|reflexivity]).
  split; [exact Od|]. split; [exact Ksec|]. split; [|split; [exact Len4|exists x; repeat (split; [assumption|]); exact Fr]]. intros _.
  assert (Hpos : 0 < s_va s + pos /\ s_va s + pos + tls_size p < 2^32) by (clear -Hq Hz0 Se; lia).
  pose proof (dir_is_at p5 dir_tls _ _ (proj1 Od) ltac:(change (nrva p5) with (nrva p); unfold dir_tls in *; lia) (proj2 N) ltac:(clear -Hpos; lia)) as (Dx5 & Dr5 & _).
  assert (Sw : forall a bs, s_va s <= a < s_va s + span (salign p) x -> holds (s_data x3) (a - s_va s) bs \/ bs = [] -> shows p5 a bs).
  { intros a bs Ha H. apply (shows_ext p4); try reflexivity. apply (st_shows p start i s M Hs HL Hf x a bs St Ha). rewrite Dx. exact H. }
  apply (tls_read p p5 t (s_va s + pos)); try assumption; try reflexivity.
  - change (shows p5 (s_va s + pos) e). apply Sw; [clear -Hq Ts Sp; lia|left]. replace (s_va s + pos - s_va s) with pos by (clear; lia). exact Hse.
  - intros E0. destruct (Pl1 E0) as (Oc & _). unfold occupies, send in Oc. apply Sw; [clear -Oc Sp; lia|]. exact (Hsd E0).
  - intros E0. destruct (Pl2 E0) as (Oc & _). unfold occupies, send in Oc. apply Sw; [clear -Oc Sp; lia|]. left. apply H3c, E0.
Qed.
