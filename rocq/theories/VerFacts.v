(** Proofs: the version information reader stays near its data (C55). *)
From Verif Require Import ResDataFacts StoreFacts ManagerFacts.
From Verif Require Export SpecVer.

(** ** Outcomes *)
Definition fine (u f : bool) {A} (r : res A) : Prop := match r with Ub _ => u = true | Fuel => f = true | _ => True end.
Lemma fine_bind u f {A B} (x : res A) (g : A -> res B) : fine u f x -> (forall a, x = Ok a -> fine u f (g a)) -> fine u f (bind x g).
Proof. destruct x; cbn; intros H1 H2; try exact H1; try exact I. apply H2. reflexivity. Qed.
Lemma safe_fine u f {A} (r : res A) : safe r -> fine u f r.
Proof. destruct r; cbn; intros H; try exact I; contradiction. Qed.
Lemma fine_throw_if u f c e {B} (g : res B) : (c = false -> fine u f g) -> fine u f (throw_if c e ;;; g).
Proof. destruct c; cbn; [intros _; exact I|]. intros H. apply H. reflexivity. Qed.
Lemma mloop_fine u f {St A} p (body : St -> res (St + A)) (Inv : St -> Prop) (m : St -> Z) s :
  (forall s, Inv s -> match body s with Ok (inl s') => Inv s' /\ (f = false -> 0 <= m s' < m s) | Ok (inr _) => True | r => fine u f r end) ->
  Inv s -> (f = false -> 0 <= m s < Zpos p) -> fine u f (mloop p body s).
Proof.
  intros H Hi Hm. rewrite mloop_nloop. assert (Hm' : f = false -> 0 <= m s < Z.of_nat (Pos.to_nat p)) by (intros F; specialize (Hm F); rewrite positive_nat_Z; exact Hm).
  clear Hm. revert s Hi Hm'. generalize (Pos.to_nat p). intros n. induction n as [|n IH]; intros s Hi Hm; cbn [nloop].
  - cbn. destruct f; [reflexivity|]. specialize (Hm eq_refl). lia.
  - specialize (H s Hi). destruct (body s) as [[s'|a]|e|k|] eqn:E; cbn; try exact I; try exact H. destruct H as [Hi' D]. apply IH; [exact Hi'|]. intros F. specialize (D F). specialize (Hm F). lia.
Qed.

(** ** Words *)
Lemma align16 l : 0 < l < 65536 -> 0 <= align_up16 l 4 < 65536 /\ (l < 0xFFFD -> l <= align_up16 l 4).
Proof.
  intros H. assert (E : align_up16 l 4 = u16 (ceil_mult l 4)) by exact (align_up16_pow2 l 2 ltac:(lia) ltac:(lia)). rewrite E. unfold ceil_mult, u16. change (2 ^ 16) with 65536. split; [apply Z.mod_pos_bound; lia|].
  intros S. rewrite Z.mod_small; lia.
Qed.
Lemma w_scan_ok n : forall l, 2 * Z.of_nat n <= zlen l -> bytes l -> exists r, w_scan l n = Ok r /\ match r with
  | None => True
  | Some key => exists rest, l = wide_z key ++ rest /\ key_ok key /\ zlen key < Z.of_nat n
  end.
Proof.
  induction n as [|n IH]; intros l L B; cbn [w_scan]; [exists None; auto|]. destruct l as [|a [|b t]]; [unfold zlen in L; cbn [length] in L; lia|unfold zlen in L; cbn [length] in L; lia|].
  inversion B as [|? ? Ba B1]; subst. inversion B1 as [|? ? Bb Bt]; subst. rewrite !zlen_cons in L. destruct (a + 256 * b =? 0) eqn:E.
  - exists (Some []). split; [reflexivity|]. exists t. assert (a = 0) as -> by lia. assert (b = 0) as -> by lia. split; [reflexivity|]. split; [split; [constructor|intros []]|]. change (@zlen Z []) with 0. lia.
  - destruct (IH t ltac:(lia) Bt) as ([key|] & -> & K); cbn [bind option_map]; [|exists None; auto]. destruct K as (rest & -> & [K1 K2] & K3). eexists. split; [reflexivity|]. exists rest. split.
    + unfold wide_z. cbn [map concat]. rewrite le2. cbn [app]. f_equal; [lia|]. f_equal. lia.
    + split; [split; [constructor; [split; lia|exact K1]|]|rewrite zlen_cons; lia]. intros [H|H]; [lia|contradiction].
Qed.
Lemma zlen_wide_z k : zlen (wide_z k) = 2 * zlen k + 2.
Proof. unfold wide_z. rewrite zlen_app. fold (wide k). rewrite zlen_wide. reflexivity. Qed.
Lemma w_string_ok d off n : bytes d -> 0 <= off -> 0 <= n -> off + 2 * n <= zlen d -> exists r, w_string d off n = Ok r /\ match r with
  | None => True
  | Some key => holds d off (wide_z key) /\ key_ok key /\ zlen key < n
  end.
Proof.
  intros B O N L. unfold w_string. destruct (w_scan_ok (Z.to_nat n) (zdrop off d)) as (r & -> & K).
  - rewrite zlen_zdrop by lia. lia.
  - apply bytes_zdrop, B.
  - exists r. split; [reflexivity|]. destruct r as [key|]; [|exact I]. destruct K as (rest & E & K1 & K2). split; [|split; [exact K1|lia]].
    apply stands_holds. exists (ztake off d), rest. split; [rewrite <- E; unfold ztake, zdrop; symmetry; apply firstn_skipn|rewrite zlen_ztake; lia].
Qed.

Section Reader.
Context (u f : bool) (fuel : positive) (d : list Z) (len : Z).
Context (B : bytes d) (L : 0 <= len <= zlen d).
Context (Slack : u = false -> len + 65535 <= zlen d).
Context (Tame : f = false -> forall off w, 0 <= off -> off + 2 <= len -> rd_le d off 2 = Ok w -> w < 0xFFFD).
Context (Big : f = false -> 65536 < Zpos fuel).

Lemma rd_le2 off : 0 <= off -> off + 2 <= zlen d -> exists w, rd_le d off 2 = Ok w /\ 0 <= w < 65536.
Proof.
  intros O R. destruct (rd_le d off 2) as [w|e|k|] eqn:E.
  - exists w. split; [reflexivity|]. apply (rd_le_inv _ _ _ _ B) in E as [E _]. exact E.
  - exfalso. revert E. unfold rd_le. rewrite rd_ok by lia. discriminate.
  - exfalso. revert E. unfold rd_le. rewrite rd_ok by lia. discriminate.
  - exfalso. revert E. unfold rd_le. rewrite rd_ok by lia. discriminate.
Qed.
Definition block_post (pos : Z) (r : Z * Z * list Z) : Prop := let '(l, v, key) := r in
  0 < l < 65536 /\ (f = false -> l < 0xFFFD) /\ 0 <= v < 65536 /\ key_ok key /\ pos + 8 <= len /\ holds d (pos + 6) (wide_z key).
Lemma block_fine pos : 0 <= pos -> match block_at d len pos with Ok r => block_post pos r | r => fine u f r end.
Proof.
  intros P. unfold block_at. destruct (len <? pos + 8) eqn:E; cbn [throw_if bind fine]; [exact I|]. destruct (rd_le2 pos) as (l & E1 & L1); [lia|lia|]. destruct (rd_le2 (pos + 2)) as (v & E2 & L2); [lia|lia|].
  rewrite E1, E2. cbn [bind]. destruct (l =? 0) eqn:E3; cbn [throw_if bind fine]; [exact I|]. destruct (w_string_ok d (pos + 6) ((len - pos - 6) / 2) B) as (r & -> & K); [lia|lia|lia|]. cbn [bind].
  destruct r as [key|]; [|exact I]. destruct K as (K1 & K2 & K3). cbn [block_post]. split; [lia|]. split; [intros F; apply (Tame F pos l); [lia|lia|exact E1]|]. split; [lia|]. split; [exact K2|]. split; [lia|exact K1].
Qed.
Lemma value_pos_nonneg base key r : 0 <= base -> value_pos base key = Ok r -> 0 <= r.
Proof.
  intros Hb. unfold value_pos. cbv zeta. match goal with |- context [throw_if ?c _] => destruct c eqn:E end; cbn [throw_if bind]; [discriminate|]. intros [= <-]. match goal with |- 0 <= align_up ?x _ => pose proof (align_up_range x 4) as R end. apply R. unfold u32. apply Z.mod_pos_bound. lia.
Qed.
Lemma first_child_nonneg base v key r : first_child_pos base v key = Ok r -> 0 <= r.
Proof.
  unfold first_child_pos. cbv zeta. match goal with |- context [throw_if ?c _] => destruct c eqn:E end; cbn [throw_if bind]; [discriminate|]. intros [= <-]. unfold u32. apply Z.mod_pos_bound. lia.
Qed.
Lemma value_pos_fine base key : fine u f (value_pos base key).
Proof. unfold value_pos. cbv zeta. apply fine_throw_if. intros _. exact I. Qed.
Lemma first_child_fine base v key : fine u f (first_child_pos base v key).
Proof. unfold first_child_pos. cbv zeta. apply fine_throw_if. intros _. exact I. Qed.

(** The distance from the start of the block grows with each element. *)
Definition togo (base : Z) (pos : Z) : Z := Z.max 0 (65536 - u32 (pos - base)).
Lemma togo_range base pos : 0 <= togo base pos <= 65536.
Proof. unfold togo. pose proof (Z.mod_pos_bound (pos - base) (2 ^ 32)) as H. fold (u32 (pos - base)) in H. lia. Qed.
Lemma togo_less base size pos l : 0 <= size <= 65536 -> 0 < l < 65536 -> u32 (pos - base) < size -> f = false -> (f = false -> l < 0xFFFD) -> 0 <= togo base (u32 (pos + align_up16 l 4)) < togo base pos.
Proof.
  intros S Hl H F T. specialize (T F). destruct (align16 l Hl) as [A1 A2]. specialize (A2 T). unfold togo.
  assert (E : u32 (u32 (pos + align_up16 l 4) - base) = u32 (pos - base) + align_up16 l 4).
  { unfold u32. rewrite Zminus_mod_idemp_l. replace (pos + align_up16 l 4 - base) with (pos - base + align_up16 l 4) by lia. rewrite <- Zplus_mod_idemp_l. apply Z.mod_small. pose proof (Z.mod_pos_bound (pos - base) (2 ^ 32)) as H2. unfold u32 in H. lia. }
  rewrite E. pose proof (Z.mod_pos_bound (pos - base) (2 ^ 32)) as H2. fold (u32 (pos - base)) in H2. lia.
Qed.
Lemma u32_nonneg x : 0 <= u32 x. Proof. unfold u32. apply Z.mod_pos_bound. lia. Qed.

Lemma string_entry_fine base size pos m : 0 <= size <= 65536 -> 0 <= pos -> match string_entry d len base size (pos, m) with
  | Ok (inl (pos', _)) => 0 <= pos' /\ (f = false -> 0 <= togo base pos' < togo base pos) | Ok (inr _) => True | r => fine u f r end.
Proof.
  intros S P. unfold string_entry. destruct (u32 (pos - base) <? size) eqn:E; [|exact I]. pose proof (block_fine pos P) as Hb. destruct (block_at d len pos) as [[[l v] key]|e|k|]; cbn [bind]; try exact Hb.
  destruct Hb as (B1 & B2 & B3 & B4 & B5 & B6).
  assert (H : fine u f (if v =? 0 then Ok [] else vp <- value_pos pos key ;; throw_if (len <? vp + v) resource_incorrect_version_info ;;; s <- rd_units d vp v ;; Ok (strip_nullbytes s))).
  { destruct (v =? 0) eqn:V0; [exact I|]. apply fine_bind; [apply value_pos_fine|]. intros vp Hv. apply value_pos_nonneg in Hv; [|exact P]. apply fine_throw_if. intros C. unfold rd_units.
    destruct u eqn:Eu; [|rewrite rd_ok by (try lia; pose proof (Slack eq_refl) as SlackF; lia); exact I]. unfold rd. match goal with |- context [if ?c then _ else _] => destruct c end; cbn; [exact I|reflexivity]. }
  match type of H with fine _ _ ?x => destruct x as [s|e|k|] end; cbn [bind]; try exact H. split; [apply u32_nonneg|]. intros F. apply (togo_less base size pos l); [exact S|exact B1|lia|exact F|exact B2].
Qed.
Lemma strings_fine base size c : 0 <= size <= 65536 -> 0 <= c -> fine u f (mloop fuel (string_entry d len base size) (c, [])).
Proof.
  intros S C. apply mloop_fine with (Inv := fun st => 0 <= fst st) (m := fun st => togo base (fst st)); [|exact C|].
  - intros [pos m] P. cbn [fst] in *. pose proof (string_entry_fine base size pos m S P) as H. destruct (string_entry d len base size (pos, m)) as [[[pos' m']|r]|e|k|]; exact H.
  - intros F. pose proof (Big F) as BigF. pose proof (togo_range base c). cbn [fst]. lia.
Qed.
Lemma table_entry_fine base size pos m : 0 <= size <= 65536 -> 0 <= pos -> match table_entry fuel d len base size (pos, m) with
  | Ok (inl (pos', _)) => 0 <= pos' /\ (f = false -> 0 <= togo base pos' < togo base pos) | Ok (inr _) => True | r => fine u f r end.
Proof.
  intros S P. unfold table_entry. destruct (u32 (pos - base) <? size) eqn:E; [|exact I]. pose proof (block_fine pos P) as Hb. destruct (block_at d len pos) as [[[l v] key]|e|k|]; cbn [bind]; try exact Hb.
  destruct Hb as (B1 & B2 & B3 & B4 & B5 & B6). pose proof (first_child_fine pos v key) as Hc. destruct (first_child_pos pos v key) as [c|e|k|] eqn:Ec; cbn [bind]; try exact Hc. apply first_child_nonneg in Ec.
  pose proof (strings_fine pos l c ltac:(lia) Ec) as Hs. destruct (mloop fuel (string_entry d len pos l) (c, [])) as [values|e|k|]; cbn [bind]; try exact Hs.
  split; [apply u32_nonneg|]. intros F. apply (togo_less base size pos l); [exact S|exact B1|lia|exact F|exact B2].
Qed.
Lemma tables_fine base size c m : 0 <= size <= 65536 -> 0 <= c -> fine u f (mloop fuel (table_entry fuel d len base size) (c, m)).
Proof.
  intros S C. apply mloop_fine with (Inv := fun st => 0 <= fst st) (m := fun st => togo base (fst st)); [|exact C|].
  - intros [pos m'] P. cbn [fst] in *. pose proof (table_entry_fine base size pos m' S P) as H. destruct (table_entry fuel d len base size (pos, m')) as [[[pos' m'']|r]|e|k|]; exact H.
  - intros F. pose proof (Big F) as BigF. pose proof (togo_range base c). cbn [fst]. lia.
Qed.
Lemma pairs_fine vp v m : 0 <= vp -> 0 <= v < 65536 -> vp + v <= len -> fine u f (mloop fuel (pair_entry d vp v) (0, m)).
Proof.
  intros P V R. apply mloop_fine with (Inv := fun st => 0 <= fst st < 2 ^ 17) (m := fun st => Z.max 0 (65536 - fst st)); [|cbn [fst]; lia|].
  - intros [i m'] I0. cbn [fst] in *. unfold pair_entry. destruct (i <? v) eqn:E; [|exact I].
    assert (H : fine u f (a <- rd_le d (vp + i) 2 ;; b <- rd_le d (vp + 2 + i) 2 ;; Ok (a, b))).
    { unfold rd_le, rd. destruct u eqn:Eu; [|pose proof (Slack eq_refl) as SlackF]; repeat (match goal with |- context [if ?c then _ else _] => destruct c eqn:? end; cbn [bind fine]; try exact I; try reflexivity); lia. }
    destruct (rd_le d (vp + i) 2) as [a|e|k|]; cbn [bind] in *; try exact H. destruct (rd_le d (vp + 2 + i) 2) as [b|e|k|]; cbn [bind] in *; try exact H. unfold u32. rewrite Z.mod_small by lia. cbn [fst]. split; [lia|]. intros _. lia.
  - intros F. pose proof (Big F) as BigF. cbn [fst]. lia.
Qed.
Lemma var_entry_fine base size pos m : 0 <= size <= 65536 -> 0 <= pos -> match var_entry fuel d len base size (pos, m) with
  | Ok (inl (pos', _)) => 0 <= pos' /\ (f = false -> 0 <= togo base pos' < togo base pos) | Ok (inr _) => True | r => fine u f r end.
Proof.
  intros S P. unfold var_entry. destruct (u32 (pos - base) <? size) eqn:E; [|exact I]. pose proof (block_fine pos P) as Hb. destruct (block_at d len pos) as [[[l v] key]|e|k|]; cbn [bind]; try exact Hb.
  destruct Hb as (B1 & B2 & B3 & B4 & B5 & B6).
  assert (H : fine u f (if str_eqb key translation_key && negb (v =? 0) then vp <- value_pos pos key ;; throw_if (len <? vp + v) resource_incorrect_version_info ;;; mloop fuel (pair_entry d vp v) (0, m) else Ok m)).
  { match goal with |- context [if ?c then _ else _] => destruct c end; [|exact I]. apply fine_bind; [apply value_pos_fine|]. intros vp Hv. apply value_pos_nonneg in Hv; [|exact P]. apply fine_throw_if. intros C. apply pairs_fine; lia. }
  match type of H with fine _ _ ?x => destruct x as [s|e|k|] end; cbn [bind]; try exact H. split; [apply u32_nonneg|]. intros F. apply (togo_less base size pos l); [exact S|exact B1|lia|exact F|exact B2].
Qed.
Lemma vars_fine base size c m : 0 <= size <= 65536 -> 0 <= c -> fine u f (mloop fuel (var_entry fuel d len base size) (c, m)).
Proof.
  intros S C. apply mloop_fine with (Inv := fun st => 0 <= fst st) (m := fun st => togo base (fst st)); [|exact C|].
  - intros [pos m'] P. cbn [fst] in *. pose proof (var_entry_fine base size pos m' S P) as H. destruct (var_entry fuel d len base size (pos, m')) as [[[pos' m'']|r]|e|k|]; exact H.
  - intros F. pose proof (Big F) as BigF. pose proof (togo_range base c). cbn [fst]. lia.
Qed.
Lemma child_entry_fine size pos st : 0 <= size <= 65536 -> 0 <= pos < 2^32 -> match child_entry fuel d len size (pos, st) with
  | Ok (inl (pos', _)) => 0 <= pos' < 2^32 /\ (f = false -> 0 <= togo 0 pos' < togo 0 pos) | Ok (inr _) => True | r => fine u f r end.
Proof.
  intros S P. destruct st as [s t]. unfold child_entry. destruct (pos <? size) eqn:E; [|exact I]. match goal with |- context [throw_if ?c _] => destruct c end; cbn [throw_if bind fine]; [exact I|].
  pose proof (block_fine pos ltac:(lia)) as Hb. destruct (block_at d len pos) as [[[l v] key]|e|k|]; cbn [bind]; try exact Hb. destruct Hb as (B1 & B2 & B3 & B4 & B5 & B6).
  match goal with |- context [bind ?x _] => assert (H : fine u f x) end.
  { destruct (str_eqb key string_file_info); [|destruct (str_eqb key var_file_info); [|exact I]]; (apply fine_bind; [apply first_child_fine|]; intros c Ec; apply first_child_nonneg in Ec; apply fine_bind; [|intros x _; exact I]); [apply tables_fine|apply vars_fine]; lia. }
  match type of H with fine _ _ ?x => destruct x as [[s' t']|e|k|] end; cbn [bind]; try exact H. split; [unfold u32; apply Z.mod_pos_bound; lia|]. intros F. apply (togo_less 0 size pos l); [exact S|exact B1| |exact F|exact B2]. rewrite Z.sub_0_r. unfold u32. rewrite Z.mod_small; lia.
Qed.
Lemma children_fine size c st : 0 <= size <= 65536 -> 0 <= c < 2^32 -> fine u f (mloop fuel (child_entry fuel d len size) (c, st)).
Proof.
  intros S C. apply mloop_fine with (Inv := fun st => 0 <= fst st < 2^32) (m := fun st => togo 0 (fst st)); [|exact C|].
  - intros [pos st'] P. cbn [fst] in *. pose proof (child_entry_fine size pos st' S P) as H. destruct (child_entry fuel d len size (pos, st')) as [[[pos' st'']|r]|e|k|]; exact H.
  - intros F. pose proof (Big F) as BigF. pose proof (togo_range 0 c). cbn [fst]. lia.
Qed.
Lemma fixed_fine v key : fine u f (fixed_info d len v key).
Proof.
  unfold fixed_info. destruct (v =? 0); [exact I|]. apply fine_bind; [apply value_pos_fine|]. intros vp Hv. apply value_pos_nonneg in Hv; [|lia]. apply fine_throw_if. intros C. rewrite rd_ok by lia. cbn [bind].
  unfold ffi_widths. cbn [repeat dec_fields]. apply fine_throw_if. intros _. exact I.
Qed.
Lemma version_fine s t : fine u f (version_info_from fuel d len s t).
Proof.
  unfold version_info_from. apply fine_throw_if. intros C. destruct (rd_le2 0) as (l & -> & L1); [lia|lia|]. destruct (rd_le2 2) as (v & -> & L2); [lia|lia|]. cbn [bind].
  destruct (w_string_ok d 6 ((len - 6) / 2) B) as (r & -> & K); [lia|lia|lia|]. cbn [bind]. destruct r as [key|]; [|exact I]. apply fine_throw_if. intros _. apply fine_bind; [apply fixed_fine|]. intros i _.
  apply fine_bind; [apply first_child_fine|]. intros c Ec. assert (0 <= c < 2^32) as Hc.
  { split; [apply (first_child_nonneg _ _ _ _ Ec)|]. revert Ec. unfold first_child_pos. cbv zeta. match goal with |- context [throw_if ?x _] => destruct x end; cbn [throw_if bind]; [discriminate|]. intros [= <-]. unfold u32 at 1. apply Z.mod_pos_bound. lia. }
  apply fine_bind; [apply children_fine; lia|]. intros r _. exact I.
Qed.
End Reader.

(** ** The theorems *)
Lemma version_in_bounds fuel d slack s t : bytes d -> bytes slack -> 65535 <= zlen slack -> in_bounds (version_info_from fuel (d ++ slack) (zlen d) s t).
Proof.
  intros Bd Bs L. assert (Bb : bytes (d ++ slack)) by (apply Forall_app; split; assumption). assert (Ll : zlen (d ++ slack) = zlen d + zlen slack) by apply zlen_app. pose proof (zlen_nonneg d) as N.
  pose proof (version_fine false true fuel (d ++ slack) (zlen d) Bb ltac:(lia) ltac:(intros _; lia) ltac:(discriminate) ltac:(discriminate) s t) as H. destruct (version_info_from fuel (d ++ slack) (zlen d) s t); cbn in *; try exact I. discriminate H.
Qed.
Lemma version_ends d s t : bytes d -> no_huge_word d -> version_info_from big_fuel d (zlen d) s t <> Fuel.
Proof.
  intros Bd W E. pose proof (zlen_nonneg d) as N.
  assert (T : false = false -> forall off w, 0 <= off -> off + 2 <= zlen d -> rd_le d off 2 = Ok w -> w < 0xFFFD).
  { intros _ off w O R H. apply (rd_le_inv _ _ _ _ Bd) in H as [H1 H2]. apply (W off w); [apply stands_holds; exact H2|exact H1]. }
  pose proof (version_fine true false big_fuel d (zlen d) Bd ltac:(lia) ltac:(discriminate) T ltac:(intros _; reflexivity) s t) as H. rewrite E in H. discriminate H.
Qed.
