(** Proofs about the debug directory reader. *)
From Verif Require Export SpecDebug StoreFacts ReadersFacts ResDataFacts UtilsFacts.

(** ** Fields *)
Lemma field_of d off n v : 0 <= v < 256 ^ Z.of_nat n -> holds d off (le n v) -> unle (slice d off (Z.of_nat n)) = v.
Proof. intros Hv H. rewrite (holds_slice d off (le n v)); [apply unle_le_small, Hv|exact H|rewrite zlen_le; reflexivity]. Qed.
Lemma holds_field d off n : bytes d -> 0 <= off -> off + Z.of_nat n <= zlen d -> holds d off (le n (unle (slice d off (Z.of_nat n)))).
Proof.
  intros B H1 H2. unfold holds. rewrite zlen_le. split; [exact H1|]. split; [exact H2|]. symmetry. apply le_unle_n; [apply bytes_slice, B|].
  pose proof (zlen_slice d off (Z.of_nat n) H1 ltac:(lia) H2) as L. unfold zlen in L. lia.
Qed.
Lemma field_bound d off n : bytes d -> 0 <= off -> off + Z.of_nat n <= zlen d -> 0 <= unle (slice d off (Z.of_nat n)) < 256 ^ Z.of_nat n.
Proof.
  intros B H1 H2. pose proof (unle_bound (slice d off (Z.of_nat n)) (bytes_slice _ _ _ B)) as U. rewrite zlen_slice in U by lia. exact U.
Qed.
Lemma holds_self d : holds d 0 d.
Proof. unfold holds. split; [lia|]. split; [lia|]. apply slice_all. lia. Qed.
Lemma holds_part d off n : 0 <= off -> 0 <= n -> off + n <= zlen d -> holds d off (slice d off n).
Proof. intros H1 H2 H3. unfold holds. rewrite zlen_slice by lia. split; [lia|]. split; [lia|reflexivity]. Qed.
Lemma le_1 v : is_u8 v -> le 1 v = [v].
Proof. intros H. unfold is_u8 in H. cbn [le]. rewrite Z.mod_small by lia. reflexivity. Qed.
Lemma sum_safe a b : is_u32 b -> is_sum_safe a b = (a + b <? 2^32).
Proof.
  intros H. pose proof (is_sum_safe_spec a b H) as S. destruct (is_sum_safe a b), (a + b <? 2^32) eqn:E; try reflexivity; intuition (try discriminate; lia).
Qed.

(** ** COFF symbols *)
Lemma fcn_spec ty : is_u16 ty -> is_fcn ty = ((ty / 16) mod 4 =? 2).
Proof.
  intros H. unfold is_fcn. replace 48 with (Z.land (2^6 - 1) 48) by reflexivity. rewrite Z.land_assoc. rewrite land_mod by (unfold is_u16 in H; lia).
  replace ((ty / 16) mod 4) with (ty mod 2^6 / 16) by (unfold is_u16 in H; lia).
  assert (G : forall k, (k < 64)%nat -> (Z.land (Z.of_nat k) 48 =? 32) = (Z.of_nat k / 16 =? 2)).
  { intros k Hk. assert (F : forallb (fun k => Bool.eqb (Z.land (Z.of_nat k) 48 =? 32) (Z.of_nat k / 16 =? 2)) (seq 0 64) = true) by (vm_compute; reflexivity).
    rewrite forallb_forall in F. apply Bool.eqb_prop, F, in_seq. lia. }
  specialize (G (Z.to_nat (ty mod 2^6)) ltac:(lia)). rewrite Z2Nat.id in G by lia. exact G.
Qed.
Definition listedb (sec ty class aux : Z) : bool :=
  ((class =? 3) && (aux =? 0) && (sec =? 1)) || ((class =? 2) && ((ty / 16) mod 4 =? 2) && ((0 <? sec) && (sec <? 2^15))).
Lemma listedb_spec sec ty class aux : listedb sec ty class aux = true <-> listed sec ty class aux.
Proof. unfold listedb, listed. lia. Qed.
Lemma listedb_code sec ty class aux : is_u16 sec -> is_u16 ty ->
  ((class =? 3) && (aux =? 0) && (s16 sec =? 1)) || ((class =? 2) && is_fcn ty && (0 <? s16 sec)) = listedb sec ty class aux.
Proof.
  intros H1 H2. rewrite fcn_spec by exact H2. unfold listedb, s16, is_u16 in *. destruct (Z.ltb_spec sec (2^15)) as [C|C]; rewrite ?andb_true_r; [reflexivity|].
  replace (sec - 2^16 =? 1) with (sec =? 1) by lia. replace (0 <? sec - 2^16) with false by lia. rewrite !andb_false_r. reflexivity.
Qed.
Lemma symbol_fields name value sec ty class aux : zlen name = 8 -> is_u32 value -> is_u16 sec -> is_u16 ty -> is_u8 class -> is_u8 aux ->
  let b := symbol_bytes name value sec ty class aux in
  zlen b = 18 /\ slice b 0 8 = name /\ unle (slice b 8 4) = value /\ unle (slice b 12 2) = sec /\ unle (slice b 14 2) = ty /\ unle (slice b 16 1) = class /\ unle (slice b 17 1) = aux.
Proof.
  intros Hn Hv Hs Ht Hc Ha b. assert (L : zlen b = 18) by (unfold b, symbol_bytes; rewrite !zlen_app, !zlen_le, Hn; reflexivity).
  pose proof (holds_self b) as H. unfold b in H at 2. unfold symbol_bytes in H. change [class; aux] with ([class] ++ [aux]) in H.
  rewrite <- (le_1 class Hc), <- (le_1 aux Ha) in H. rewrite !holds_app, !zlen_le, Hn in H. destruct H as (H0 & H8 & H12 & H14 & H16 & H17).
  split; [exact L|]. split; [apply holds_slice; [exact H0|lia]|].
  split; [exact (field_of b 8 4 value Hv H8)|]. split; [exact (field_of b 12 2 sec Hs H12)|]. split; [exact (field_of b 14 2 ty Ht H14)|].
  split; [exact (field_of b 16 1 class Hc H16)|exact (field_of b 17 1 aux Ha H17)].
Qed.
Lemma symbol_is d off : bytes d -> 0 <= off -> off + 18 <= zlen d ->
  exists name value sec ty class aux, symbol_at d off name value sec ty class aux.
Proof.
  intros B H1 H2. exists (slice d off 8), (unle (slice d (off + 8) 4)), (unle (slice d (off + 12) 2)), (unle (slice d (off + 14) 2)), (unle (slice d (off + 16) 1)), (unle (slice d (off + 17) 1)).
  assert (L : zlen (slice d off 8) = 8) by (apply zlen_slice; lia).
  pose proof (field_bound d (off + 8) 4 B ltac:(lia) ltac:(lia)) as F1. pose proof (field_bound d (off + 12) 2 B ltac:(lia) ltac:(lia)) as F2. pose proof (field_bound d (off + 14) 2 B ltac:(lia) ltac:(lia)) as F3.
  pose proof (field_bound d (off + 16) 1 B ltac:(lia) ltac:(lia)) as F4. pose proof (field_bound d (off + 17) 1 B ltac:(lia) ltac:(lia)) as F5.
  assert (is_u8 (unle (slice d (off + 16) 1))) as C1 by exact F4. assert (is_u8 (unle (slice d (off + 17) 1))) as C2 by exact F5.
  split; [exact L|]. split; [exact F1|]. split; [exact F2|]. split; [exact F3|]. split; [exact C1|]. split; [exact C2|].
  apply stands_holds. unfold symbol_bytes. change [unle (slice d (off + 16) 1); unle (slice d (off + 17) 1)] with ([unle (slice d (off + 16) 1)] ++ [unle (slice d (off + 17) 1)]).
  rewrite <- (le_1 _ C1), <- (le_1 _ C2). rewrite !holds_app, !zlen_le, L. split; [apply holds_part; lia|].
  replace (off + 8 + Z.of_nat 4) with (off + 12) by lia. replace (off + 12 + Z.of_nat 2) with (off + 14) by lia. replace (off + 14 + Z.of_nat 2) with (off + 16) by lia.
  replace (off + 16 + Z.of_nat 1) with (off + 17) by lia.
  repeat split; try lia; (apply (holds_field d _ 4) || apply (holds_field d _ 2) || apply (holds_field d _ 1)); try exact B; lia.
Qed.
Lemma symbol_unique d off n1 v1 s1 t1 c1 a1 n2 v2 s2 t2 c2 a2 :
  symbol_at d off n1 v1 s1 t1 c1 a1 -> symbol_at d off n2 v2 s2 t2 c2 a2 -> n1 = n2 /\ v1 = v2 /\ s1 = s2 /\ t1 = t2 /\ c1 = c2 /\ a1 = a2.
Proof.
  intros (A1 & A2 & A3 & A4 & A5 & A6 & A7) (B1 & B2 & B3 & B4 & B5 & B6 & B7). apply stands_holds in A7, B7.
  pose proof (symbol_fields n1 v1 s1 t1 c1 a1 A1 A2 A3 A4 A5 A6) as (L1 & P1 & P2 & P3 & P4 & P5 & P6).
  pose proof (symbol_fields n2 v2 s2 t2 c2 a2 B1 B2 B3 B4 B5 B6) as (L2 & Q1 & Q2 & Q3 & Q4 & Q5 & Q6).
  apply (holds_slice d off _ 18) in A7; [|lia]. apply (holds_slice d off _ 18) in B7; [|lia]. rewrite <- A7 in P1, P2, P3, P4, P5, P6. rewrite <- B7 in Q1, Q2, Q3, Q4, Q5, Q6. repeat split; congruence.
Qed.
Lemma symbol_rd d off name value sec ty class aux : symbol_at d off name value sec ty class aux ->
  rd d off 18 = Ok (symbol_bytes name value sec ty class aux) /\ 0 <= off /\ off + 18 <= zlen d.
Proof.
  intros (A1 & A2 & A3 & A4 & A5 & A6 & A7). apply stands_holds in A7. pose proof (symbol_fields name value sec ty class aux A1 A2 A3 A4 A5 A6) as (L1 & _).
  pose proof (holds_range _ _ _ A7) as [R1 R2]. split; [|lia]. rewrite rd_ok by lia. f_equal. apply holds_slice; [exact A7|lia].
Qed.

(** *** Names *)
Lemma scan_or name : exists text rest, name = text ++ rest /\ ~ In 0 text /\ (rest = [] \/ exists r, rest = 0 :: r).
Proof.
  induction name as [|x name (text & rest & -> & N & R)]; [exists [], []; split; [reflexivity|]; split; [intros []|left; reflexivity]|].
  destruct (Z.eq_dec x 0) as [->|E].
  - exists [], (0 :: text ++ rest). split; [reflexivity|]. split; [intros []|right; eexists; reflexivity].
  - exists (x :: text), rest. split; [reflexivity|]. split; [|exact R]. intros [K|K]; [exact (E K)|exact (N K)].
Qed.
Lemma scan_unique t1 r1 t2 r2 : t1 ++ r1 = t2 ++ r2 -> ~ In 0 t1 -> ~ In 0 t2 -> (r1 = [] \/ exists r, r1 = 0 :: r) -> (r2 = [] \/ exists r, r2 = 0 :: r) -> t1 = t2.
Proof.
  revert t2; induction t1 as [|x t1 IH]; intros [|y t2] E N1 N2 H1 H2; [reflexivity| | |].
  - cbn [app] in E. destruct H1 as [->|[r ->]]; [discriminate|]. injection E as <- _. exfalso. apply N2. left. reflexivity.
  - cbn [app] in E. destruct H2 as [->|[r ->]]; [discriminate|]. injection E as -> _. exfalso. apply N1. left. reflexivity.
  - cbn [app] in E. injection E as -> E. f_equal. apply IH; try assumption; intros K; [apply N1|apply N2]; right; exact K.
Qed.
Lemma zero4 l : bytes l -> zlen l = 4 -> (unle l = 0 <-> l = [0; 0; 0; 0]).
Proof.
  intros B L. split; [|intros ->; reflexivity]. intros E. rewrite <- (le_unle_n 4 l B) by (unfold zlen in L; lia). rewrite E. reflexivity.
Qed.
Section Name.
Variables (d : list Z) (n lva : Z) (name sym : list Z).
Hypothesis (B : bytes d) (Hn : 0 <= n) (Hl : 0 <= lva) (Hs : n * 18 + lva < 2^32) (Ln : zlen name = 8) (Bn : bytes name) (E0 : slice sym 0 8 = name).
Let e04 : slice sym 0 4 = slice name 0 4.
Proof. rewrite <- E0. rewrite slice_slice by lia. reflexivity. Qed.
Let e44 : slice sym 4 4 = slice name 4 4.
Proof. rewrite <- E0. rewrite slice_slice by lia. reflexivity. Qed.
Lemma name_short : slice name 0 4 <> [0; 0; 0; 0] -> exists text rest, name = text ++ rest /\ ~ In 0 text /\ (rest = [] \/ exists r, rest = 0 :: r) /\ symbol_name d n lva sym = Ok text.
Proof.
  intros N4. destruct (scan_or name) as (text & rest & E & N & R). exists text, rest. split; [exact E|]. split; [exact N|]. split; [exact R|].
  unfold symbol_name. rewrite e04. pose proof (zero4 (slice name 0 4) (bytes_slice _ _ _ Bn) ltac:(apply zlen_slice; lia)) as Z4.
  replace (unle (slice name 0 4) =? 0) with false by (symmetry; apply Z.eqb_neq; tauto). cbn [negb].
  rewrite E0. unfold c_string. replace (0 <? 0) with false by lia. rewrite zdrop_0 by lia.
  assert (zlen text <= 8) by (rewrite <- Ln, E, zlen_app; pose proof (zlen_nonneg rest); lia).
  assert (exists r, name ++ [0] = text ++ 0 :: r) as [r Er].
  { rewrite E. destruct R as [->|[r ->]]; [exists []; rewrite app_nil_r; reflexivity|]. exists (r ++ [0]). rewrite <- app_assoc. reflexivity. }
  rewrite Er, c_scan_ok by (try exact N; lia). reflexivity.
Qed.
Lemma name_long : slice name 0 4 = [0; 0; 0; 0] -> let off := unle (slice name 4 4) in
  (is_u32 off /\ name = [0; 0; 0; 0] ++ le 4 off) /\
  symbol_name d n lva sym =
    if (n * 18 + lva + off <? 2^32) && (n * 18 + lva + off <=? zlen d) then
      r <- c_string d (n * 18 + lva + off) (zlen d - (n * 18 + lva + off)) ;; match r with Some x => Ok x | None => Throw incorrect_debug_directory end
    else Throw incorrect_debug_directory.
Proof.
  intros Z4 off. assert (Ho : is_u32 off) by (exact (field_bound name 4 4 Bn ltac:(lia) ltac:(lia))).
  split.
  { split; [exact Ho|]. rewrite <- Z4. unfold off. rewrite le_unle_n; [|apply bytes_slice, Bn|pose proof (zlen_slice name 4 4 ltac:(lia) ltac:(lia) ltac:(lia)) as L; unfold zlen in L; lia].
    replace name with (slice name 0 8) at 1 by (apply slice_all; lia). change 8 with (4 + 4). rewrite slice_split by lia. reflexivity. }
  unfold symbol_name. rewrite e04, Z4. cbn [unle]. change (0 + 256 * (0 + 256 * (0 + 256 * (0 + 256 * 0))) =? 0) with true. cbn [negb]. rewrite e44. fold off. cbv zeta. unfold sizeof_symbol.
  replace (lva + n * 18) with (n * 18 + lva) by lia. rewrite (u32_small (n * 18 + lva)) by lia. rewrite sum_safe by exact Ho.
  destruct (Z.ltb_spec (n * 18 + lva + off) (2^32)) as [C|C]; cbn [negb andb throw_if bind]; [|reflexivity].
  rewrite u32_small by (unfold is_u32 in Ho; lia). destruct (Z.leb_spec (n * 18 + lva + off) (zlen d)) as [D|D]; cbn [negb andb throw_if bind].
  - replace (zlen d <? n * 18 + lva + off) with false by lia. reflexivity.
  - replace (zlen d <? n * 18 + lva + off) with true by lia. reflexivity.
Qed.
Lemma symbol_name_safe : safe (symbol_name d n lva sym).
Proof.
  destruct (list_eq_dec Z.eq_dec (slice name 0 4) [0; 0; 0; 0]) as [Z4|Z4].
  - destruct (name_long Z4) as [[Ho _] ->]. cbv zeta. match goal with |- context [if ?c then _ else _] => destruct c eqn:C end; [|exact I]. apply andb_true_iff in C as [C1 C2].
    unfold is_u32 in Ho. destruct (c_string_safe d (n * 18 + lva + unle (slice name 4 4)) (zlen d - (n * 18 + lva + unle (slice name 4 4))) ltac:(lia) ltac:(lia)) as (r & -> & _). cbn [bind]. destruct r; exact I.
  - destruct (name_short Z4) as (text & rest & _ & _ & _ & ->). exact I.
Qed.
Lemma symbol_name_spec text : symbol_name d n lva sym = Ok text <-> symbol_text d (lva + 18 * n) name text.
Proof.
  destruct (list_eq_dec Z.eq_dec (slice name 0 4) [0; 0; 0; 0]) as [Z4|Z4].
  - pose proof (name_long Z4) as [[Ho En] ->]. cbv zeta in *. set (off := unle (slice name 4 4)) in *. clearbody off. split.
    + match goal with |- context [if ?c then _ else _] => destruct c eqn:C end; [|discriminate]. apply andb_true_iff in C as [C1 C2]. intros H. unfold is_u32 in Ho.
      destruct (c_string_safe d (n * 18 + lva + off) (zlen d - (n * 18 + lva + off)) ltac:(lia) ltac:(lia)) as (r & Er & Hr). rewrite Er in H. cbn [bind] in H.
      destruct r as [x|]; [|discriminate]. assert (x = text) as -> by congruence. destruct (Hr text eq_refl) as (N & L & Hh). rewrite En.
      apply named_long; [exact Ho|exact N|lia|]. apply stands_holds. replace (lva + 18 * n + off) with (n * 18 + lva + off) by lia. exact Hh.
    + intros H. inversion H as [t r F L N R E1 E2|off' t U N S St E1 E2].
      * exfalso. apply F. rewrite <- E2, E1. exact Z4.
      * assert (off' = off) as ->.
        { rewrite En in E1. apply app_inv_head in E1. apply (f_equal unle) in E1. rewrite !unle_le_small in E1 by assumption. exact E1. }
        apply stands_holds in St. replace (lva + 18 * n + off) with (n * 18 + lva + off) in St by lia. pose proof (holds_range _ _ _ St) as [R1 R2]. rewrite zlen_app in R2. change (zlen [0]) with 1 in R2. pose proof (zlen_nonneg text).
        replace ((n * 18 + lva + off <? 2^32) && (n * 18 + lva + off <=? zlen d)) with true by lia. rewrite (c_string_ok _ _ text) by (try assumption; lia). reflexivity.
  - destruct (name_short Z4) as (t & rest & E & N & R & ->). split.
    + intros H. assert (t = text) as -> by congruence. rewrite E. apply named_short; [rewrite <- E; exact Z4|rewrite <- E; exact Ln|exact N|exact R].
    + intros H. inversion H as [t' r' F L N' R' E1 E2|off' t' U N' S St E1 E2].
      * f_equal. apply (scan_unique t rest text r'); try assumption. congruence.
      * exfalso. apply Z4. rewrite <- E1. reflexivity.
Qed.
End Name.
