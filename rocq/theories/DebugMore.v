(** Proofs about the debug directory reader: COFF, CodeView and misc data, and the directory. *)
From Verif Require Export DebugFacts.

(** ** COFF data *)
Section Coff.
Variables (d : list Z) (n lva : Z).
Hypothesis (B : bytes d) (Hn : 0 <= n < (2^32 - 1) / 18) (Hl : 0 <= lva) (Hs : n * 18 + lva < 2^32) (Hd : n * 18 + lva <= zlen d).
Lemma step_at i acc name value sec ty class aux : 0 <= i < n -> symbol_at d (lva + 18 * i) name value sec ty class aux ->
  symbol_step d n lva (i, acc) =
    if (n <? i + aux) || (zlen d <? lva + 18 * (i + 1 + aux)) then Throw incorrect_debug_directory
    else if class =? 0x67 then Ok (inl (i + 1 + aux, acc ++ [mk_sym class i 0 0 (strip_nullbytes (slice d (18 * (i + 1)) (18 * aux))) true ty]))
    else if listedb sec ty class aux then
      x <- symbol_name d n lva (symbol_bytes name value sec ty class aux) ;; Ok (inl (i + 1 + aux, acc ++ [mk_sym class i sec value x false ty]))
    else Ok (inl (i + 1, acc)).
Proof.
  intros Hi S. pose proof S as (A1 & A2 & A3 & A4 & A5 & A6 & _). pose proof (symbol_rd _ _ _ _ _ _ _ _ S) as (Rd & R1 & R2).
  pose proof (symbol_fields name value sec ty class aux A1 A2 A3 A4 A5 A6) as (L & F0 & F8 & F12 & F14 & F16 & F17).
  unfold symbol_step. replace (i <? n) with true by lia. unfold sizeof_symbol. replace (i * 18 + lva) with (lva + 18 * i) by lia. rewrite Rd. cbn [bind]. cbv zeta.
  rewrite F8, F12, F14, F16, F17. rewrite sum_safe by (unfold is_u32, is_u8 in *; lia). unfold is_u8 in A6. unfold is_u32 in A2.
  assert (i + aux < 2^32) as Sm by lia. replace (i + aux <? 2^32) with true by lia. cbn [negb orb]. rewrite (u32_small (i + aux)) by lia.
  replace ((i + 1) * 18 + lva + aux * 18) with (lva + 18 * (i + 1 + aux)) by lia.
  match goal with |- context [throw_if ?c _] => destruct c eqn:C end; cbn [throw_if bind]; [reflexivity|]. apply orb_false_iff in C as [C1 C2].
  rewrite listedb_code by assumption. rewrite (u32_small (i + aux + 1)) by lia. replace (i + aux + 1) with (i + 1 + aux) by lia.
  destruct (class =? 103) eqn:K.
  - rewrite rd_ok by lia. cbn [bind]. replace ((i + 1) * 18) with (18 * (i + 1)) by lia. replace (aux * 18) with (18 * aux) by lia. reflexivity.
  - destruct (listedb sec ty class aux) eqn:LB.
    + assert (u32 (s16 sec) = sec) as ->; [|reflexivity]. apply listedb_spec in LB. unfold s16. unfold is_u16 in A3. assert (0 < sec < 2^15) as G by (unfold listed in LB; lia).
      replace (sec <? 2^15) with true by lia. apply u32_small. lia.
    + rewrite u32_small by lia. reflexivity.
Qed.
Lemma name_bytes off name value sec ty class aux : symbol_at d off name value sec ty class aux -> bytes name.
Proof.
  intros (A1 & _ & _ & _ & _ & _ & A7). apply stands_holds in A7. unfold symbol_bytes in A7. apply holds_app in A7 as [H _].
  rewrite <- (holds_slice d off name _ H eq_refl). apply bytes_slice, B.
Qed.
Lemma symbol_there i : 0 <= i < n -> exists name value sec ty class aux, symbol_at d (lva + 18 * i) name value sec ty class aux.
Proof. intros Hi. apply symbol_is; [exact B|lia|lia]. Qed.
Lemma coff_safe : safe (mloop big_fuel (symbol_step d n lva) (0, [])).
Proof.
  apply (mloop_safe (symbol_step d n lva) big_fuel (fun st => 0 <= fst st <= n + 1) (fun st => n + 1 - fst st)).
  - intros [i acc] Hi. cbn [fst] in *. split; [lia|]. destruct (Z.ltb_spec i n) as [C|C].
    + destruct (symbol_there i ltac:(lia)) as (name & value & sec & ty & class & aux & S). rewrite (step_at i _ _ _ _ _ _ _ ltac:(lia) S).
      pose proof S as (A1 & A2 & A3 & A4 & A5 & A6 & _). pose proof A6 as A6'. unfold is_u8 in A6'.
      match goal with |- context [if ?c then Throw _ else _] => destruct c eqn:C1 end; [exact I|]. apply orb_false_iff in C1 as [C1 C2].
      destruct (class =? 103); [cbn [fst]; lia|]. destruct (listedb sec ty class aux); [|cbn [fst]; lia].
      pose proof (symbol_fields name value sec ty class aux A1 A2 A3 A4 A5 A6) as (_ & F0 & _).
      pose proof (symbol_name_safe d n lva name (symbol_bytes name value sec ty class aux) ltac:(lia) Hl Hs A1 (name_bytes _ _ _ _ _ _ _ S) F0) as Sn.
      destruct (symbol_name _ _ _ _); cbn [bind]; try contradiction; [cbn [fst]; lia|exact I].
    + unfold symbol_step. replace (i <? n) with false by lia. exact I.
  - cbn [fst]. lia.
  - cbn [fst]. unfold big_fuel. lia.
Qed.
Lemma coff_to : forall k i acc r, 0 <= i -> nloop k (symbol_step d n lva) (i, acc) = Ok (inr r) -> exists l, r = acc ++ l /\ coff_list d n lva i l.
Proof.
  induction k as [|k IH]; intros i acc r Hi H; [discriminate|]. cbn [nloop] in H. destruct (Z.ltb_spec i n) as [C|C].
  - destruct (symbol_there i ltac:(lia)) as (name & value & sec & ty & class & aux & S). rewrite (step_at i _ _ _ _ _ _ _ ltac:(lia) S) in H.
    pose proof S as (A1 & A2 & A3 & A4 & A5 & A6 & _). pose proof A6 as A6'. unfold is_u8 in A6'.
    match type of H with context [if ?c then Throw _ else _] => destruct c eqn:C1 end; [discriminate|]. apply orb_false_iff in C1 as [C1 C2].
    destruct (Z.eqb_spec class 103) as [->|K].
    + apply IH in H as (l & -> & T); [|lia]. eexists. split; [rewrite <- app_assoc; reflexivity|]. cbn [app].
      eapply coff_file; try eassumption; try lia. apply strip_trimmed.
    + destruct (listedb sec ty class aux) eqn:LB.
      * pose proof (symbol_fields name value sec ty class aux A1 A2 A3 A4 A5 A6) as (_ & F0 & _).
        destruct (symbol_name d n lva (symbol_bytes name value sec ty class aux)) as [x| | |] eqn:En; cbn [bind] in H; try discriminate.
        apply (symbol_name_spec d n lva name _ ltac:(lia) Hl Hs A1 (name_bytes _ _ _ _ _ _ _ S) F0) in En.
        apply IH in H as (l & -> & T); [|lia]. eexists. split; [rewrite <- app_assoc; reflexivity|]. cbn [app].
        eapply coff_named; try eassumption; try lia. apply listedb_spec, LB.
      * apply IH in H as (l & -> & T); [|lia]. exists l. split; [reflexivity|].
        eapply coff_skip; try eassumption; try lia. intros LL. apply listedb_spec in LL. congruence.
  - unfold symbol_step in H. replace (i <? n) with false in H by lia. injection H as <-. exists []. split; [rewrite app_nil_r; reflexivity|]. apply coff_end. lia.
Qed.
Lemma coff_from i l : coff_list d n lva i l -> 0 <= i -> forall acc, exists k, Z.of_nat k <= Z.max 1 (n - i + 1) /\ nloop k (symbol_step d n lva) (i, acc) = Ok (inr (acc ++ l)).
Proof.
  induction 1 as [i C|i name value sec ty aux text l C S Ha Hr T _ IH|i name value sec ty class aux text l C S Ha Hr Ls Nm _ IH|i name value sec ty class aux l C S Ha Hr K Ls _ IH]; intros Hi acc.
  - exists 1%nat. split; [lia|]. cbn [nloop]. unfold symbol_step. replace (i <? n) with false by lia. rewrite app_nil_r. reflexivity.
  - pose proof S as (_ & _ & _ & _ & _ & A6 & _). unfold is_u8 in A6. destruct (IH ltac:(lia) (acc ++ [mk_sym 103 i 0 0 text true ty])) as (k & Hk & E). exists (Datatypes.S k). split; [lia|]. cbn [nloop].
    rewrite (step_at i _ _ _ _ _ _ _ ltac:(lia) S). replace ((n <? i + aux) || (zlen d <? lva + 18 * (i + 1 + aux))) with false by lia. rewrite Z.eqb_refl.
    rewrite <- (trimmed_unique _ _ T). rewrite E, <- app_assoc. reflexivity.
  - pose proof S as (A1 & A2 & A3 & A4 & A5 & A6 & _). pose proof A6 as A6'. unfold is_u8 in A6'. destruct (IH ltac:(lia) (acc ++ [mk_sym class i sec value text false ty])) as (k & Hk & E). exists (Datatypes.S k). split; [lia|]. cbn [nloop].
    rewrite (step_at i _ _ _ _ _ _ _ ltac:(lia) S). replace ((n <? i + aux) || (zlen d <? lva + 18 * (i + 1 + aux))) with false by lia.
    replace (class =? 103) with false by (unfold listed in Ls; lia). apply listedb_spec in Ls. rewrite Ls.
    pose proof (symbol_fields name value sec ty class aux A1 A2 A3 A4 A5 A6) as (_ & F0 & _).
    apply (symbol_name_spec d n lva name _ ltac:(lia) Hl Hs A1 (name_bytes _ _ _ _ _ _ _ S) F0) in Nm. rewrite Nm. cbn [bind]. rewrite E, <- app_assoc. reflexivity.
  - pose proof S as (A1 & A2 & A3 & A4 & A5 & A6 & _). pose proof A6 as A6'. unfold is_u8 in A6'. destruct (IH ltac:(lia) acc) as (k & Hk & E). exists (Datatypes.S k). split; [lia|]. cbn [nloop].
    rewrite (step_at i _ _ _ _ _ _ _ ltac:(lia) S). replace ((n <? i + aux) || (zlen d <? lva + 18 * (i + 1 + aux))) with false by lia.
    replace (class =? 103) with false by lia. replace (listedb sec ty class aux) with false; [exact E|]. symmetry. apply Bool.not_true_iff_false. intros LL. apply Ls, listedb_spec, LL.
Qed.
Lemma coff_loop l : mloop big_fuel (symbol_step d n lva) (0, []) = Ok l <-> coff_list d n lva 0 l.
Proof.
  split.
  - intros H. rewrite mloop_nloop in H. destruct (nloop (Pos.to_nat big_fuel) (symbol_step d n lva) (0, [])) as [[st|r]| | |] eqn:N; try discriminate. injection H as <-.
    apply coff_to in N as (l & -> & T); [exact T|lia].
  - intros T. destruct (coff_from 0 l T ltac:(lia) []) as (k & Hk & E). apply (mloop_exec _ _ k); [exact E|]. unfold big_fuel. lia.
Qed.
End Coff.
Ltac bb := unfold bytes; repeat (apply Forall_cons; [assumption|]); apply Forall_nil.
(** The header as numbers. *)
Lemma header_fields h : bytes h -> zlen h = 32 -> exists n lva r, zlen r = 6 /\ Forall is_u32 (n :: lva :: r) /\ h = concat (map (le 4) (n :: lva :: r)) /\
  dec_fields [4; 4; 4; 4; 4; 4; 4; 4]%nat h = n :: lva :: r /\ unle (slice h 0 4) = n /\ unle (slice h 4 4) = lva.
Proof.
  intros B L. do 32 (destruct h as [|? h]; [discriminate L|]). destruct h as [|? h]; [|exfalso; unfold zlen in L; cbn [length] in L; lia].
  assert (U : forall a b c e, bytes [a; b; c; e] -> is_u32 (unle [a; b; c; e]) /\ le 4 (unle [a; b; c; e]) = [a; b; c; e]).
  { intros a b c e Bb. split; [exact (unle_bound _ Bb)|apply le_unle_n; [exact Bb|reflexivity]]. }
  repeat match goal with H : bytes (_ :: _) |- _ => inversion H; subst; clear H end.
  repeat match goal with H : Forall _ (_ :: _) |- _ => inversion H; subst; clear H end.
  match goal with |- exists n lva r, _ /\ _ /\ [?a1;?a2;?a3;?a4;?b1;?b2;?b3;?b4;?c1;?c2;?c3;?c4;?d1;?d2;?d3;?d4;?e1;?e2;?e3;?e4;?f1;?f2;?f3;?f4;?g1;?g2;?g3;?g4;?h1;?h2;?h3;?h4] = _ /\ _ =>
    exists (unle [a1;a2;a3;a4]), (unle [b1;b2;b3;b4]), [unle [c1;c2;c3;c4]; unle [d1;d2;d3;d4]; unle [e1;e2;e3;e4]; unle [f1;f2;f3;f4]; unle [g1;g2;g3;g4]; unle [h1;h2;h3;h4]];
    destruct (U a1 a2 a3 a4) as [? E1]; [bb|]; destruct (U b1 b2 b3 b4) as [? E2]; [bb|];
    destruct (U c1 c2 c3 c4) as [? E3]; [bb|]; destruct (U d1 d2 d3 d4) as [? E4]; [bb|];
    destruct (U e1 e2 e3 e4) as [? E5]; [bb|]; destruct (U f1 f2 f3 f4) as [? E6]; [bb|];
    destruct (U g1 g2 g3 g4) as [? E7]; [bb|]; destruct (U h1 h2 h3 h4) as [? E8]; [bb|]
  end.
  split; [reflexivity|]. split; [repeat (apply Forall_cons; [assumption|]); apply Forall_nil|].
  split; [cbn [map concat]; rewrite E1, E2, E3, E4, E5, E6, E7, E8; reflexivity|].
  split; [reflexivity|]. split; reflexivity.
Qed.
