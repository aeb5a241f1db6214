(** Proofs that the export reader returns what the directory says (C73). *)
From Verif Require Export ExactTables ExactFacts ImportFacts.

Lemma export_string_text p rva s : readable p -> viewable p -> is_u32 rva -> (export_string p rva = Ok s <-> text p rva s).
Proof.
  intros R V Hr. rewrite <- (import_string_text p R V rva s Hr). unfold export_string, import_string.
  destruct (length_rva p rva rva VirtData true) as [n| | |]; cbn [bind]; try tauto. destruct (n <? 2); cbn [throw_if bind]; [split; discriminate|].
  destruct (ptr_rva p rva VirtData true) as [[d off]| | |]; cbn [bind]; try tauto. destruct (c_string d off n) as [[x|]| | |]; cbn [bind]; try tauto. split; discriminate.
Qed.

Section Exports.
Variables (p : pe) (dir size base nfuncs nnames funcs names ordinals : Z).
Hypotheses (R : readable p) (V : viewable p) (Hd : 0 <= dir) (Hz : 0 <= size) (Hds : dir + size < 2^32)
  (Hn : 0 <= nnames <= nfuncs) (Hf : nfuncs < 2^30) (Ff : 0 <= funcs) (Fn : 0 <= names) (Fo : 0 <= ordinals)
  (Hf2 : funcs + 4 * nfuncs < 2^32) (Hn2 : names + 4 * nnames < 2^32) (Ho2 : ordinals + 4 * nfuncs < 2^32).
Lemma word2 r : forall bs, read_rva p r 2 VirtData true = Ok bs -> is_u16 (unle bs) /\ shows p r (le 2 (unle bs)).
Proof. intros bs E. apply (shows_word p r 2 (unle bs) R). exists bs. split; [exact E|reflexivity]. Qed.
Lemma word4 r : forall bs, read_rva p r 4 VirtData true = Ok bs -> is_u32 (unle bs) /\ shows p r (le 4 (unle bs)).
Proof. intros bs E. apply (shows_word p r 4 (unle bs) R). exists bs. split; [exact E|reflexivity]. Qed.
Lemma read2 r w : is_u16 w -> shows p r (le 2 w) -> exists bs, read_rva p r 2 VirtData true = Ok bs /\ unle bs = w.
Proof. intros U S. apply (shows_word p r 2 w R). split; assumption. Qed.
Lemma read4 r w : is_u32 w -> shows p r (le 4 w) -> exists bs, read_rva p r 4 VirtData true = Ok bs /\ unle bs = w.
Proof. intros U S. apply (shows_word p r 4 w R). split; assumption. Qed.
Lemma scan_exact k o rva f : is_u32 rva -> (export_name_scan p dir size nnames names ordinals k (mk_exported o rva [] 0 []) = Ok f <->
  e_ordinal f = o /\ e_rva f = rva /\ name_shown p dir size nnames names ordinals k f).
Proof.
  intros Hr. unfold export_name_scan.
  set (body := fun i : Z =>
    if i <? nnames then
      o2 <- read_rva p (u32 (ordinals + i * 2)) 2 VirtData true ;;
      if k =? unle o2 then
        nrva <- read_rva p (u32 (names + i * 4)) 4 VirtData true ;;
        name <- export_string p (unle nrva) ;;
        if (dir + 4 <=? e_rva (mk_exported o rva [] 0 [])) && (e_rva (mk_exported o rva [] 0 []) <? u32 (dir + size)) then
          fwd <- export_string p (e_rva (mk_exported o rva [] 0 [])) ;;
          Ok (inr (mk_exported (e_ordinal (mk_exported o rva [] 0 [])) (e_rva (mk_exported o rva [] 0 [])) name (unle o2) fwd))
        else Ok (inr (mk_exported (e_ordinal (mk_exported o rva [] 0 [])) (e_rva (mk_exported o rva [] 0 [])) name (unle o2) []))
      else Ok (@inl Z exported (i + 1))
    else Ok (inr (mk_exported o rva [] 0 []))).
  assert (Step : forall i, 0 <= i -> body i =
    if i <? nnames then
      o2 <- read_rva p (ordinals + 2 * i) 2 VirtData true ;;
      if k =? unle o2 then
        nrva <- read_rva p (names + 4 * i) 4 VirtData true ;;
        name <- export_string p (unle nrva) ;;
        fwd <- (if (dir + 4 <=? rva) && (rva <? dir + size) then export_string p rva else Ok []) ;;
        Ok (inr (mk_exported o rva name (unle o2) fwd))
      else Ok (inl (i + 1))
    else Ok (inr (mk_exported o rva [] 0 []))).
  { intros i Hi. unfold body. destruct (Z.ltb_spec i nnames) as [L|L]; [|reflexivity]. cbn [e_rva e_ordinal]. rewrite !u32_small by lia. replace (ordinals + i * 2) with (ordinals + 2 * i) by lia. replace (names + i * 4) with (names + 4 * i) by lia.
    destruct (read_rva p (ordinals + 2 * i) 2 VirtData true) as [o2| | |]; cbn [bind]; try reflexivity. destruct (k =? unle o2); [|reflexivity].
    destruct (read_rva p (names + 4 * i) 4 VirtData true) as [nr| | |]; cbn [bind]; try reflexivity. destruct (export_string p (unle nr)) as [nm| | |]; cbn [bind]; try reflexivity.
    destruct ((dir + 4 <=? rva) && (rva <? dir + size)); [|reflexivity]. destruct (export_string p rva) as [fw| | |]; reflexivity. }
  split.
  - intros H. rewrite mloop_nloop in H. destruct (nloop (Pos.to_nat big_fuel) body 0) as [[st|x]| | |] eqn:N; try discriminate. injection H as ->.
    assert (K : forall n i, 0 <= i -> (forall j, 0 <= j < i -> other_name p ordinals k j) -> nloop n body i = Ok (inr f) -> e_ordinal f = o /\ e_rva f = rva /\ name_shown p dir size nnames names ordinals k f).
    { clear N. induction n as [|n IH]; intros i Hi Hj H; [discriminate|]. cbn [nloop] in H. rewrite Step in H by lia. destruct (Z.ltb_spec i nnames) as [L|L].
      - destruct (read_rva p (ordinals + 2 * i) 2 VirtData true) as [o2| | |] eqn:E2; try discriminate. cbn [bind] in H. apply word2 in E2. destruct E2 as [U2 S2]. destruct (Z.eqb_spec k (unle o2)) as [Ek|Ek].
        + destruct (read_rva p (names + 4 * i) 4 VirtData true) as [nr| | |] eqn:E4; try discriminate. cbn [bind] in H. apply word4 in E4. destruct E4 as [U4 S4].
          destruct (export_string p (unle nr)) as [nm| | |] eqn:En; try discriminate. cbn [bind] in H. apply export_string_text in En; [|assumption..]. rewrite <- Ek in *.
          assert (Fw : forall fw, (if (dir + 4 <=? rva) && (rva <? dir + size) then export_string p rva else Ok []) = Ok fw -> if (dir + 4 <=? rva) && (rva <? dir + size) then text p rva fw else fw = []).
          { intros fw Ef. destruct ((dir + 4 <=? rva) && (rva <? dir + size)); [apply export_string_text; assumption|injection Ef as <-; reflexivity]. }
          destruct (if (dir + 4 <=? rva) && (rva <? dir + size) then export_string p rva else Ok []) as [fw| | |]; try discriminate. cbn [bind] in H. injection H as <-. cbn [e_ordinal e_rva]. split; [reflexivity|]. split; [reflexivity|].
          left. exists i, (unle nr). cbn [e_name e_nord e_rva e_fwd]. split; [lia|]. do 6 (split; [assumption|]). split; [reflexivity|]. apply Fw. reflexivity.
        + apply (IH (i + 1)); [lia| |exact H]. intros j Hj2. destruct (Z.eq_dec j i) as [->|]; [|apply Hj; lia]. exists (unle o2). split; [congruence|]. split; assumption.
      - injection H as <-. cbn [e_ordinal e_rva]. split; [reflexivity|]. split; [reflexivity|]. right. split; [intros j Hj2; apply Hj; lia|]. split; [reflexivity|]. split; reflexivity. }
    apply (K _ 0 ltac:(lia) ltac:(intros j Hj; lia) N).
  - intros (E1 & E2 & Nm). destruct f as [o' rva' nm no fw]. cbn [e_ordinal e_rva] in E1, E2. subst o' rva'.
    assert (Skip : forall n m i r, 0 <= i -> (forall j, i <= j < i + Z.of_nat n -> j < nnames /\ other_name p ordinals k j) -> nloop m body (i + Z.of_nat n) = r -> nloop (n + m) body i = r).
    { induction n as [|n IH]; intros m i r Hi Hj E.
      - cbn [plus]. replace (i + Z.of_nat 0) with i in E by lia. exact E.
      - destruct (Hj i ltac:(lia)) as (Li & o2 & No & U & S). cbn [plus]. destruct (read2 _ _ U S) as (bs & Eb & Ev). erewrite nloop_next; cycle 1.
        { rewrite Step by lia. replace (i <? nnames) with true by lia. rewrite Eb. cbn [bind]. rewrite Ev. replace (k =? o2) with false by lia. reflexivity. }
        apply IH; [lia| |replace (i + 1 + Z.of_nat n) with (i + Z.of_nat (Datatypes.S n)) by lia; exact E]. intros j Hj2. apply Hj. lia. }
    destruct Nm as [(i & a & Hi & Ot & Uk & Sk & Ua & Sa & Tx & Eo & Fw)|(Ot & E1 & E2 & E3)]; cbn [e_name e_nord e_fwd e_rva] in *.
    + assert (E : nloop (Z.to_nat i + 1) body 0 = Ok (inr (mk_exported o rva nm no fw))).
      { apply Skip; [lia|intros j Hj; split; [lia|apply Ot; lia]|]. replace (0 + Z.of_nat (Z.to_nat i)) with i by lia. cbn [nloop]. rewrite Step by lia. replace (i <? nnames) with true by lia.
        destruct (read2 _ _ Uk Sk) as (bs & -> & Ev). cbn [bind]. rewrite Ev, Z.eqb_refl. destruct (read4 _ _ Ua Sa) as (bs4 & -> & Ev4). cbn [bind]. rewrite Ev4. rewrite (proj2 (export_string_text p a nm R V Ua) Tx). cbn [bind].
        destruct ((dir + 4 <=? rva) && (rva <? dir + size)); [rewrite (proj2 (export_string_text p rva fw R V Hr) Fw)|subst fw]; cbn [bind]; rewrite Eo; reflexivity. }
      eapply mloop_exec; [exact E|]. change (Zpos big_fuel) with (2^33 + 1). lia.
    + subst nm no fw. assert (E : nloop (Z.to_nat nnames + 1) body 0 = Ok (inr (mk_exported o rva [] 0 []))).
      { apply Skip; [lia|intros j Hj; split; [lia|apply Ot; lia]|]. replace (0 + Z.of_nat (Z.to_nat nnames)) with nnames by lia. cbn [nloop]. rewrite Step by lia. replace (nnames <? nnames) with false by lia. reflexivity. }
      eapply mloop_exec; [exact E|]. change (Zpos big_fuel) with (2^33 + 1). lia.
Qed.
Lemma functions_exact l : 0 <= base -> (export_functions p dir size base nfuncs nnames funcs names ordinals = Ok l <-> functions_at p dir size base nfuncs nnames funcs names ordinals 0 l).
Proof.
  intros Hb. unfold export_functions.
  set (body := fun st : Z * list exported => let '(ordinal, acc) := st in
    if ordinal <? nfuncs then
      r <- read_rva p (u32 (funcs + ordinal * 4)) 4 VirtData true ;;
      let rva := unle r in
      if rva =? 0 then Ok (@inl _ (list exported) (ordinal + 1, acc))
      else
        throw_if (negb (is_sum_safe base ordinal) || (0xFFFF <? base + ordinal)) incorrect_export_directory ;;;
        f <- export_name_scan p dir size nnames names ordinals ordinal (mk_exported (u16 (ordinal + base)) rva [] 0 []) ;;
        Ok (inl (ordinal + 1, acc ++ [f]))
    else Ok (inr acc)).
  assert (Step : forall k acc, 0 <= k -> body (k, acc) =
    if k <? nfuncs then
      r <- read_rva p (funcs + 4 * k) 4 VirtData true ;;
      if unle r =? 0 then Ok (inl (k + 1, acc))
      else
        if base + k <=? 0xFFFF then
        f <- export_name_scan p dir size nnames names ordinals k (mk_exported (base + k) (unle r) [] 0 []) ;;
        Ok (inl (k + 1, acc ++ [f]))
        else Throw incorrect_export_directory
    else Ok (inr acc)).
  { intros k acc Hk. unfold body. destruct (Z.ltb_spec k nfuncs) as [L|L]; [|reflexivity]. rewrite u32_small by lia. replace (funcs + k * 4) with (funcs + 4 * k) by lia.
    destruct (read_rva p (funcs + 4 * k) 4 VirtData true) as [r| | |]; cbn [bind]; try reflexivity. cbv zeta. destruct (unle r =? 0); [reflexivity|].
    destruct (Z.leb_spec (base + k) 0xFFFF) as [L2|L2].
    - replace (is_sum_safe base k) with true by (symmetry; apply is_sum_safe_spec; lia). replace (0xFFFF <? base + k) with false by lia. cbn [negb orb throw_if bind]. replace (u16 (k + base)) with (base + k) by (unfold u16; rewrite Z.mod_small; lia). reflexivity.
    - replace (0xFFFF <? base + k) with true by lia. rewrite orb_true_r. reflexivity. }
  split.
  - intros H. rewrite mloop_nloop in H. destruct (nloop (Pos.to_nat big_fuel) body (0, [])) as [[st|x]| | |] eqn:N; try discriminate. injection H as ->.
    assert (K : forall n k acc r, 0 <= k -> nloop n body (k, acc) = Ok (inr r) -> exists t, functions_at p dir size base nfuncs nnames funcs names ordinals k t /\ r = acc ++ t).
    { clear N l. induction n as [|n IH]; intros k acc r Hk H; [discriminate|]. cbn [nloop] in H. rewrite Step in H by lia. destruct (Z.ltb_spec k nfuncs) as [L|L].
      - destruct (read_rva p (funcs + 4 * k) 4 VirtData true) as [rv| | |] eqn:Er; try discriminate. cbn [bind] in H. apply word4 in Er. destruct Er as [Ur Sr]. assert (Hk1 : 0 <= k + 1) by lia. destruct (Z.eqb_spec (unle rv) 0) as [E0|E0].
        + destruct (IH _ _ _ Hk1 H) as (t & Ft & ->). exists t. split; [|reflexivity]. apply functions_unused; [lia|rewrite <- E0; exact Sr|exact Ft].
        + destruct (Z.leb_spec (base + k) 0xFFFF) as [L2|L2]; [|discriminate]. destruct (export_name_scan p dir size nnames names ordinals k (mk_exported (base + k) (unle rv) [] 0 [])) as [f| | |] eqn:Ef; try discriminate. cbn [bind] in H.
          apply scan_exact in Ef; [|exact Ur]. destruct Ef as (E1 & E2 & Nm). destruct (IH _ _ _ Hk1 H) as (t & Ft & ->). exists (f :: t). split; [|rewrite <- app_assoc; reflexivity].
          apply functions_next; rewrite ?E2; try assumption; lia.
      - injection H as <-. exists []. split; [apply functions_end; lia|rewrite app_nil_r; reflexivity]. }
    destruct (K _ 0 [] l ltac:(lia) N) as (t & Ft & ->). exact Ft.
  - intros F. assert (K : forall k l, functions_at p dir size base nfuncs nnames funcs names ordinals k l -> forall acc, 0 <= k -> exists n, nloop n body (k, acc) = Ok (inr (acc ++ l)) /\ Z.of_nat n <= Z.max 0 (nfuncs - k) + 1).
    { clear l F. induction 1 as [k L|k l L S F IH|k f l L N0 U S Hk2 Eo Nm F IH]; intros acc Hk.
      - exists 1%nat. split; [|lia]. cbn [nloop]. rewrite Step by lia. replace (k <? nfuncs) with false by lia. rewrite app_nil_r. reflexivity.
      - destruct (IH acc ltac:(lia)) as (n & E & Hn'). exists (Datatypes.S n). split; [|lia]. destruct (read4 _ 0 ltac:(unfold is_u32; lia) S) as (bs & Eb & Ev). erewrite nloop_next; [exact E|].
        rewrite Step by lia. replace (k <? nfuncs) with true by lia. rewrite Eb. cbn [bind]. rewrite Ev. reflexivity.
      - destruct (IH (acc ++ [f]) ltac:(lia)) as (n & E & Hn'). exists (Datatypes.S n). split; [|lia]. destruct (read4 _ _ U S) as (bs & Eb & Ev). erewrite nloop_next; [rewrite E, <- app_assoc; reflexivity|].
        rewrite Step by lia. replace (k <? nfuncs) with true by lia. rewrite Eb. cbn [bind]. rewrite Ev. replace (e_rva f =? 0) with false by lia. replace (base + k <=? 0xFFFF) with true by lia.
        rewrite (proj2 (scan_exact k (base + k) (e_rva f) f U)) by (split; [exact Eo|]; split; [reflexivity|exact Nm]). reflexivity. }
    destruct (K _ _ F [] ltac:(lia)) as (n & E & Hn'). eapply mloop_exec; [exact E|]. change (Zpos big_fuel) with (2^33 + 1). lia.
Qed.
End Exports.
Lemma export_bytes_eq a b c d e f g h i j k : enc_fields export_widths [a; b; c; d; e; f; g; h; i; j; k] =
  le 4 a ++ le 4 b ++ le 2 c ++ le 2 d ++ le 4 e ++ le 4 f ++ le 4 g ++ le 4 h ++ le 4 i ++ le 4 j ++ le 4 k.
Proof. unfold export_widths. cbn [enc_fields]. rewrite app_nil_r. reflexivity. Qed.
Lemma place_checks p rva n {A} (k : res A) (e : exc) r : (len <- length_rva p rva rva VirtData true ;; throw_if (len <? n) e ;;; k) = Ok r <-> room_at p rva n /\ k = Ok r.
Proof.
  unfold room_at. destruct (length_rva p rva rva VirtData true) as [len| | |]; cbn [bind]; try (split; [discriminate|intros [(? & H & _) _]; discriminate H]).
  destruct (Z.ltb_spec len n) as [L|L]; cbn [throw_if bind].
  - split; [discriminate|]. intros [(l & E & H) _]. injection E as ->. lia.
  - split; [intros H; split; [exists len; split; [reflexivity|lia]|exact H]|tauto].
Qed.
Lemma exports_exact p : readable p -> viewable p -> forall rva size want r, dir_is p dir_export (rva, size) -> dir_export < nrva p -> rva <> 0 ->
  (get_exports p want = Ok r <-> exports_shown p rva size want r).
Proof.
  intros R V rva size want r D N Hr. destruct (dir_get p dir_export R ltac:(unfold dir_export; lia)) as (rva' & size' & Ur & Us & D' & Er & Es & Ex).
  assert (rva' = rva /\ size' = size) as [-> ->] by (unfold dir_is in *; destruct D as [_ D], D' as [_ D']; rewrite D in D'; injection D'; split; congruence).
  unfold get_exports. rewrite (Ex N), Er, Es. replace (nrva p <=? dir_export) with false by lia. cbn [bind]. replace (rva =? 0) with false by lia. cbn [negb bind]. unfold is_u32 in Ur, Us.
  rewrite place_checks. unfold exports_shown.
  assert (Tail : forall (info : option export_info) base nf nn fu na od, is_u32 base -> is_u32 nf -> is_u32 nn -> is_u32 fu -> is_u32 na -> is_u32 od -> 
    ((if nf =? 0 then Ok (info, [])
        else
          throw_if (nf <? nn) incorrect_export_directory ;;;
          throw_if (((od =? 0) && negb (na =? 0)) || (negb (od =? 0) && (na =? 0)) || (fu =? 0) ||
                    (0xFFFFFFFF / 4 <=? nf) || (0xFFFFFFFF / 4 <? nn) ||
                    negb (is_sum_safe fu (u32 (nf * 4))) || negb (is_sum_safe na (u32 (nn * 4))) ||
                    negb (is_sum_safe od (u32 (nf * 4))) || negb (is_sum_safe rva size)) incorrect_export_directory ;;;
          l1 <- length_rva p fu fu VirtData true ;;
          throw_if (l1 <? nf * 4) incorrect_export_directory ;;;
          (if negb (na =? 0) then
             l2 <- length_rva p od od VirtData true ;;
             throw_if (l2 <? nn * 2) incorrect_export_directory ;;;
             l3 <- length_rva p na na VirtData true ;;
             throw_if (l3 <? nn * 4) incorrect_export_directory
           else Ok tt) ;;;
          l <- export_functions p rva size base nf nn fu na od ;;
          Ok (info, l)) = Ok r <-> fst r = info /\
    (if nf =? 0 then snd r = []
     else nn <= nf < 2^30 - 1 /\ (od = 0 <-> na = 0) /\ fu <> 0 /\
       fu + 4 * nf < 2^32 /\ na + 4 * nn < 2^32 /\ od + 4 * nf < 2^32 /\ rva + size < 2^32 /\
       room_at p fu (4 * nf) /\ (na <> 0 -> room_at p od (2 * nn) /\ room_at p na (4 * nn)) /\
       functions_at p rva size base nf nn fu na od 0 (snd r)))).
  { intros info base nf nn fu na od U1 U2 U3 U4 U5 U6. unfold is_u32 in *. destruct (Z.eqb_spec nf 0) as [E0|E0].
    - destruct r as [x l]. cbn [fst snd]. split; [intros H; injection H as -> <-; tauto|intros [-> ->]; reflexivity].
    - destruct (Z.ltb_spec nf nn) as [L|L]; cbn [throw_if bind]; [split; [discriminate|intros (_ & H & _); lia]|]. change (0xFFFFFFFF / 4) with (2^30 - 1).
      assert (Ck : forall a b, 0 <= a < 2^32 -> 0 <= b < 2^32 -> is_sum_safe a b = (a + b <? 2^32)).
      { intros a b Ha Hb. destruct (Z.ltb_spec (a + b) (2^32)) as [Q|Q]; [apply is_sum_safe_spec; lia|]. destruct (is_sum_safe a b) eqn:Y; [|reflexivity]. apply is_sum_safe_spec in Y; lia. }
      destruct (Z.leb_spec (2^30 - 1) nf) as [L2|L2].
      { rewrite !orb_true_r. cbn [orb throw_if bind]. split; [discriminate|intros (_ & H & _); lia]. }
      rewrite !(u32_small (_ * 4)) by lia. rewrite !Ck by lia.
      match goal with |- context [throw_if ?c] => destruct c eqn:C end; cbn [throw_if bind].
      { split; [discriminate|]. intros (_ & _ & Z1 & Z2 & Z3 & Z4 & Z5 & Z6 & _). lia. }
      rewrite place_checks. replace (nf * 4) with (4 * nf) by lia.
      assert (Mid : forall (k : res (option export_info * list exported)), ((if negb (na =? 0) then
             l2 <- length_rva p od od VirtData true ;;
             throw_if (l2 <? nn * 2) incorrect_export_directory ;;;
             l3 <- length_rva p na na VirtData true ;;
             throw_if (l3 <? nn * 4) incorrect_export_directory
           else Ok tt) ;;; k) = Ok r <-> (na <> 0 -> room_at p od (2 * nn) /\ room_at p na (4 * nn)) /\ k = Ok r).
      { intros k. destruct (Z.eqb_spec na 0) as [Ea|Ea]; cbn [negb].
        - cbn [bind]. tauto.
        - replace (nn * 2) with (2 * nn) by lia. replace (nn * 4) with (4 * nn) by lia.
          transitivity ((l2 <- length_rva p od od VirtData true ;; throw_if (l2 <? 2 * nn) incorrect_export_directory ;;; l3 <- length_rva p na na VirtData true ;; throw_if (l3 <? 4 * nn) incorrect_export_directory ;;; k) = Ok r).
          + destruct (length_rva p od od VirtData true) as [l2| | |]; cbn [bind]; try tauto. destruct (l2 <? 2 * nn); cbn [throw_if bind]; try tauto. destruct (length_rva p na na VirtData true) as [l3| | |]; cbn [bind]; tauto.
          + rewrite !place_checks. tauto. }
      rewrite Mid.
      assert (Fx : (l <- export_functions p rva size base nf nn fu na od ;; Ok (info, l)) = Ok r <-> fst r = info /\ functions_at p rva size base nf nn fu na od 0 (snd r)).
      { rewrite <- functions_exact; try assumption; try lia. destruct r as [x l]. cbn [fst snd]. destruct (export_functions p rva size base nf nn fu na od) as [l'| | |]; cbn [bind]; (split; [|intros [-> H]; congruence || (injection H as ->; reflexivity)]); try discriminate. intros H. injection H as -> ->. tauto. }
      rewrite Fx. split.
      + intros (P1 & P2 & -> & F). split; [reflexivity|]. split; [lia|]. split; [lia|]. split; [lia|]. do 4 (split; [lia|]). tauto.
      + intros (-> & _ & _ & _ & _ & _ & _ & _ & P1 & P2 & F). tauto. }
  split.
  - intros [P H]. bnd H h Eh. pose proof (read_rva_bytes _ _ _ _ _ _ R Eh) as Bh. pose proof (read_rva_len _ _ _ _ _ _ Eh) as Lh.
    pose proof (dec_fields_fits export_widths h Bh) as Ft. pose proof (enc_dec_fields export_widths h Bh Lh) as En.
    destruct (dec_fields export_widths h) as [|chars [|time [|major [|minor [|name [|base [|nf [|nn [|fu [|na [|od [|]]]]]]]]]]]]; try discriminate.
    cbn [fits export_widths] in Ft. change (256 ^ Z.of_nat 4) with (2^32) in Ft. change (256 ^ Z.of_nat 2) with (2^16) in Ft. destruct Ft as (F1 & F2 & F3 & F4 & F5 & F6 & F7 & F8 & F9 & F10 & F11 & _).
    rewrite export_bytes_eq in En.
    assert (Sh : shows p rva h) by (unfold shows; rewrite Lh; exact Eh). rewrite <- En in Sh.
    destruct want.
    + bnd H info Ei. bnd Ei dll Ed. injection Ei as <-. apply Tail in H; [|assumption..]. destruct H as [H1 H2]. apply export_string_text in Ed; [|assumption..].
      exists chars, time, major, minor, name, dll, base, nf, nn, fu, na, od. split; [repeat (apply Forall_cons; [assumption|]); apply Forall_nil|]. split; [exact F3|]. split; [exact F4|]. split; [exact P|]. split; [exact Sh|]. split; [split; assumption|exact H2].
    + cbn [bind] in H. apply Tail in H; [|assumption..]. destruct H as [H1 H2].
      exists chars, time, major, minor, name, [], base, nf, nn, fu, na, od. split; [repeat (apply Forall_cons; [assumption|]); apply Forall_nil|]. split; [exact F3|]. split; [exact F4|]. split; [exact P|]. split; [exact Sh|]. split; assumption.
  - intros (chars & time & major & minor & name & dll & base & nf & nn & fu & na & od & Fa & F3 & F4 & P & Sh & Wt & H2). split; [exact P|].
    repeat match type of Fa with Forall _ (_ :: _) => let U := fresh "U" in apply Forall_cons_iff in Fa; destruct Fa as [U Fa] end.
    rewrite <- export_bytes_eq in Sh. unfold shows in Sh. rewrite zlen_header in Sh by reflexivity. rewrite Sh. cbn [bind].
    rewrite <- (app_nil_r (enc_fields _ _)), dec_enc_fields by (cbn [fits export_widths]; change (256 ^ Z.of_nat 4) with (2^32); change (256 ^ Z.of_nat 2) with (2^16); unfold is_u32, is_u16 in *; tauto).
    destruct want.
    + destruct Wt as [Tx W]. rewrite (proj2 (export_string_text p name dll R V ltac:(assumption)) Tx). cbn [bind]. apply Tail; try assumption. split; assumption.
    + cbn [bind]. apply Tail; try assumption. split; assumption.
Qed.
Lemma exports_absent p want : directory_exists p dir_export = Ok false -> get_exports p want = Ok (None, []).
Proof. intros H. unfold get_exports. rewrite H. reflexivity. Qed.

(** ** Directories that are not there *)
Lemma dir_gone p id size : readable p -> 0 <= id < 16 -> 1 <= nrva p -> dir_is p id (0, size) \/ nrva p <= id -> directory_exists p id = Ok false.
Proof.
  intros R Hi Hn H. destruct R as ((L & F) & N & _). unfold directory_exists. rewrite u32_small by lia. destruct (Z.leb_spec id (nrva p - 1)) as [Q|Q]; [|reflexivity].
  destruct H as [[_ H]|H]; [|lia]. unfold nth_ub. assert (zlen (h_dirs (p_nt p)) = 16) as -> by (unfold zlen; lia).
  replace ((0 <=? id) && (id <? 16)) with true by lia. rewrite H. reflexivity.
Qed.
Lemma bound_absent p : directory_exists p dir_bound_import = Ok false -> get_bound_imports p = Ok [].
Proof. intros H. unfold get_bound_imports. rewrite H. reflexivity. Qed.
Lemma absent_all p : readable p -> 1 <= nrva p -> forall size,
  (dir_is p dir_tls (0, size) \/ nrva p <= dir_tls -> get_tls p = Throw directory_does_not_exist) /\
  (dir_is p dir_load_config (0, size) \/ nrva p <= dir_load_config -> get_config p = Throw directory_does_not_exist) /\
  (dir_is p dir_basereloc (0, size) \/ nrva p <= dir_basereloc -> forall abs, get_relocations p abs = Ok []) /\
  (dir_is p dir_bound_import (0, size) \/ nrva p <= dir_bound_import -> get_bound_imports p = Ok []) /\
  (dir_is p dir_export (0, size) \/ nrva p <= dir_export -> forall want, get_exports p want = Ok (None, [])).
Proof.
  intros R Hn size. repeat split.
  - intros H. apply tls_absent, (dir_gone _ _ size); try assumption. unfold dir_tls; lia.
  - intros H. apply config_absent, (dir_gone _ _ size); try assumption. unfold dir_load_config; lia.
  - intros H abs. apply relocations_absent, (dir_gone _ _ size); try assumption. unfold dir_basereloc; lia.
  - intros H. apply bound_absent, (dir_gone _ _ size); try assumption. unfold dir_bound_import; lia.
  - intros H want. apply exports_absent, (dir_gone _ _ size); try assumption. unfold dir_export; lia.
Qed.
Lemma readable_chars c p : readable p -> readable (with_nt (set_h_chars c) p).
Proof. unfold readable, dirs_ok, nrva. intros H. cbn [with_nt p_nt p_sections p_full set_h_chars h_dirs h_nrva]. exact H. Qed.
