(** Rewriting import tables where they are: the writers of section [i] do not depend on the other sections. *)
From Verif Require Export SpecRewrite ImportFacts TlsRound.

Lemma upd_comm {A} (l : list A) : forall i j x y, i <> j -> upd (upd l i x) j y = upd (upd l j y) i x.
Proof. induction l as [|z l IH]; intros [|i] [|j] x y H; cbn [upd]; try reflexivity; [congruence|]. f_equal. apply IH. congruence. Qed.
Lemma put_comm p i j x y : i <> j -> put_section (put_section p i x) j y = put_section (put_section p j y) i x.
Proof. intros H. unfold put_section. cbn [set_p_sections p_sections]. rewrite upd_comm by exact H. destruct p; reflexivity. Qed.
Lemma opened_data s d d' : opened s d = opened s d' -> d = d'.
Proof. intros H. apply (f_equal s_data) in H. exact H. Qed.
Lemma nth_splice (d bs : list Z) off k : 0 <= off -> off + zlen bs <= zlen d -> 0 <= k -> k < off \/ off + zlen bs <= k -> nth (Z.to_nat k) (splice d off bs) 0 = nth (Z.to_nat k) d 0.
Proof.
  intros H1 H2 H3 H. unfold splice. pose proof (zlen_nonneg bs). assert (L : zlen (ztake off d) = off) by (apply zlen_ztake; lia). destruct H as [H|H].
  - rewrite app_nth1 by (unfold zlen in *; lia). rewrite nth_ztake by lia. reflexivity.
  - rewrite app_nth2 by (unfold zlen in *; lia). rewrite app_nth2 by (unfold zlen in *; lia). unfold zdrop. rewrite nth_skipn. f_equal. unfold zlen in *. lia.
Qed.
Definition no_rewrite (o : import_settings) : import_settings :=
  mk_settings (o_offset o) (o_build o) (o_save o) (o_fill o) (o_headers o) (o_zero_iat o) false (o_strip o).
Section Uni.
Variables (p : pe) (i : nat) (s : section).
Local Notation n := (word_size p).
Local Notation sz := (Z.of_nat (word_size p)).
Local Notation Img P d := (put_section P i (opened s d)).
Definition good (P : pe) : Prop := exists ls, P = set_p_sections ls p /\ nth_error ls i = Some s.
Notation data_state := (list Z * Z * (Z * Z) * (Z * Z))%type.
Definition image (P : pe) (st : data_state) : import_state := let '(d, str, ipos, opos) := st in (Img P d, str, ipos, opos).
Definition put_d (d : list Z) (pos : Z * Z) (v : Z) : res (list Z * (Z * Z)) :=
  d' <- wr d (snd pos) (le n v) ;; Ok (d', (fst pos, u32 (snd pos + sz))).
Definition import_d (sv wo : bool) (st : data_state) (f : imported) : res data_state :=
  let '(d, str, ipos, opos) := st in
  let v := if by_name f then u32 (s_va s + str) else Z.lor (m_ordinal f) (snap_flag p) in
  ' (d1, ipos1) <- (if sv then Ok (d, ipos) else if wo then put_d d ipos (m_iat f mod base_mod p) else if by_name f || false then put_d d ipos v else ' (d', _) <- put_d d ipos v ;; Ok (d', ipos)) ;;
  ' (d2, opos1) <- (if wo then put_d d1 opos v else Ok (d1, opos)) ;;
  if by_name f then
    d3 <- wr d2 str (le 2 (m_hint f)) ;;
    d4 <- wr d3 (str + 2) (m_name f ++ [0]) ;;
    Ok (d4, u32 (str + u32 (zlen (m_name f) + 1 + 2)), ipos1, opos1)
  else Ok (d2, str, ipos1, opos1).
Definition library_d (o : import_settings) (st : data_state * Z) (l : library) : res (data_state * Z) :=
  let '((d, str, (_, ipos), (_, opos)), dpos) := st in
  let sv := o_save o && negb (l_iat l =? 0) in
  let wo := (negb sv && o_build o) || o_fill o in
  let new_oft := u32 (s_va s + opos) in
  let oft := if o_build o then if sv then if (l_oiat l =? 0) && o_fill o then new_oft else l_oiat l else new_oft else 0 in
  let ft := if sv then l_iat l else u32 (s_va s + ipos) in
  d1 <- wr d dpos (enc_fields descriptor_widths [oft; l_time l; 0; u32 (s_va s + str); ft]) ;;
  d2 <- wr d1 str (l_name l ++ [0]) ;;
  ' (d3, str1, ipos1, opos1) <- mfold (import_d sv wo) (l_funcs l) (d2, u32 (str + u32 (zlen (l_name l) + 1)), (ft, ipos), (oft, opos)) ;;
  ' (d4, ipos2) <- (if sv then Ok (d3, ipos1) else put_d d3 ipos1 0) ;;
  ' (d5, opos2) <- (if wo then put_d d4 opos1 0 else Ok (d4, opos1)) ;;
  Ok ((d5, str1, ipos2, opos2), u32 (dpos + 20)).
Lemma good_get P d : good P -> get_section (Img P d) i = Ok (opened s d).
Proof. intros (ls & -> & H). apply get_section_ok, put_get, (nth_lt _ _ _ H). Qed.
Lemma good_wr P d pos bs : good P -> wr_section (Img P d) i pos bs = (d' <- wr d pos bs ;; Ok (Img P d')).
Proof.
  intros G. unfold wr_section. rewrite good_get by exact G. cbn [bind]. destruct (opened_fields s d) as (_ & _ & _ & _ & _ & O6 & O7 & _).
  assert (Uo : unmap_virtual (opened s d) = opened s d) by (unfold unmap_virtual; rewrite O7; reflexivity). rewrite Uo, O6. destruct (wr d pos bs); cbn [bind]; [|reflexivity..]. rewrite put_put. do 2 f_equal.
Qed.
Lemma good_sizes P d : good P -> base_size (Img P d) = n /\ thunk_size (Img P d) = sz /\ snap_flag (Img P d) = snap_flag p /\ base_mod (Img P d) = base_mod p.
Proof. intros (ls & -> & _). repeat split. Qed.
Lemma good_rva d x : rva_from_section_offset (opened s d) x = u32 (s_va s + x).
Proof. unfold rva_from_section_offset. destruct (opened_fields s d) as (_ & _ & -> & _). reflexivity. Qed.
Lemma good_put P d pos v : good P -> put_thunk i false (Img P d) pos v = (' (d', pos') <- put_d d pos v ;; Ok (Img P d', pos')).
Proof. intros G. destruct (good_sizes P d G) as (S1 & S2 & _). unfold put_thunk, put_d. rewrite S1, S2, good_wr by exact G. destruct (wr d (snd pos) (le n v)); reflexivity. Qed.
Lemma good_import P sv wo d str ipos opos f : good P -> write_import i sv wo false false (Img P d, str, ipos, opos) f = (st' <- import_d sv wo (d, str, ipos, opos) f ;; Ok (image P st')).
Proof.
  intros G. destruct (good_sizes P d G) as (_ & _ & S3 & S4). unfold write_import, import_d. rewrite good_get by exact G. cbn [bind]. rewrite good_rva, S3, S4.
  set (v := if by_name f then u32 (s_va s + str) else Z.lor (m_ordinal f) (snap_flag p)).
  assert (K : forall d1 ip1, (' (p2, opos1) <- (if wo then put_thunk i false (Img P d1) opos v else Ok (Img P d1, opos));;
     (if by_name f then p3 <- wr_section p2 i str (le 2 (m_hint f));; p4 <- wr_section p3 i (str + 2) (m_name f ++ [0]);; Ok (p4, u32 (str + u32 (zlen (m_name f) + 1 + 2)), ip1, opos1) else Ok (p2, str, ip1, opos1))) =
     (st' <- (' (d2, opos1) <- (if wo then put_d d1 opos v else Ok (d1, opos));;
     (if by_name f then d3 <- wr d2 str (le 2 (m_hint f));; d4 <- wr d3 (str + 2) (m_name f ++ [0]);; Ok (d4, u32 (str + u32 (zlen (m_name f) + 1 + 2)), ip1, opos1) else Ok (d2, str, ip1, opos1)));; Ok (image P st'))).
  { intros d1 ip1. rewrite (good_put P d1 opos v G). assert (N : forall d2 op1, (if by_name f then p3 <- wr_section (Img P d2) i str (le 2 (m_hint f));; p4 <- wr_section p3 i (str + 2) (m_name f ++ [0]);; Ok (p4, u32 (str + u32 (zlen (m_name f) + 1 + 2)), ip1, op1) else Ok (Img P d2, str, ip1, op1)) =
      (st' <- (if by_name f then d3 <- wr d2 str (le 2 (m_hint f));; d4 <- wr d3 (str + 2) (m_name f ++ [0]);; Ok (d4, u32 (str + u32 (zlen (m_name f) + 1 + 2)), ip1, op1) else Ok (d2, str, ip1, op1)) ;; Ok (image P st'))).
    { intros d2 op1. destruct (by_name f); [|reflexivity]. rewrite good_wr by exact G. destruct (wr d2 str (le 2 (m_hint f))) as [d3| | |]; cbn [bind]; [|reflexivity..]. rewrite good_wr by exact G. destruct (wr d3 (str + 2) (m_name f ++ [0])); reflexivity. }
    destruct wo; [|apply N]. destruct (put_d d1 opos v) as [[d2 op1]| | |]; cbn [bind]; [apply N|reflexivity..]. }
  destruct sv; [apply K|]. destruct wo.
  - rewrite (good_put P d ipos _ G). destruct (put_d d ipos (m_iat f mod base_mod p)) as [[d1 ip1]| | |]; cbn [bind]; [apply K|reflexivity..].
  - rewrite (good_put P d ipos v G). destruct (by_name f || false); destruct (put_d d ipos v) as [[d1 ip1]| | |]; cbn [bind]; first [apply K|reflexivity].
Qed.
Lemma good_imports P sv wo fs : good P -> forall d str ipos opos, mfold (write_import i sv wo false false) fs (Img P d, str, ipos, opos) = (st' <- mfold (import_d sv wo) fs (d, str, ipos, opos) ;; Ok (image P st')).
Proof.
  intros G. induction fs as [|f fs IH]; intros d str ipos opos; cbn [mfold]; [reflexivity|]. rewrite good_import by exact G. destruct (import_d sv wo (d, str, ipos, opos) f) as [[[[d1 str1] ip1] op1]| | |]; cbn [bind image]; [apply IH|reflexivity..].
Qed.
Definition image2 (P : pe) (st : data_state * Z) : import_state * Z := (image P (fst st), snd st).
Lemma good_library P o d str ipos opos dpos l : good P -> (o_save o && negb (l_iat l =? 0)) && o_rewrite o = false ->
  write_library i o ((Img P d, str, ipos, opos), dpos) l = (st' <- library_d o ((d, str, ipos, opos), dpos) l ;; Ok (image2 P st')).
Proof.
  intros G Hr. destruct ipos as [a ipos], opos as [b opos]. unfold write_library, library_d. rewrite Hr. cbn [andb]. rewrite good_get by exact G. cbn [bind]. rewrite !good_rva, orb_false_r.
  set (sv := o_save o && negb (l_iat l =? 0)). replace (sv && negb false) with sv by (destruct sv; reflexivity). set (wo := (negb sv && o_build o) || o_fill o). rewrite good_wr by exact G.
  match goal with |- context[wr d dpos ?x] => set (D := x); destruct (wr d dpos D) as [d1| | |]; cbn [bind]; [|reflexivity..] end. rewrite good_wr by exact G.
  destruct (wr d1 str (l_name l ++ [0])) as [d2| | |]; cbn [bind]; [|reflexivity..]. rewrite good_imports by exact G.
  match goal with |- context[mfold (import_d sv wo) ?x ?y] => destruct (mfold (import_d sv wo) x y) as [[[[d3 str1] ip1] op1]| | |]; cbn [bind image]; [|reflexivity..] end.
  assert (K : forall d4 ip2, (' (p5, opos2) <- (if wo then put_thunk i false (Img P d4) op1 0 else Ok (Img P d4, op1)) ;; Ok ((p5, str1, ip2, opos2), u32 (dpos + 20))) =
    (st' <- (' (d5, opos2) <- (if wo then put_d d4 op1 0 else Ok (d4, op1)) ;; Ok ((d5, str1, ip2, opos2), u32 (dpos + 20))) ;; Ok (image2 P st'))).
  { intros d4 ip2. rewrite good_put by exact G. destruct wo; [|reflexivity]. destruct (put_d d4 op1 0) as [[d5 op2]| | |]; reflexivity. }
  rewrite good_put by exact G. destruct sv; [apply K|]. destruct (put_d d3 ip1 0) as [[d4 ip2]| | |]; cbn [bind]; [apply K|reflexivity..].
Qed.
End Uni.
