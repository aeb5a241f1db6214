(** Proofs about bound imports. *)
From Verif Require Export StoreFacts SpecBound.

(** ** Reading is safe *)
Lemma bound_name_safe d off len name_off : 0 <= off -> 0 <= name_off -> (0 < len -> off + len <= zlen d) -> safe (bound_name d off len name_off).
Proof.
  intros Ho Hn Hl. unfold bound_name. case_throw T; [exact I|].
  destruct (c_string_safe d (off + name_off) (len - name_off) ltac:(lia) ltac:(lia)) as (r & -> & _). cbn [bind]. destruct r; exact I.
Qed.
Lemma bound_field d off n k w : bytes d -> rd d off 8 = Ok n -> bytes n /\ 0 <= unle (slice n k (Z.of_nat w)) < 256 ^ Z.of_nat w.
Proof.
  intros B H. apply rd_inv in H as (_ & _ & _ & ->). assert (Bs : bytes (slice d off 8)) by (apply bytes_slice, B). split; [exact Bs|].
  pose proof (unle_bound (slice (slice d off 8) k (Z.of_nat w)) (bytes_slice _ _ _ Bs)) as U.
  assert (Z.of_nat (length (slice (slice d off 8) k (Z.of_nat w))) <= Z.of_nat w) by (unfold slice; rewrite firstn_length; lia).
  split; [lia|]. apply Z.lt_le_trans with (1 := proj2 U). apply Z.pow_le_mono_r; [lia|unfold zlen; lia].
Qed.
Lemma bound_refs_safe d off len n : bytes d -> 0 <= off -> (0 < len -> off + len <= zlen d) -> len < 2^32 -> forall pos, 0 <= pos -> pos + 8 * Z.of_nat n < 2^32 ->
  match bound_refs d off len n pos with Ok (pos', _) => pos' = pos + 8 * Z.of_nat n | Throw _ => True | _ => False end.
Proof.
  intros Bd Ho Hl H32. induction n as [|n IH]; intros pos Hp Hb; cbn [bound_refs]; [lia|].
  case_throw T; [exact I|]. rewrite rd_ok by lia. cbn [bind]. set (t := slice d (off + pos) 8).
  assert (Rt : rd d (off + pos) 8 = Ok t) by (apply rd_ok; lia).
  destruct (bound_field _ _ _ 4 2 Bd Rt) as [Bt U]. change (Z.of_nat 2) with 2 in U.
  pose proof (bound_name_safe d off len (unle (slice t 4 2)) Ho ltac:(lia) Hl) as S.
  destruct (bound_name d off len (unle (slice t 4 2))) as [name| | |]; cbn [bind]; try exact S.
  rewrite (u32_small (pos + 8)) by lia. specialize (IH (pos + 8) ltac:(lia) ltac:(lia)).
  destruct (bound_refs d off len n (pos + 8)) as [[pos' refs]| | |]; cbn [bind]; try exact IH. lia.
Qed.
Lemma bound_loop_safe d off len : bytes d -> 0 <= off -> (0 < len -> off + len <= zlen d) -> 8 <= len < 2^32 -> safe (bound_loop d off len).
Proof.
  intros Bd Ho Hl H32. unfold bound_loop.
  apply (mloop_safe _ _ (fun st => 0 <= fst st /\ fst st + 8 <= len) (fun st => len - fst st)).
  - intros [pos acc] [I1 I2]. cbn [fst] in *. split; [lia|]. rewrite rd_ok by lia. cbn [bind]. set (t := slice d (off + pos) 8).
    assert (Rt : rd d (off + pos) 8 = Ok t) by (apply rd_ok; lia).
    destruct (bound_field _ _ _ 4 2 Bd Rt) as [Bt U]. destruct (bound_field _ _ _ 6 2 Bd Rt) as [_ U6]. change (Z.of_nat 2) with 2 in *.
    case_if C; [exact I|]. pose proof (bound_name_safe d off len (unle (slice t 4 2)) Ho ltac:(lia) Hl) as S.
    destruct (bound_name d off len (unle (slice t 4 2))) as [name| | |]; cbn [bind]; try exact S.
    case_throw T; [exact I|]. rewrite orb_false_iff in T. destruct T as [_ T]. apply negb_false_iff in T. rewrite u32_small in T by lia.
    apply is_sum_safe_spec in T; [|lia]. rewrite u32_small by lia.
    pose proof (bound_refs_safe d off len (Z.to_nat (unle (slice t 6 2))) Bd Ho Hl ltac:(lia) (pos + 8) ltac:(lia) ltac:(lia)) as R.
    destruct (bound_refs d off len (Z.to_nat (unle (slice t 6 2))) (pos + 8)) as [[pos' refs]| | |]; cbn [bind]; try exact R.
    case_throw T2; [exact I|]. cbn [fst]. lia.
  - cbn [fst]. lia.
  - cbn [fst]. unfold big_fuel. lia.
Qed.
Lemma bound_safe p : readable p -> safe (get_bound_imports p).
Proof.
  intros R. unfold get_bound_imports. destruct (directory_exists_safe p dir_bound_import R ltac:(unfold dir_bound_import; lia)) as [b ->]. cbn [bind].
  destruct b; [|exact I]. destruct (dir_get p dir_bound_import R ltac:(unfold dir_bound_import; lia)) as (rva & size & Hr & Hs & _ & Gr & Gs & _).
  rewrite Gr. destruct (nrva p <=? dir_bound_import); cbn [bind]; [exact I|].
  pose proof (length_rva_safe p rva rva RawData true ltac:(apply R)) as S.
  destruct (length_rva p rva rva RawData true) as [len| | |] eqn:E; cbn [bind]; try exact S.
  rewrite Gs. cbn [bind]. case_throw T; [exact I|].
  destruct (ptr_room p rva RawData len R (or_introl eq_refl) Hr E) as (d & off & -> & Ho & Bd & L1 & L2). cbn [bind]. case_throw T2; [exact I|].
  apply bound_loop_safe; [exact Bd|exact Ho|exact L2|lia].
Qed.

(** ** The stored form *)
(** One structure with its name: the name, the timestamp and the third field. *)
Notation item := (list Z * Z * Z)%type.
Definition ref_item (r : bound_ref) : item := (fst r, snd r, 0).
Definition flat (m : bound_import) : list item := (fst (fst m), snd (fst m), u16 (zlen (snd m))) :: map ref_item (snd m).
Definition flats (l : list bound_import) : list item := concat (map flat l).
Fixpoint structs (rel : Z) (l : list item) : list Z :=
  match l with
  | [] => []
  | (name, ts, third) :: t => (le 4 ts ++ le 2 rel ++ le 2 third) ++ structs (rel + zlen name + 1) t
  end.
Definition strings (l : list item) : list Z := concat (map (fun x : item => fst (fst x) ++ [0]) l).
Lemma zlen_structs rel l : zlen (structs rel l) = 8 * zlen l.
Proof.
  revert rel; induction l as [|[[name ts] third] l IH]; intros rel; [reflexivity|]. cbn [structs]. rewrite !zlen_app, !zlen_le, zlen_cons, IH. lia.
Qed.
Lemma strings_cons x l : strings (x :: l) = (fst (fst x) ++ [0]) ++ strings l. Proof. reflexivity. Qed.
Lemma strings_app a b : strings (a ++ b) = strings a ++ strings b.
Proof. unfold strings. rewrite map_app, concat_app. reflexivity. Qed.
Lemma structs_app rel a b : structs rel (a ++ b) = structs rel a ++ structs (rel + zlen (strings a)) b.
Proof.
  revert rel; induction a as [|[[name ts] third] a IH]; intros rel; cbn [structs app].
  - change (zlen (strings [])) with 0. rewrite Z.add_0_r. reflexivity.
  - rewrite IH, (app_assoc (le 4 ts ++ _)). f_equal. f_equal. rewrite strings_cons. cbn [fst]. rewrite !zlen_app. change (zlen [0]) with 1. lia.
Qed.
Lemma names_flats l : bound_names l = map (fun x : item => fst (fst x)) (flats l).
Proof.
  unfold bound_names, flats. induction l as [|m l IH]; [reflexivity|]. cbn [map concat]. rewrite map_app, <- IH. f_equal. unfold flat. cbn [map fst]. f_equal.
  rewrite map_map. reflexivity.
Qed.
Lemma zlen_flats l : 8 * zlen (flats l) = bound_structs l.
Proof. unfold bound_structs. rewrite names_flats. unfold zlen. rewrite map_length. reflexivity. Qed.
Lemma zlen_strings l : zlen (strings l) = fold_right (fun name n => zlen name + 1 + n) 0 (map (fun x : item => fst (fst x)) l).
Proof. induction l as [|x l IH]; [reflexivity|]. rewrite strings_cons. cbn [map fold_right]. rewrite !zlen_app, IH. change (zlen [0]) with 1. lia. Qed.
Lemma zlen_flat_strings l : zlen (strings (flats l)) = bound_strings l.
Proof. unfold bound_strings. rewrite names_flats. apply zlen_strings. Qed.
Lemma struct_size_refs (l : list bound_ref) n : 0 <= n -> n + 8 * zlen l < 2^32 -> fold_left (fun n (r : bound_ref) => u32 (n + 8)) l n = n + 8 * zlen l.
Proof.
  revert n; induction l as [|x l IH]; intros n Hn H; [change (zlen []) with 0; cbn [fold_left]; lia|]. rewrite zlen_cons in *. pose proof (zlen_nonneg l).
  cbn [fold_left]. rewrite u32_small by lia. rewrite IH by lia. lia.
Qed.
Lemma flats_cons m l : flats (m :: l) = flat m ++ flats l. Proof. reflexivity. Qed.
Lemma zlen_flat m : zlen (flat m) = 1 + zlen (snd m).
Proof. unfold flat. rewrite zlen_cons, zlen_map. reflexivity. Qed.
Lemma struct_size_ok l : bound_structs l + 8 < 2^32 -> bound_struct_size l = bound_structs l + 8.
Proof.
  rewrite <- zlen_flats. unfold bound_struct_size.
  assert (G : forall n, 0 <= n -> n + 8 * zlen (flats l) < 2^32 ->
    fold_left (fun n m => fold_left (fun n (r : bound_ref) => u32 (n + 8)) (snd m) (u32 (n + 8))) l n = n + 8 * zlen (flats l)).
  { induction l as [|m l IH]; intros n Hn H; [change (zlen (flats [])) with 0; cbn [fold_left]; lia|].
    rewrite flats_cons, zlen_app, zlen_flat in *. pose proof (zlen_nonneg (snd m)). pose proof (zlen_nonneg (flats l)).
    cbn [fold_left]. rewrite (u32_small (n + 8)) by lia. rewrite struct_size_refs by lia. rewrite IH by lia. lia. }
  intros H. rewrite G by lia. lia.
Qed.
Lemma string_size_refs (l : list bound_ref) n : 0 <= n -> n + zlen (strings (map ref_item l)) < 2^32 ->
  fold_left (fun n (r : bound_ref) => u32 (n + (u32 (zlen (fst r)) + 1))) l n = n + zlen (strings (map ref_item l)).
Proof.
  revert n; induction l as [|x l IH]; intros n Hn H; [cbn [fold_left map]; change (zlen (strings [])) with 0; lia|]. cbn [map] in *.
  rewrite strings_cons, !zlen_app in *. change (zlen [0]) with 1 in *. cbn [ref_item fst] in *. pose proof (zlen_nonneg (strings (map ref_item l))). pose proof (zlen_nonneg (fst x)).
  cbn [fold_left]. rewrite (u32_small (zlen (fst x))) by lia. rewrite u32_small by lia. rewrite IH by lia. lia.
Qed.
Lemma string_size_ok l : bound_strings l < 2^32 -> bound_string_size l = bound_strings l.
Proof.
  rewrite <- zlen_flat_strings. unfold bound_string_size.
  assert (G : forall n, 0 <= n -> n + zlen (strings (flats l)) < 2^32 ->
    fold_left (fun n m => fold_left (fun n (r : bound_ref) => u32 (n + (u32 (zlen (fst r)) + 1))) (snd m) (u32 (n + (u32 (zlen (fst (fst m))) + 1)))) l n = n + zlen (strings (flats l))).
  { induction l as [|m l IH]; intros n Hn H; [change (zlen (strings (flats []))) with 0; cbn [fold_left]; lia|].
    rewrite flats_cons, strings_app in *. unfold flat in *. rewrite strings_cons, !zlen_app in *. cbn [fst] in *. change (zlen [0]) with 1 in *.
    pose proof (zlen_nonneg (fst (fst m))). pose proof (zlen_nonneg (strings (map ref_item (snd m)))). pose proof (zlen_nonneg (strings (flats l))).
    cbn [fold_left]. rewrite (u32_small (zlen (fst (fst m)))) by lia. rewrite (u32_small (n + _)) by lia. rewrite string_size_refs by lia. rewrite IH by lia. lia. }
  intros H. rewrite G by lia. lia.
Qed.

(** ** Writing *)
Definition write_item (dir : Z) (st : list Z * Z * Z) (x : item) : res (list Z * Z * Z) :=
  write_bound dir st (fst (fst x)) (snd (fst x)) (snd x).
Lemma write_flats dir l st : mfold (write_bound_import dir) l st = mfold (write_item dir) (flats l) st.
Proof.
  revert st; induction l as [|[[name ts] refs] l IH]; intros st; [reflexivity|]. rewrite flats_cons, mfold_app'. cbn [mfold flat].
  unfold write_bound_import at 1. change (write_item dir st (fst (fst (name, ts, refs)), snd (fst (name, ts, refs)), u16 (zlen (snd (name, ts, refs))))) with (write_bound dir st name ts (u16 (zlen refs))).
  cbn [snd].
  destruct (write_bound dir st name ts (u16 (zlen refs))) as [st1| | |]; cbn [bind]; try reflexivity.
  assert (E : forall st1, mfold (fun st (r : bound_ref) => write_bound dir st (fst r) (snd r) 0) refs st1 = mfold (write_item dir) (map ref_item refs) st1).
  { clear. induction refs as [|r refs IH]; intros st1; [reflexivity|]. cbn [mfold map]. unfold write_item at 1. cbn [ref_item fst snd].
    destruct (write_bound dir st1 (fst r) (snd r) 0); cbn [bind]; [apply IH|reflexivity..]. }
  rewrite E. destruct (mfold (write_item dir) (map ref_item refs) st1); cbn [bind]; [apply IH|reflexivity..].
Qed.
Lemma le2_u16 v : le 2 (u16 v) = le 2 v.
Proof. unfold u16. cbn [le]. f_equal; [lia|f_equal; lia]. Qed.
Lemma write_items_ok d0 dir top sp0 np0 G l : forall d S N,
  0 <= dir <= sp0 -> zlen G = 8 -> sp0 + zlen S + 8 * zlen l + 8 <= np0 -> np0 + zlen N + zlen (strings l) <= top -> top <= zlen d0 -> top < 2^32 ->
  within d0 d dir top -> holds d sp0 S -> holds d np0 N -> holds d (np0 - 8) G ->
  exists d', mfold (write_item dir) l (d, sp0 + zlen S, np0 + zlen N) = Ok (d', sp0 + zlen S + 8 * zlen l, np0 + zlen N + zlen (strings l)) /\
    within d0 d' dir top /\ holds d' sp0 (S ++ structs (np0 - dir + zlen N) l) /\ holds d' np0 (N ++ strings l) /\ holds d' (np0 - 8) G.
Proof.
  induction l as [|[[name ts] third] l IH]; intros d S N Hd Hg Hs Hn Ht H32 W HS HN HG; cbn [mfold].
  - exists d. change (zlen (@nil item)) with 0. change (zlen (strings [])) with 0. cbn [structs]. change (strings []) with (@nil Z). rewrite !app_nil_r.
    replace (sp0 + zlen S + 8 * 0) with (sp0 + zlen S) by lia. rewrite Z.add_0_r. tauto.
  - rewrite strings_cons in *. cbn [fst] in *. rewrite zlen_cons in Hs. rewrite !zlen_app in Hn. change (zlen [0]) with 1 in *.
    pose proof (zlen_nonneg l). pose proof (zlen_nonneg name). pose proof (zlen_nonneg (strings l)). pose proof (zlen_nonneg S). pose proof (zlen_nonneg N).
    assert (Lz : zlen d = zlen d0) by apply W.
    unfold write_item at 1. cbn [fst snd]. unfold write_bound. rewrite (u32_small (zlen name + 1)) by lia. rewrite (u32_small (np0 + zlen N + (zlen name + 1))) by lia. rewrite (u32_small (sp0 + zlen S + 8)) by lia.
    rewrite le2_u16. replace (np0 + zlen N - dir) with (np0 - dir + zlen N) by lia.
    set (st := le 4 ts ++ le 2 (np0 - dir + zlen N) ++ le 2 third). assert (L8 : zlen st = 8) by (unfold st; rewrite !zlen_app, !zlen_le; reflexivity).
    destruct (wr_total d (sp0 + zlen S) st ltac:(lia) ltac:(lia)) as (d1 & E1 & Z1). rewrite E1. cbn [bind].
    destruct (wr_total d1 (np0 + zlen N) (name ++ [0]) ltac:(lia) ltac:(rewrite zlen_app; change (zlen [0]) with 1; lia)) as (d2 & E2 & Z2). rewrite E2. cbn [bind].
    assert (Ln : zlen (name ++ [0]) = zlen name + 1) by (rewrite zlen_app; reflexivity).
    destruct (IH d2 (S ++ st) (N ++ (name ++ [0]))) as (d' & E & W' & A & B & C); rewrite ?zlen_app, ?L8; change (zlen [0]) with 1; try assumption; try lia.
    + apply (within_wr d0 d1 dir top (np0 + zlen N) (name ++ [0]) d2); [|exact E2|lia|lia|lia]. apply (within_wr d0 d dir top (sp0 + zlen S) st d1 W E1); lia.
    + apply (holds_wr_other d1 _ _ _ _ _ (holds_wr_append _ _ _ _ _ HS E1) E2). left. rewrite zlen_app. lia.
    + apply (holds_wr_append d1); [|exact E2]. apply (holds_wr_other d _ _ _ _ _ HN E1). right. lia.
    + apply (holds_wr_other d1 _ _ _ _ _ (holds_wr_other d _ _ _ _ _ HG E1 ltac:(lia)) E2). left. lia.
    + exists d'. split.
      * rewrite zlen_cons, !zlen_app in *. rewrite L8 in E. change (zlen [0]) with 1 in *.
        replace (sp0 + zlen S + 8) with (sp0 + (zlen S + 8)) by lia. replace (np0 + zlen N + (zlen name + 1)) with (np0 + (zlen N + (zlen name + 1))) by lia.
        rewrite E. f_equal. f_equal; [f_equal|]; lia.
      * split; [exact W'|]. rewrite !zlen_app in A. cbn [structs]. fold st. change (zlen [0]) with 1 in *. replace (np0 - dir + zlen N + zlen name + 1) with (np0 - dir + (zlen N + (zlen name + 1))) by lia.
        split; [rewrite app_assoc; exact A|]. split; [|exact C]. rewrite app_assoc. exact B.
Qed.

(** ** Reading back *)
Lemma struct_fields ts rel third : is_u32 ts -> is_u16 rel -> is_u16 third ->
  let t := le 4 ts ++ le 2 rel ++ le 2 third in
  unle (slice t 0 4) = ts /\ unle (slice t 4 2) = rel /\ unle (slice t 6 2) = third.
Proof.
  intros H1 H2 H3 t. unfold is_u32, is_u16 in *.
  assert (slice t 0 4 = le 4 ts) as -> by (apply (slice_here (le 4 ts)); rewrite zlen_le; reflexivity).
  assert (slice t 4 2 = le 2 rel) as -> by (unfold t; rewrite (slice_skip (le 4 ts) _ _ _ 0) by (rewrite ?zlen_le; lia); apply (slice_here (le 2 rel)); rewrite zlen_le; reflexivity).
  assert (slice t 6 2 = le 2 third) as ->.
  { unfold t; rewrite (slice_skip (le 4 ts) _ _ _ 2) by (rewrite ?zlen_le; lia). rewrite (slice_skip (le 2 rel) _ _ _ 0) by (rewrite ?zlen_le; lia).
    rewrite <- (app_nil_r (le 2 third)) at 1. apply (slice_here (le 2 third)). rewrite zlen_le; reflexivity. }
  rewrite !unle_le_small by (cbn; lia). tauto.
Qed.
Definition valid_item (x : item) : Prop := no_null (fst (fst x)) /\ is_u32 (snd (fst x)) /\ is_u16 (snd x).
Lemma bound_name_ok R off len rel name : 0 <= off -> 0 <= rel -> no_null name -> holds R (off + rel) (name ++ [0]) -> rel + zlen name + 1 <= len ->
  bound_name R off len rel = Ok name.
Proof.
  intros Ho Hr [_ Nn] H Hl. pose proof (zlen_nonneg name). unfold bound_name. replace (len <=? rel) with false by lia. cbn [throw_if bind].
  rewrite (c_string_ok _ _ name) by (try assumption; lia). reflexivity.
Qed.
Lemma bound_refs_ok R off len refs : 0 <= off -> len < 2^32 -> Forall valid_ref refs -> forall sp rel, 0 <= sp -> 0 <= rel -> sp + 8 * zlen refs <= len ->
  rel + zlen (strings (map ref_item refs)) <= len -> rel + zlen (strings (map ref_item refs)) <= 2^16 ->
  holds R (off + sp) (structs rel (map ref_item refs)) -> holds R (off + rel) (strings (map ref_item refs)) ->
  bound_refs R off len (length refs) sp = Ok (sp + 8 * zlen refs, refs).
Proof.
  intros Ho H32. induction 1 as [|[name ts] refs [V1 V2] V IH]; intros sp rel Hs Hr Hl Hn H16 HS HN.
  - cbn [length bound_refs]. change (zlen (@nil bound_ref)) with 0. do 2 f_equal. lia.
  - cbn [fst snd] in V1, V2. cbn [map length bound_refs] in *. change (ref_item (name, ts)) with (name, ts, 0) in *. rewrite strings_cons in *. cbn [structs] in HS. cbn [fst snd] in *. rewrite !zlen_app in Hn, H16. change (zlen [0]) with 1 in *. rewrite zlen_cons in *.
    pose proof (zlen_nonneg refs). pose proof (zlen_nonneg name). pose proof (zlen_nonneg (strings (map ref_item refs))).
    apply holds_app in HS as [HS1 HS2]. apply holds_app in HN as [HN1 HN2]. rewrite zlen_app in HN2. change (zlen [0]) with 1 in HN2.
    assert (L8 : zlen (le 4 ts ++ le 2 rel ++ le 2 0) = 8) by (rewrite !zlen_app, !zlen_le; reflexivity). rewrite L8 in HS2.
    replace (len <? sp + 8) with false by lia. cbn [throw_if bind]. rewrite (rd_holds _ _ _ 8 HS1) by (symmetry; exact L8). cbn [bind].
    destruct (struct_fields ts rel 0 V2 ltac:(unfold is_u16; lia) ltac:(unfold is_u16; lia)) as (F1 & F2 & _). cbv zeta in F1, F2. rewrite F1, F2.
    rewrite (bound_name_ok R off len rel name Ho Hr V1 HN1) by lia. cbn [bind]. rewrite u32_small by lia.
    rewrite (IH (sp + 8) (rel + zlen name + 1)); try lia; [cbn [bind]; do 2 f_equal; lia| |].
    + replace (off + (sp + 8)) with (off + sp + 8) by lia. exact HS2.
    + replace (off + (rel + zlen name + 1)) with (off + rel + (zlen name + 1)) by lia. exact HN2.
Qed.
Lemma bound_loop_ok R off len l : 0 <= off -> 8 <= len < 2^32 -> Forall valid_bound l -> forall sp rel acc, 0 <= sp -> 0 < rel -> sp + 8 * zlen (flats l) + 8 <= len ->
  rel + zlen (strings (flats l)) <= len -> rel + zlen (strings (flats l)) <= 2^16 -> 8 * zlen (flats l) <= 2^16 ->
  holds R (off + sp) (structs rel (flats l)) -> holds R (off + rel) (strings (flats l)) -> holds R (off + sp + 8 * zlen (flats l) + 4) [0; 0] ->
  off + sp + 8 * zlen (flats l) + 8 <= zlen R ->
  nloop (S (length l)) (fun st : Z * list bound_import =>
    let '(pos, acc) := st in
    t <- rd R (off + pos) 8 ;;
    let name_off := unle (slice t 4 2) in
    if name_off =? 0 then Ok (inr acc)
    else
      name <- bound_name R off len name_off ;;
      let n := unle (slice t 6 2) in
      throw_if ((0xFFFFFFFF / 8 <=? n) || negb (is_sum_safe pos (u32 (16 + n * 8)))) incorrect_bound_import_directory ;;;
      ' (pos', refs) <- bound_refs R off len (Z.to_nat n) (u32 (pos + 8)) ;;
      throw_if (len <? pos' + 8) incorrect_bound_import_directory ;;;
      Ok (inl (pos', acc ++ [(name, unle (slice t 0 4), refs)]))) (sp, acc) = Ok (inr (acc ++ l)).
Proof.
  intros Ho H32. induction 1 as [|[[name ts] refs] l (V1 & V2 & V3) V IH]; intros sp rel acc Hs Hr Hl Hn H16 Hm HS HN HG Hz.
  - cbn [length nloop]. change (8 * zlen (flats [])) with 0 in *. rewrite rd_ok by lia. cbn [bind].
    assert (slice (slice R (off + sp) 8) 4 2 = [0; 0]) as ->.
    { rewrite slice_slice by lia. replace (off + sp + 0 + 4) with (off + sp + 4) in HG by lia. apply (holds_slice _ _ _ _ HG). reflexivity. }
    change (unle [0; 0] =? 0) with true. cbn [bind]. rewrite app_nil_r. reflexivity.
  - cbn [fst snd] in V1, V2, V3. rewrite flats_cons, zlen_app, zlen_flat, strings_app, structs_app in *. unfold flat in *. rewrite strings_cons in *. cbn [fst snd structs] in *. rewrite !zlen_app in Hn, H16. change (zlen [0]) with 1 in *.
    pose proof (zlen_nonneg refs). pose proof (zlen_nonneg name). pose proof (zlen_nonneg (strings (map ref_item refs))). pose proof (zlen_nonneg (flats l)). pose proof (zlen_nonneg (strings (flats l))).
    apply holds_app in HS as [HS HS3]. apply holds_app in HS as [HS1 HS2]. apply holds_app in HN as [HN HN3]. apply holds_app in HN as [HN1 HN2].
    rewrite (zlen_app name) in HN2. change (zlen [0]) with 1 in HN2.
    assert (U : u16 (zlen refs) = zlen refs) by (unfold u16; apply Z.mod_small; lia). rewrite U in *.
    assert (L8 : zlen (le 4 ts ++ le 2 rel ++ le 2 (zlen refs)) = 8) by (rewrite !zlen_app, !zlen_le; reflexivity).
    rewrite L8 in HS2. rewrite (zlen_app (le 4 ts ++ _)), L8, zlen_structs, zlen_map in HS3. rewrite !zlen_app in HS3, HN3. change (zlen [0]) with 1 in *.
    cbn [length]. erewrite nloop_next; cycle 1.
    { rewrite (rd_holds _ _ _ 8 HS1) by (rewrite !zlen_app, !zlen_le; reflexivity). cbn [bind].
      destruct (struct_fields ts rel (zlen refs) V2 ltac:(unfold is_u16; lia) ltac:(unfold is_u16; lia)) as (F1 & F2 & F3). cbv zeta in F1, F2, F3. rewrite F1, F2, F3.
      replace (rel =? 0) with false by lia. rewrite (bound_name_ok R off len rel name Ho ltac:(lia) V1 HN1) by lia. cbn [bind].
      rewrite (u32_small (16 + zlen refs * 8)) by lia. replace (0xFFFFFFFF / 8 <=? zlen refs) with false by (change (0xFFFFFFFF / 8) with 536870911; lia).
      replace (is_sum_safe sp (16 + zlen refs * 8)) with true by (symmetry; apply is_sum_safe_spec; lia). cbn [orb negb throw_if bind].
      rewrite (u32_small (sp + 8)) by lia. replace (Z.to_nat (zlen refs)) with (length refs) by (unfold zlen; lia).
      rewrite (bound_refs_ok R off len refs Ho ltac:(lia) V3 (sp + 8) (rel + zlen name + 1)); try lia.
      - cbn [bind]. replace (len <? sp + 8 + 8 * zlen refs + 8) with false by lia. cbn [throw_if bind]. reflexivity.
      - replace (off + (sp + 8)) with (off + sp + 8) by lia. exact HS2.
      - replace (off + (rel + zlen name + 1)) with (off + rel + (zlen name + 1)) by lia. exact HN2. }
    etransitivity; [apply (IH (sp + 8 + 8 * zlen refs) (rel + (zlen name + 1 + zlen (strings (map ref_item refs))))); try lia|].
    + replace (off + (sp + 8 + 8 * zlen refs)) with (off + sp + (8 + 8 * zlen refs)) by lia. exact HS3.
    + replace (off + (rel + (zlen name + 1 + zlen (strings (map ref_item refs))))) with (off + rel + (zlen name + 1 + zlen (strings (map ref_item refs)))) by lia. exact HN3.
    + replace (off + (sp + 8 + 8 * zlen refs) + 8 * zlen (flats l) + 4) with (off + sp + 8 * (1 + zlen refs + zlen (flats l)) + 4) by lia. exact HG.
    + rewrite <- app_assoc. reflexivity.
Qed.

Lemma bytes_structs l : forall rel, bytes (structs rel l).
Proof.
  induction l as [|[[name ts] third] l IH]; intros rel; cbn [structs]; [constructor|]. apply bytes_app. split; [|apply IH]. rewrite !bytes_app. split; [|split]; apply bytes_le.
Qed.
Lemma bytes_ref_strings refs : Forall valid_ref refs -> bytes (strings (map ref_item refs)).
Proof.
  induction 1 as [|r refs [V1 _] V IH]; [constructor|]. cbn [map]. rewrite strings_cons. apply bytes_app. split; [|exact IH].
  apply bytes_app. split; [apply V1|]. constructor; [lia|constructor].
Qed.
Lemma bytes_strings l : Forall valid_bound l -> bytes (strings (flats l)).
Proof.
  induction 1 as [|[[name ts] refs] l (V1 & V2 & V3) V IH]; [constructor|]. rewrite flats_cons, strings_app. apply bytes_app. split; [|exact IH].
  unfold flat. rewrite strings_cons. cbn [fst snd] in *. apply bytes_app. split; [|apply bytes_ref_strings, V3].
  apply bytes_app. split; [apply V1|]. constructor; [lia|constructor].
Qed.
Lemma rebuild_bound_ok p start i imports off save strip :
  let pos := ceil_mult off 4 in
  0 <= off -> Forall valid_bound imports -> room p start i (pos + bound_size imports) ->
  dirs_ok p -> dir_bound_import < nrva p <= 16 ->
  exists p' s out, nth_error (p_sections p) i = Some s /\
    rebuild_bound_imports p imports i off save strip = Ok (p', (s_va s + pos, bound_size imports)) /\
    zlen out = bound_size imports /\ only_section p p' i pos out /\ same_headers p p' /\ image_ok p' start /\
    (if save then only_directory p p' dir_bound_import (s_va s + pos, bound_size imports) else h_dirs (p_nt p') = h_dirs (p_nt p)) /\
    (save = true -> strip = false \/ S i = length (p_sections p) -> bound_size imports <= 2^16 ->
     byte_of s (pos + bound_structs imports + 4) = 0 -> byte_of s (pos + bound_structs imports + 5) = 0 ->
     get_bound_imports p' = Ok imports).
Proof.
  intros pos Ho V R D N. change dir_bound_import with 11 in *.
  pose proof R as (IO & T & s & Hs & Hz0 & Hf & Hv & Hr & _).
  pose proof IO as ((Ps & Pf & L) & W & _). pose proof (nth_Forall _ _ _ _ W Hs) as Ws.
  pose proof (ceil_mult_least off 4 ltac:(lia)) as (Q1 & Q2 & Q3 & _). fold pos in Q1, Q2, Q3.
  pose proof (zlen_nonneg (flats imports)) as Z1. pose proof (zlen_nonneg (strings (flats imports))) as Z2.
  pose proof (zlen_flats imports) as ZF. pose proof (zlen_flat_strings imports) as ZS.
  assert (Sz : bound_size imports = bound_structs imports + 8 + bound_strings imports) by reflexivity.
  assert (Al : align_up off 4 = pos) by (apply align_up_small; [exact four_power|lia|unfold is_u32; lia|fold pos; lia]).
  unfold rebuild_bound_imports. rewrite Al. rewrite string_size_ok, struct_size_ok by lia.
  rewrite <- Sz. rewrite (u32_small (bound_size imports)) by lia. rewrite (u32_small (bound_size imports + pos)) by lia. rewrite (u32_small (pos + bound_size imports - _)) by lia.
  rewrite (Z.add_comm (bound_size imports) pos).
  set (total := pos + bound_size imports) in *. assert (Et : total = pos + bound_size imports) by reflexivity. clearbody total.
  pose proof (ceil_mult_least total (falign p) (pow2_pos _ Pf)) as (C1 & C2 & _).
  destruct (open_room_ok p start i total total R ltac:(lia)) as (s' & d0 & Hs' & Eo & Pd & L1 & L2 & L3).
  rewrite Hs in Hs'. inversion Hs'; subst s'; clear Hs'. rewrite Eo. cbn [bind]. change (s_data (opened s d0)) with d0.
  rewrite write_flats. set (np0 := total - bound_strings imports) in *. assert (En : np0 = total - bound_strings imports) by reflexivity. clearbody np0.
  set (G := slice d0 (np0 - 8) 8). assert (LG : zlen G = 8) by (apply zlen_slice; lia).
  destruct (write_items_ok d0 pos total pos np0 G (flats imports) d0 [] []) as (d' & E & Wd & HS & HN & HG);
    change (@zlen Z []) with 0; try lia; try (apply holds_nil; lia); try apply within_refl.
  { unfold holds. rewrite LG. split; [lia|]. split; [lia|]. reflexivity. }
  change (@zlen Z []) with 0 in E, HS, HN. rewrite !Z.add_0_r in E. rewrite E. cbn [bind]. cbn [app] in HS, HN. rewrite Z.add_0_r in HS.
  pose proof (within_splice _ _ _ _ Wd ltac:(lia) ltac:(lia)) as Ed. set (out := slice d' pos (total - pos)) in *.
  assert (Ld : zlen d' = zlen d0) by apply Wd.
  assert (Lo : zlen out = bound_size imports) by (unfold out; rewrite zlen_slice by lia; lia).
  assert (Bd0 : bytes d0) by (apply (padded_bytes _ _ Pd), bytes_raw_view, Ws).
  assert (Bo : bytes out).
  { unfold out. replace (total - pos) with (zlen (structs (np0 - pos) (flats imports) ++ G ++ strings (flats imports))) by (rewrite !zlen_app, zlen_structs, LG; lia).
    assert (HA : holds d' pos (structs (np0 - pos) (flats imports) ++ G ++ strings (flats imports))).
    { apply holds_app. split; [exact HS|]. rewrite zlen_structs. replace (pos + 8 * zlen (flats imports)) with (np0 - 8) by lia. apply holds_app. split; [exact HG|].
      rewrite LG. replace (np0 - 8 + 8) with np0 by lia. exact HN. }
    rewrite (holds_slice d' pos _ _ HA eq_refl).
    apply bytes_app. split; [|apply bytes_app; split; [apply bytes_slice, Bd0|]].
    - apply bytes_structs.
    - apply bytes_strings, V. }
  rewrite Ed.
  destruct (finish_ok p start i total total s d0 pos out strip save 11 (bound_size imports) R ltac:(lia) Hs Eo ltac:(lia) ltac:(lia) ltac:(lia) Bo D ltac:(lia) ltac:(lia))
    as (p' & t & Ef & Os & Sh & IO' & Sd & Ht & St & Wt & Lt & Rw & Hf' & Ff & Bk).
  exists p', s, out. split; [exact Hs|]. split; [exact Ef|]. split; [exact Lo|]. split; [exact Os|]. split; [exact Sh|]. split; [exact IO'|].
  split; [destruct save; [apply Sd|exact Sd]|]. intros -> Ns B16 Z4 Z5. specialize (Rw Ns). rewrite <- Ed in Rw.
  destruct Sd as [_ (X1 & X2 & X3)]. unfold get_bound_imports. change dir_bound_import with 11. rewrite X1. cbn [bind]. rewrite X2. cbn [bind]. 
  assert (Lv : zlen (splice d0 pos out ++ zeros (span (salign p) t - zlen (splice d0 pos out))) = span (salign p) t) by (rewrite <- Ed, zlen_app, zlen_zeros; lia).
  assert (Sa : salign p' = salign p) by (assert (K : same_headers p p') by exact Sh; unfold same_headers in K; apply (f_equal salign) in K; exact K).
  destruct St as (_ & Va & _).
  destruct (raw_block p' (s_va s) _ i t pos Bk Ht Va ltac:(lia) ltac:(rewrite Sa; exact Lv)) as [Y1 Y2]. rewrite Rw, Ld in Y2. rewrite Y2.
  rewrite Rw in Y1. assert (Sp : span (salign p) t < 2^32) by (destruct Bk as (_ & _ & Hb & _); pose proof (zlen_nonneg (p_full p')); lia).
  replace (zlen d0 - pos <? 0) with false by lia. rewrite u32_small by lia. cbn [bind]. rewrite X3. cbn [bind]. replace (zlen d0 - pos <? bound_size imports) with false by lia.
  cbn [throw_if bind]. rewrite Y1. cbn [bind]. replace (zlen d0 - pos <? 8) with false by lia. cbn [throw_if bind].
  unfold bound_loop. eapply mloop_exec; [apply (bound_loop_ok d' pos (zlen d0 - pos) imports ltac:(lia) ltac:(lia) V 0 (np0 - pos) []); try lia|].
  - rewrite Z.add_0_r. exact HS.
  - replace (pos + (np0 - pos)) with np0 by lia. exact HN.
  - assert (H0 : holds G 4 [0; 0]).
    { apply nth_holds; [lia|rewrite LG; change (zlen [0; 0]) with 2; lia|]. change (zlen [0; 0]) with 2. intros k Hk.
      assert (K : nth (Z.to_nat (4 + k)) G 0 = byte_of s (np0 - 8 + (4 + k))).
      { unfold G. rewrite nth_slice by lia. unfold byte_of. rewrite <- (nth_padded _ _ _ Pd). f_equal. }
      rewrite K. assert (k = 0 \/ k = 1) as [-> | ->] by lia.
      - replace (np0 - 8 + (4 + 0)) with (pos + bound_structs imports + 4) by lia. rewrite Z4. reflexivity.
      - replace (np0 - 8 + (4 + 1)) with (pos + bound_structs imports + 5) by lia. rewrite Z5. reflexivity. }
    replace (pos + 0 + 8 * zlen (flats imports) + 4) with (np0 - 8 + 4) by lia. destruct H0 as (A1 & A2 & A3). destruct HG as (B1 & B2 & B3).
    change (zlen [0; 0]) with 2 in *. split; [lia|]. split; [change (zlen [0; 0]) with 2; lia|]. change (zlen [0; 0]) with 2. rewrite <- A3. rewrite <- B3. rewrite LG. rewrite slice_slice by lia. reflexivity.
  - unfold zlen in ZF, B16, Sz. assert (Z.of_nat (length imports) <= Z.of_nat (length (flats imports))); [|unfold big_fuel; lia].
    clear. induction imports as [|m l IH]; [reflexivity|]. rewrite flats_cons, app_length. cbn [length flat]. lia.
Qed.

(** ** Refusals *)
Lemma bound_detached p l i off save strip : nth_error (p_sections p) i = None -> rebuild_bound_imports p l i off save strip = Throw section_is_not_attached.
Proof. intros H. unfold rebuild_bound_imports. cbv zeta. rewrite open_room_detached by exact H. reflexivity. Qed.
Lemma bound_full p l i off save strip :
  0 <= off -> ceil_mult off 4 + bound_size l < 2^32 -> no_room p i (ceil_mult off 4 + bound_size l) -> rebuild_bound_imports p l i off save strip = Throw insufficient_space.
Proof.
  intros Ho He R. set (pos := ceil_mult off 4) in *. unfold rebuild_bound_imports.
  pose proof (ceil_mult_least off 4 ltac:(lia)) as (Q1 & Q2 & Q3 & _). fold pos in Q1, Q2, Q3.
  pose proof (zlen_nonneg (flats l)) as Z1. pose proof (zlen_nonneg (strings (flats l))) as Z2.
  pose proof (zlen_flats l) as ZF. pose proof (zlen_flat_strings l) as ZS.
  assert (Sz : bound_size l = bound_structs l + 8 + bound_strings l) by reflexivity.
  assert (Al : align_up off 4 = pos) by (apply align_up_small; [exact four_power|lia|unfold is_u32; lia|fold pos; lia]).
  rewrite Al. rewrite string_size_ok, struct_size_ok by lia. rewrite <- Sz. rewrite (u32_small (bound_size l)) by lia. rewrite (u32_small (bound_size l + pos)) by lia.
  rewrite (Z.add_comm (bound_size l) pos). rewrite open_room_full by exact R. reflexivity.
Qed.
