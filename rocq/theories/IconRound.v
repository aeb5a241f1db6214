(** Adding, reading and removing groups of icons and cursors. *)
From Verif Require Import BaseFacts DirFacts StoreFacts ResDataFacts ManagerFacts.
From Verif Require Export IconFacts.

(** ** Entries *)
Lemma six l : fits attr_widths l -> exists a b c d x y, l = [a; b; c; d; x; y] /\ 0 <= a < 256 /\ 0 <= b < 256 /\ 0 <= c < 256 /\ 0 <= d < 256 /\ 0 <= x < 65536 /\ 0 <= y < 65536.
Proof.
  unfold attr_widths. intros H. destruct l as [|a [|b [|c [|d [|x [|y [|z l]]]]]]]; cbn [fits] in H; try tauto. change (256 ^ Z.of_nat 1) with 256 in H. change (256 ^ Z.of_nat 2) with 65536 in H.
  exists a, b, c, d, x, y. split; [reflexivity|]. lia.
Qed.
Definition file_record (e : picture) (off : Z) : list Z := enc_fields attr_widths (attrs e) ++ le 4 (zlen (pixels e)) ++ le 4 off.
Lemma file_record_enc e off : good_picture e -> file_record e off = enc_fields dirent_widths (attrs e ++ [zlen (pixels e); off]).
Proof. intros [H _]. apply six in H as (a & b & c & d & x & y & E & _). unfold file_record. rewrite E. unfold attr_widths, dirent_widths. cbn [app enc_fields]. rewrite <- !app_assoc, app_nil_r. reflexivity. Qed.
Lemma zlen_file_record e off : good_picture e -> zlen (file_record e off) = 16.
Proof. intros H. rewrite file_record_enc by exact H. destruct H as [H _]. apply six in H as (a & b & c & d & x & y & E & _). rewrite E. rewrite enc_fields_length by reflexivity. reflexivity. Qed.
Lemma dec_file_record e off : good_picture e -> 0 <= off < 2^32 -> dec_fields dirent_widths (file_record e off) = attrs e ++ [zlen (pixels e); off].
Proof.
  intros H O. rewrite file_record_enc by exact H. destruct H as [H S]. rewrite <- (app_nil_r (enc_fields _ _)). apply dec_enc_fields. apply six in H as (a & b & c & d & x & y & E & B). rewrite E.
  unfold dirent_widths. cbn [app fits]. change (256 ^ Z.of_nat 1) with 256. change (256 ^ Z.of_nat 2) with 65536. change (256 ^ Z.of_nat 4) with (2^32). lia.
Qed.
Lemma nth_attrs e s off : fits attr_widths (attrs e) -> (forall i, (i < 6)%nat -> nth i (attrs e ++ [s; off]) 0 = nth i (attrs e) 0) /\ nth 6 (attrs e ++ [s; off]) 0 = s /\ nth 7 (attrs e ++ [s; off]) 0 = off /\ firstn 6 (attrs e ++ [s; off]) = attrs e.
Proof.
  intros H. apply six in H as (a & b & c & d & x & y & E & B). rewrite E. split; [|split; [reflexivity|split; reflexivity]].
  intros i Hi. rewrite app_nth1 by (cbn [length]; lia). reflexivity.
Qed.
Lemma group_entry_record k e off id : good_picture e -> kept k e -> group_entry k (attrs e ++ [zlen (pixels e); off]) id = group_record k e id.
Proof.
  intros [H S] K. destruct (nth_attrs e (zlen (pixels e)) off H) as (N & N6 & N7 & F). unfold group_entry, group_record. destruct k.
  - rewrite N6, F. apply six in H as (a & b & c & d & x & y & E & B). rewrite E. unfold attr_widths, icon_widths. cbn [app enc_fields]. rewrite <- !app_assoc, app_nil_r. reflexivity.
  - rewrite !N by lia. rewrite N6. destruct K as (K1 & K2 & K3 & K4). apply six in H as (a & b & c & d & x & y & E & B). rewrite E in *. cbn [nth] in *.
    replace (u16 (b * 2)) with (2 * b) by (unfold u16; lia). rewrite u32_small by lia. unfold cursor_widths. cbn [enc_fields]. rewrite app_nil_r. reflexivity.
Qed.
Lemma zlen_group_record k e id : good_picture e -> zlen (group_record k e id) = 14.
Proof.
  intros [H _]. apply six in H as (a & b & c & d & x & y & E & _). unfold group_record. rewrite E. destruct k; [unfold attr_widths; cbn [enc_fields]|]; rewrite ?zlen_app, ?zlen_le; reflexivity.
Qed.
Definition icon_fields (e : picture) (id : Z) : list Z := attrs e ++ [zlen (pixels e); id].
Lemma dec_icon_record e id : good_picture e -> is_u16 id -> dec_fields icon_widths (group_record Icon e id) = icon_fields e id.
Proof.
  intros [H S] I. unfold is_u16 in I. apply six in H as (a & b & c & d & x & y & E & B).
  replace (group_record Icon e id) with (enc_fields icon_widths (icon_fields e id) ++ []).
  - apply dec_enc_fields. unfold icon_fields. rewrite E. unfold icon_widths. cbn [app fits]. change (256 ^ Z.of_nat 1) with 256. change (256 ^ Z.of_nat 2) with 65536. change (256 ^ Z.of_nat 4) with (2^32). lia.
  - unfold group_record, icon_fields. rewrite E. unfold attr_widths, icon_widths. cbn [app enc_fields]. rewrite !app_nil_r, <- !app_assoc. reflexivity.
Qed.
Lemma dec_cursor_record e id : good_picture e -> kept Cursor e -> is_u16 id ->
  dec_fields cursor_widths (group_record Cursor e id) = [nth 0 (attrs e) 0; 2 * nth 1 (attrs e) 0; 0; 0; zlen (pixels e) + 4; id].
Proof.
  intros [H S] (K1 & K2 & K3 & K4) I. unfold is_u16 in I. apply six in H as (a & b & c & d & x & y & E & B). rewrite E in *. cbn [nth] in *.
  replace (group_record Cursor e id) with (enc_fields cursor_widths [a; 2 * b; 0; 0; zlen (pixels e) + 4; id] ++ []).
  - apply dec_enc_fields. unfold cursor_widths. cbn [fits]. change (256 ^ Z.of_nat 2) with 65536. change (256 ^ Z.of_nat 4) with (2^32). lia.
  - unfold group_record. rewrite E. unfold cursor_widths. cbn [nth enc_fields]. rewrite !app_nil_r. reflexivity.
Qed.
Lemma number_record k e id : good_picture e -> kept k e -> is_u16 id -> group_number k (group_record k e id) = id.
Proof.
  intros G K I. unfold group_number. destruct k.
  - rewrite dec_icon_record by assumption. destruct G as [H _]. destruct (nth_attrs e (zlen (pixels e)) id H) as (_ & _ & N7 & _). exact N7.
  - rewrite dec_cursor_record by assumption. reflexivity.
Qed.
Lemma file_entry_record k e id hot off : good_picture e -> kept k e -> is_u16 id -> 0 <= off < 2^32 -> (k = Cursor -> hot = image_data k e) ->
  file_entry k (group_record k e id) hot off = Ok (file_record e off, zlen (pixels e)).
Proof.
  intros G K I O Hh. rewrite file_record_enc by exact G. unfold file_entry. destruct k.
  - rewrite dec_icon_record by assumption. destruct G as [H _]. destruct (nth_attrs e (zlen (pixels e)) id H) as (_ & N6 & _ & F). unfold icon_fields. rewrite N6, F. reflexivity.
  - rewrite dec_cursor_record by assumption. rewrite (Hh eq_refl). destruct G as [H S]. destruct K as (K1 & K2 & K3 & K4). apply six in H as (a & b & c & d & x & y & E & B). unfold image_data. rewrite E in *. cbn [nth] in *.
    rewrite !zlen_app, !zlen_le. replace (Z.of_nat 2 + (Z.of_nat 2 + zlen (pixels e)) <? 4) with false by (pose proof (zlen_nonneg (pixels e)); lia). cbn [throw_if bind].
    rewrite (rd_le_ok' _ 0 2 x), (rd_le_ok' _ 2 2 y).
    + cbn [bind]. subst c d. replace (u8 a) with a by (unfold u8; lia). replace (u8 (2 * b)) with (2 * b) by (unfold u8; lia). replace (2 * b / 2) with b by lia. replace (u32 (zlen (pixels e) + 4 - 4)) with (zlen (pixels e)) by (rewrite u32_small; lia). reflexivity.
    + change (256 ^ Z.of_nat 2) with 65536. lia.
    + apply stands_holds. exists (le 2 x), (pixels e). split; [reflexivity|rewrite zlen_le; reflexivity].
    + change (256 ^ Z.of_nat 2) with 65536. lia.
    + apply stands_holds. exists [], (le 2 y ++ pixels e). split; reflexivity.
Qed.
Lemma image_of_data k e : image_of k (image_data k e) = Ok (pixels e).
Proof.
  destruct k; unfold image_of, image_data; [reflexivity|]. rewrite !zlen_app, !zlen_le. replace (Z.of_nat 2 + (Z.of_nat 2 + zlen (pixels e)) <? 4) with false by (pose proof (zlen_nonneg (pixels e)); lia). cbn [throw_if bind].
  rewrite app_assoc. f_equal.
Qed.
Lemma stored_image_data k e off : good_picture e -> stored_image k (attrs e ++ [zlen (pixels e); off]) (pixels e) = image_data k e.
Proof. intros [H _]. destruct (nth_attrs e (zlen (pixels e)) off H) as (N & _). unfold stored_image, image_data. destruct k; [reflexivity|]. rewrite !N by lia. reflexivity. Qed.

(** ** Reading a group *)
Lemma zrange_from n : zrange n = from 0 (Z.to_nat n).
Proof. unfold zrange, from. apply map_ext. intros k. reflexivity. Qed.
Lemma content_data t r n l v : content t r n l = Some v <-> resource_data t l r n = Ok v.
Proof. unfold content, found. destruct (resource_data t l r n); split; intros H; congruence. Qed.
Definition records (k : kind) (items : list (picture * Z)) : list Z := concat (map (fun p => group_record k (fst p) (snd p)) items).
Lemma zlen_records k items : Forall (fun p => good_picture (fst p)) items -> zlen (records k items) = 14 * zlen items.
Proof. induction 1 as [|p l H _ IH]; [reflexivity|]. unfold records. cbn [map concat]. fold (records k l). rewrite zlen_app, zlen_group_record, zlen_cons, IH by exact H. lia. Qed.
Lemma record_at k d off items : holds d off (records k items) -> Forall (fun p => good_picture (fst p)) items -> forall i p, nth_error items i = Some p -> holds d (off + 14 * Z.of_nat i) (group_record k (fst p) (snd p)).
Proof.
  intros H F. revert off H. induction F as [|q l Hq _ IH]; intros off H i p E; [destruct i; discriminate|]. unfold records in H. cbn [map concat] in H. fold (records k l) in H. apply holds_app in H as [H1 H2]. rewrite zlen_group_record in H2 by exact Hq.
  destruct i as [|i]; [injection E as ->; replace (off + 14 * Z.of_nat 0) with off by lia; exact H1|]. cbn [nth_error] in E. specialize (IH _ H2 i p E). replace (off + 14 * Z.of_nat (S i)) with (off + 14 + 14 * Z.of_nat i) by lia. exact IH.
Qed.
Definition pictures_of (items : list (picture * Z)) : list picture := map fst items.
Definition total_size (es : list picture) : Z := zlen (concat (map pixels es)).
Lemma total_cons e es : total_size (e :: es) = zlen (pixels e) + total_size es.
Proof. unfold total_size. cbn [map concat]. apply zlen_app. Qed.
Lemma total_nonneg es : 0 <= total_size es. Proof. apply zlen_nonneg. Qed.
(* the loop that writes the headers *)
Lemma headers_loop t k language d : forall items i out off,
  (forall j p, nth_error items j = Some p -> holds d (6 + 14 * (i + Z.of_nat j)) (group_record k (fst p) (snd p))) ->
  Forall (fun p => good_picture (fst p) /\ kept k (fst p) /\ is_u16 (snd p) /\ exists c, content t (image_type k) (Ided (snd p)) language = Some (image_data k (fst p), c)) items ->
  0 <= i -> 0 <= off -> off + total_size (pictures_of items) < 2^32 ->
  mfold (fun (st : list Z * Z) i =>
    let '(out, off) := st in
    g <- rd d (6 + i * 14) 14 ;;
    hot <- match k with Icon => Ok [] | Cursor => data_by t (ByLanguage language) (image_type k) (Ided (group_number k g)) end ;;
    ' (e, size) <- file_entry k g hot off ;;
    Ok (out ++ e, u32 (off + size))) (from i (length items)) (out, off) = Ok (out ++ packed_entries off (pictures_of items), off + total_size (pictures_of items)).
Proof.
  induction items as [|[e id] items IH]; intros i out off R F Hi O B.
  - cbn [length]. change (from i 0) with (@nil Z). cbn [mfold pictures_of map packed_entries]. rewrite app_nil_r. change (total_size []) with 0. rewrite Z.add_0_r. reflexivity.
  - cbn [length]. rewrite from_S. cbn [mfold]. inversion F as [|? ? [G [K [I [c C]]]] F']; subst. cbn [fst snd] in *. cbn [pictures_of map fst] in B |- *. fold (pictures_of items) in B |- *. rewrite total_cons in B |- *. pose proof (total_nonneg (pictures_of items)) as Tn. destruct G as [G1 G2]. assert (G : good_picture e) by (split; assumption).
    pose proof (R 0%nat _ eq_refl) as R0. cbn [fst snd] in R0. replace (6 + 14 * (i + Z.of_nat 0)) with (6 + i * 14) in R0 by lia.
    rewrite (rd_holds d (6 + i * 14) _ 14 R0) by (rewrite zlen_group_record by exact G; reflexivity). cbn [bind]. rewrite number_record by assumption.
    assert (Hot : exists hot, match k with Icon => Ok [] | Cursor => data_by t (ByLanguage language) (image_type k) (Ided id) end = Ok hot /\ (k = Cursor -> hot = image_data k e)).
    { destruct k; [exists []; split; [reflexivity|discriminate]|]. exists (image_data Cursor e). split; [|reflexivity]. unfold data_by. apply content_data in C. rewrite C. reflexivity. }
    destruct Hot as (hot & -> & Hh). cbn [bind]. rewrite file_entry_record by (try assumption; lia). cbn [bind]. rewrite u32_small by lia. rewrite (IH (i + 1)); [|intros j p E; pose proof (R (S j) p E) as Rj; replace (i + 1 + Z.of_nat j) with (i + Z.of_nat (S j)) by lia; exact Rj|exact F'|lia|lia|lia].
    cbn [packed_entries]. unfold file_record. rewrite <- !app_assoc, Z.add_assoc. reflexivity.
Qed.
Lemma images_loop t k language d : forall items i out,
  (forall j p, nth_error items j = Some p -> holds d (6 + 14 * (i + Z.of_nat j)) (group_record k (fst p) (snd p))) ->
  Forall (fun p => good_picture (fst p) /\ kept k (fst p) /\ is_u16 (snd p) /\ exists c, content t (image_type k) (Ided (snd p)) language = Some (image_data k (fst p), c)) items ->
  0 <= i ->
  mfold (fun out i =>
    g <- rd d (6 + i * 14) 14 ;;
    c <- data_by t (ByLanguage language) (image_type k) (Ided (group_number k g)) ;;
    im <- image_of k c ;; Ok (out ++ im)) (from i (length items)) out = Ok (out ++ concat (map pixels (pictures_of items))).
Proof.
  induction items as [|[e id] items IH]; intros i out R F Hi.
  - cbn [length]. change (from i 0) with (@nil Z). cbn [mfold pictures_of map concat]. rewrite app_nil_r. reflexivity.
  - cbn [length]. rewrite from_S. cbn [mfold]. inversion F as [|? ? [G [K [I [c C]]]] F']; subst. cbn [fst snd] in *. cbn [pictures_of map fst concat]. fold (pictures_of items).
    pose proof (R 0%nat _ eq_refl) as R0. cbn [fst snd] in R0. replace (6 + 14 * (i + Z.of_nat 0)) with (6 + i * 14) in R0 by lia.
    rewrite (rd_holds d (6 + i * 14) _ 14 R0) by (rewrite zlen_group_record by exact G; reflexivity). cbn [bind]. rewrite number_record by assumption. unfold data_by. apply content_data in C. rewrite C. cbn [bind]. rewrite image_of_data. cbn [bind].
    rewrite (IH (i + 1)); [rewrite <- app_assoc; reflexivity|intros j p E; pose proof (R (S j) p E) as Rj; replace (i + 1 + Z.of_nat j) with (i + Z.of_nat (S j)) by lia; exact Rj|exact F'|lia].
Qed.
Lemma group_parts t k name language codepage r ty items : holds_group t k name language codepage r ty items ->
  exists d, resource_data t language (group_type k) name = Ok (d, codepage) /\ 6 + zlen items * 14 <= zlen d /\ holds d 0 (le 2 r ++ le 2 ty ++ le 2 (zlen items)) /\
    rd_le d 4 2 = Ok (zlen items) /\ (forall j p, nth_error items j = Some p -> holds d (6 + 14 * (0 + Z.of_nat j)) (group_record k (fst p) (snd p))).
Proof.
  intros (Hr & Ht & Hn & (rest & C) & F). unfold is_u16 in Hr, Ht. apply content_data in C. eexists. split; [exact C|]. fold (records k items).
  assert (F1 : Forall (fun p => good_picture (fst p)) items) by (eapply Forall_impl; [|exact F]; intros p Hp; apply Hp).
  assert (H : holds (le 2 r ++ le 2 ty ++ le 2 (zlen items) ++ records k items ++ rest) 0 ((le 2 r ++ le 2 ty ++ le 2 (zlen items)) ++ records k items)).
  { apply stands_holds. exists [], rest. split; [rewrite <- !app_assoc; reflexivity|reflexivity]. }
  apply holds_app in H as [H1 H2]. rewrite !zlen_app, !zlen_le in H2. change (0 + (Z.of_nat 2 + (Z.of_nat 2 + Z.of_nat 2))) with 6 in H2. pose proof (zlen_nonneg items) as Zn.
  split; [pose proof (zlen_nonneg rest); rewrite !zlen_app, !zlen_le, zlen_records by exact F1; lia|]. split; [exact H1|]. split.
  - apply rd_le_ok'; [change (256 ^ Z.of_nat 2) with (2^16); lia|]. rewrite !holds_app in H1. destruct H1 as (_ & _ & H1). rewrite !zlen_le in H1. exact H1.
  - intros j p E. pose proof (record_at k _ 6 items H2 F1 j p E) as R. exact R.
Qed.
Lemma get_file_ok t k name language codepage r ty items : holds_group t k name language codepage r ty items -> 6 + 16 * zlen items + total_size (pictures_of items) < 2^32 ->
  get_file t k (ByLanguage language) name = Ok (packed_file r ty (pictures_of items)).
Proof.
  intros H B. destruct (group_parts _ _ _ _ _ _ _ _ H) as (d & C & L & Hd & Rl & R). destruct H as (Hr & Ht & Hn & _ & F). pose proof (zlen_nonneg items) as Zn. pose proof (total_nonneg (pictures_of items)) as Tn.
  assert (N : Z.to_nat (zlen items) = length items) by (unfold zlen; lia).
  unfold get_file. unfold data_by at 1. rewrite C. cbn [bind]. unfold file_headers. replace (zlen d <? 6) with false by lia. cbn [throw_if bind]. rewrite Rl. cbn [bind]. replace (zlen d <? 6 + zlen items * 14) with false by lia. cbn [throw_if bind].
  rewrite (rd_holds d 0 _ 6 Hd) by (rewrite !zlen_app, !zlen_le; reflexivity). cbn [bind]. rewrite zrange_from, N. rewrite (headers_loop t k language d items 0); try assumption; try lia; [|rewrite u32_small by lia; lia|rewrite u32_small by lia; lia].
  cbn [bind]. rewrite zrange_from, N. rewrite (images_loop t k language d items 0); try assumption; try lia. rewrite u32_small by lia. f_equal. unfold packed_file. replace (zlen (pictures_of items)) with (zlen items) by (unfold pictures_of, zlen; rewrite map_length; reflexivity). rewrite <- !app_assoc. reflexivity.
Qed.

(** ** The packed file is a file with these pictures *)
Lemma zlen_packed_entries es : Forall good_picture es -> forall off, zlen (packed_entries off es) = 16 * zlen es.
Proof. induction 1 as [|e l H _ IH]; intros off; [reflexivity|]. cbn [packed_entries]. rewrite !app_assoc, zlen_app, IH. pose proof (zlen_file_record e off H) as L. unfold file_record in L. rewrite app_assoc in L. rewrite L, zlen_cons. lia. Qed.
Lemma packed_at f : forall es p o, Forall good_picture es -> holds f p (packed_entries o es) -> holds f o (concat (map pixels es)) ->
  forall i e, nth_error es i = Some e -> exists off, o <= off /\ off + zlen (pixels e) <= o + total_size es /\ holds f (p + 16 * Z.of_nat i) (file_record e off) /\ holds f off (pixels e).
Proof.
  induction es as [|q es IH]; intros p o F H1 H2 i e E; [destruct i; discriminate|]. inversion F as [|? ? G F']; subst. cbn [packed_entries] in H1. cbn [map concat] in H2. rewrite !app_assoc in H1. apply holds_app in H1 as [H1 H3]. apply holds_app in H2 as [H2 H4].
  pose proof (zlen_file_record q o G) as Lq. unfold file_record in Lq. rewrite app_assoc in Lq. rewrite Lq in H3. rewrite total_cons. pose proof (total_nonneg es) as Tn.
  destruct i as [|i]; [injection E as ->|]; [|cbn [nth_error] in E].
  - exists o. split; [lia|]. split; [lia|]. split; [|exact H2]. unfold file_record. rewrite app_assoc. replace (p + 16 * Z.of_nat 0) with p by lia. exact H1.
  - destruct (IH _ _ F' H3 H4 i e E) as (off & A1 & A2 & A3 & A4). exists off. pose proof (zlen_nonneg (pixels q)). split; [lia|]. split; [lia|]. split; [|exact A4]. replace (p + 16 * Z.of_nat (S i)) with (p + 16 + 16 * Z.of_nat i) by lia. exact A3.
Qed.
Lemma packed_ok r ty es : is_u16 r -> is_u16 ty -> 0 < zlen es < 2^16 -> Forall good_picture es -> 6 + 16 * zlen es + total_size es < 2^32 -> image_file (packed_file r ty es) r ty es.
Proof.
  intros Hr Ht Hn F B. unfold packed_file.
  assert (H : holds (le 2 r ++ le 2 ty ++ le 2 (zlen es) ++ packed_entries (6 + 16 * zlen es) es ++ concat (map pixels es)) 0 (((le 2 r ++ le 2 ty ++ le 2 (zlen es)) ++ packed_entries (6 + 16 * zlen es) es) ++ concat (map pixels es))).
  { apply stands_holds. exists [], []. split; [rewrite app_nil_r, <- !app_assoc; reflexivity|reflexivity]. }
  revert H. generalize (le 2 r ++ le 2 ty ++ le 2 (zlen es) ++ packed_entries (6 + 16 * zlen es) es ++ concat (map pixels es)). intros f H. apply holds_app in H as [H H3]. apply holds_app in H as [H1 H2].
  rewrite !zlen_app, !zlen_le in H2. rewrite !zlen_app, !zlen_le, zlen_packed_entries in H3 by exact F. change (0 + (Z.of_nat 2 + (Z.of_nat 2 + Z.of_nat 2))) with 6 in H2.
  replace (0 + (Z.of_nat 2 + (Z.of_nat 2 + Z.of_nat 2) + 16 * zlen es)) with (6 + 16 * zlen es) in H3 by lia.
  split; [exact Hr|]. split; [exact Ht|]. split; [exact Hn|]. split; [apply stands_holds; exact H1|]. intros i e E. rewrite Forall_forall in F. split; [apply F; eapply nth_error_In; exact E|].
  apply Forall_forall in F. destruct (packed_at f es 6 (6 + 16 * zlen es) F H2 H3 i e E) as (off & A1 & A2 & A3 & A4). exists off. split; [lia|]. split; [lia|]. split; apply stands_holds; assumption.
Qed.
