(** Icons and cursors: no content makes the functions read or write out of bounds, with the exceptions shown at the end. *)
From Verif Require Import BaseFacts DirFacts StoreFacts ResDataFacts ManagerFacts.
From Verif Require Export IconMore.

(** ** The tree *)
Lemma safe_dir_of n : safe (dir_of n). Proof. destruct n; exact I. Qed.
Lemma safe_leaf_of n : safe (leaf_of n). Proof. destruct n; exact I. Qed.
Lemma safe_entry_by k l : safe (entry_by k l). Proof. unfold entry_by. destruct (find _ l); exact I. Qed.
Lemma safe_dir_by k l : safe (dir_by k l). Proof. unfold dir_by. apply safe_bind; [apply safe_entry_by|]. intros c _. apply safe_dir_of. Qed.
Lemma safe_languages t r n : safe (languages_of t r n).
Proof. unfold languages_of. apply safe_bind; [apply safe_dir_of|]. intros [h l] _. apply safe_bind; [apply safe_dir_by|]. intros [h2 l2] _. apply safe_bind; [apply safe_dir_by|]. intros [h3 l3] _. exact I. Qed.
Lemma safe_list_ids t r : safe (list_ids t r).
Proof. unfold list_ids. apply safe_bind; [apply safe_dir_of|]. intros [h l] _. apply safe_bind; [apply safe_dir_by|]. intros [h2 l2] _. exact I. Qed.
Lemma safe_list_names t r : safe (list_names t r).
Proof. unfold list_names. apply safe_bind; [apply safe_dir_of|]. intros [h l] _. apply safe_bind; [apply safe_dir_by|]. intros [h2 l2] _. exact I. Qed.
Lemma safe_list_languages t r n : safe (list_languages t r n).
Proof. unfold list_languages. apply safe_bind; [apply safe_languages|]. intros m _. exact I. Qed.
Lemma safe_data t l r n : safe (resource_data t l r n).
Proof. unfold resource_data. apply safe_bind; [apply safe_languages|]. intros m _. apply safe_bind; [apply safe_entry_by|]. intros c _. apply safe_leaf_of. Qed.
Lemma safe_data_at t r n i : safe (resource_data_at t r n i).
Proof. unfold resource_data_at. apply safe_bind; [apply safe_languages|]. intros m _. destruct (nth_error m (Z.to_nat i)); [apply safe_leaf_of|exact I]. Qed.
Lemma safe_data_by t w r n : safe (data_by t w r n).
Proof. unfold data_by. apply safe_bind; [destruct w; [apply safe_data|apply safe_data_at]|]. intros [d c] _. exact I. Qed.
Lemma safe_dir_or_new k ts l : safe (dir_or_new k ts l).
Proof. unfold dir_or_new. destruct (find _ l); [|exact I]. apply safe_bind; [apply safe_dir_of|]. intros d _. exact I. Qed.
Lemma safe_add t d r n l c ts : safe (add_resource t d r n l c ts).
Proof.
  unfold add_resource. apply safe_bind; [apply safe_dir_of|]. intros [h l1] _. apply safe_bind; [apply safe_dir_or_new|]. intros [l1' [h2 l2]] _. apply safe_bind; [apply safe_dir_or_new|]. intros [l2' [h3 l3]] _. exact I.
Qed.
Lemma safe_remove t r n l : safe (remove_language t r n l).
Proof.
  unfold remove_language. apply safe_bind; [apply safe_dir_of|]. intros [h l1] _. destruct (find _ l1); [|exact I]. apply safe_bind; [apply safe_dir_of|]. intros [h2 l2] _. destruct (find _ l2); [|exact I]. apply safe_bind; [apply safe_dir_of|]. intros [h3 l3] _.
  destruct (existsb _ l3); exact I.
Qed.
Lemma in_zrange n i : In i (zrange n) -> 0 <= i < n.
Proof. rewrite zrange_from. intros H. apply in_from in H. lia. Qed.
Lemma rd_safe d off n : 0 <= off -> 0 <= n -> off + n <= zlen d -> exists s, rd d off n = Ok s /\ zlen s = n.
Proof. intros A B C. rewrite rd_ok by lia. eexists. split; [reflexivity|]. apply zlen_slice; lia. Qed.
Lemma rd_le_safe d off n : 0 <= off -> off + Z.of_nat n <= zlen d -> exists v, rd_le d off n = Ok v.
Proof. intros A B. unfold rd_le. destruct (rd_safe d off (Z.of_nat n)) as (s & -> & _); [lia|lia|lia|]. cbn [bind]. eauto. Qed.

(** ** Reading *)
Lemma safe_file_entry k g hot off : safe (file_entry k g hot off).
Proof.
  unfold file_entry. destruct k; [exact I|]. destruct (zlen hot <? 4) eqn:E; [exact I|]. cbn [throw_if bind]. destruct (rd_le_safe hot 0 2) as [x ->]; [lia|lia|]. cbn [bind]. destruct (rd_le_safe hot 2 2) as [y ->]; [lia|lia|]. exact I.
Qed.
Lemma safe_headers t k w d : safe (file_headers t k w d).
Proof.
  unfold file_headers. apply safe_bind; [apply safe_throw_if|]. intros [] L. apply throw_if_ok in L. destruct (rd_le_safe d 4 2) as [count ->]; [lia|lia|]. cbn [bind]. apply safe_bind; [apply safe_throw_if|]. intros [] C. apply throw_if_ok in C.
  destruct (rd_safe d 0 6) as (h & -> & _); [lia|lia|lia|]. cbn [bind].
  apply safe_bind; [|intros [out x] _; exact I]. match goal with |- safe (mfold ?f ?l ?b) => pose proof (mfold_safe f (fun _ => True) l) as M end.
  assert (S : forall b : list Z * Z, True -> match mfold (fun (st : list Z * Z) i => let '(out, off) := st in g <- rd d (6 + i * 14) 14 ;; hot <- match k with Icon => Ok [] | Cursor => data_by t w (image_type k) (Ided (group_number k g)) end ;; ' (e, size) <- file_entry k g hot off ;; Ok (out ++ e, u32 (off + size))) (zrange count) b with Ok _ => True | Throw _ => True | _ => False end).
  { apply M. intros [out off] i _ Hi. apply in_zrange in Hi. destruct (rd_safe d (6 + i * 14) 14) as (g & -> & _); [lia|lia|lia|]. cbn [bind].
    assert (Sh : safe (match k with Icon => Ok [] | Cursor => data_by t w (image_type k) (Ided (group_number k g)) end)) by (destruct k; [exact I|apply safe_data_by]).
    destruct (match k with Icon => Ok [] | Cursor => data_by t w (image_type k) (Ided (group_number k g)) end) as [hot| | |]; try exact I; try exact Sh. cbn [bind]. pose proof (safe_file_entry k g hot off) as Se. destruct (file_entry k g hot off) as [[e size]| | |]; try exact I; exact Se. }
  specialize (S (h, u32 (6 + 16 * count)) I). unfold safe. exact S.
Qed.
Lemma safe_image_of k d : safe (image_of k d).
Proof. unfold image_of. destruct k; [exact I|]. destruct (zlen d <? 4); exact I. Qed.
Lemma headers_count t k w d out count : file_headers t k w d = Ok (out, count) -> 6 + count * 14 <= zlen d.
Proof.
  unfold file_headers. intros H. thr H L. bnd H c Ec. thr H C. bnd H h Eh. bnd H st Es. destruct st as [o x]. injection H as <- <-. lia.
Qed.
Lemma safe_get_file t k w name : safe (get_file t k w name).
Proof.
  unfold get_file. apply safe_bind; [apply safe_data_by|]. intros d _. apply safe_bind; [apply safe_headers|]. intros [out count] H. apply headers_count in H.
  pose proof (mfold_safe (fun out i => g <- rd d (6 + i * 14) 14 ;; c <- data_by t w (image_type k) (Ided (group_number k g)) ;; im <- image_of k c ;; Ok (out ++ im)) (fun _ => True) (zrange count)) as M.
  unfold safe. assert (S : forall b : list Z, True -> match mfold (fun out i => g <- rd d (6 + i * 14) 14 ;; c <- data_by t w (image_type k) (Ided (group_number k g)) ;; im <- image_of k c ;; Ok (out ++ im)) (zrange count) b with Ok _ => True | Throw _ => True | _ => False end); [|exact (S out I)].
  apply M. intros b i _ Hi. apply in_zrange in Hi. destruct (rd_safe d (6 + i * 14) 14) as (g & -> & _); [lia|lia|lia|]. cbn [bind].
  pose proof (safe_data_by t w (image_type k) (Ided (group_number k g))) as Sd. destruct (data_by t w (image_type k) (Ided (group_number k g))) as [c| | |]; try exact I; try exact Sd. cbn [bind]. pose proof (safe_image_of k c) as Si. destruct (image_of k c); try exact I; exact Si.
Qed.
Lemma safe_find_image k d raw id : forall n i, 0 <= i -> 4 <= zlen d -> 6 + (i + Z.of_nat n) * 14 <= zlen d -> safe (find_image k d raw id i n).
Proof.
  induction n as [|n IH]; intros i Hi H4 H; cbn [find_image]; [exact I|]. destruct (rd_safe d (6 + i * 14) 14) as (g & -> & _); [lia|lia|lia|]. cbn [bind]. destruct (group_number k g =? id); [|apply IH; lia].
  destruct (rd_safe d 0 4) as (h & -> & _); [lia|lia|lia|]. cbn [bind]. apply safe_bind; [apply safe_file_entry|]. intros [e x] _. exact I.
Qed.
Lemma safe_presence k d raw id : k = Icon \/ 6 + announced d * 14 <= zlen d -> safe (check_presence k d raw id).
Proof.
  intros H. unfold check_presence. destruct (zlen d <? 6) eqn:L; [exact I|]. cbn [throw_if bind]. unfold rd_le. rewrite rd_ok by lia. cbn [bind]. change (slice d 4 (Z.of_nat 2)) with (slice d 4 2). fold (announced d).
  apply safe_bind; [apply safe_throw_if|]. intros [] C. apply throw_if_ok in C. destruct (Z_lt_le_dec (announced d) 0) as [N|N].
  - replace (Z.to_nat (announced d)) with 0%nat by lia. exact I.
  - apply safe_find_image; [lia|lia|]. destruct H as [->|H]; lia.
Qed.
Lemma safe_lookup t k raw language id : (forall name d c, resource_data t language (group_type k) name = Ok (d, c) -> k = Icon \/ 6 + announced d * 14 <= zlen d) -> forall names, safe (lookup t k raw language id names).
Proof.
  intros H. induction names as [|n names IH]; cbn [lookup]; [exact I|]. apply safe_bind; [apply safe_list_languages|]. intros langs _. destruct (existsb (Z.eqb language) langs); [|exact IH].
  pose proof (safe_data t language (group_type k) n) as Sd. destruct (resource_data t language (group_type k) n) as [[d c]| | |] eqn:E; cbn [bind]; try exact I; try exact Sd. pose proof (safe_presence k d raw id (H n d c E)) as Sp. destruct (check_presence k d raw id) as [[h|]| | |]; cbn [bind]; try exact I; try exact Sp. exact IH.
Qed.
Lemma safe_single t k w id : (forall language name d c, resource_data t language (group_type k) name = Ok (d, c) -> k = Icon \/ 6 + announced d * 14 <= zlen d) -> safe (get_single t k w id).
Proof.
  intros H. unfold get_single. apply safe_bind.
  - destruct w; [exact I|]. apply safe_bind; [apply safe_list_languages|]. intros langs _. destruct (nth_error langs (Z.to_nat index)); exact I.
  - intros language _. apply safe_bind; [apply safe_data_by|]. intros raw _. apply safe_bind; [|intros h _; apply safe_bind; [apply safe_image_of|intros im _; exact I]].
    unfold lookup_group. apply safe_bind; [apply safe_list_ids|]. intros ids _. apply safe_bind; [apply safe_list_names|]. intros ns _. apply safe_lookup. apply H.
Qed.

(** ** Removing *)
Lemma safe_remove_group t k name language : safe (remove_group t k name language).
Proof.
  unfold remove_group. apply safe_bind; [apply safe_data|]. intros [d c] _. apply safe_bind; [|intros t' _; apply safe_remove]. unfold remove_images. apply safe_bind; [apply safe_throw_if|]. intros [] L. apply throw_if_ok in L.
  destruct (rd_le_safe d 4 2) as [count ->]; [lia|lia|]. cbn [bind]. apply safe_bind; [apply safe_throw_if|]. intros [] C. apply throw_if_ok in C.
  pose proof (mfold_safe (fun t i => id <- rd_le d (6 + i * 14 + 12) 2 ;; ' (t', _) <- remove_language t (image_type k) (Ided id) language ;; Ok t') (fun _ => True) (zrange count)) as M.
  assert (S : forall b : rnode, True -> match mfold (fun t i => id <- rd_le d (6 + i * 14 + 12) 2 ;; ' (t', _) <- remove_language t (image_type k) (Ided id) language ;; Ok t') (zrange count) b with Ok _ => True | Throw _ => True | _ => False end); [|exact (S t I)].
  apply M. intros b i _ Hi. apply in_zrange in Hi. destruct (rd_le_safe d (6 + i * 14 + 12) 2) as [v ->]; [lia|lia|]. cbn [bind]. pose proof (safe_remove b (image_type k) (Ided v) language) as Sr. destruct (remove_language b (image_type k) (Ided v) language) as [[b' x]| | |]; try exact I; exact Sr.
Qed.

(** ** Adding *)
Lemma fill_gap_ends n : forall i stop count acc, zlen acc < count -> count - zlen acc < Z.of_nat n -> exists l, fill_gap n i stop count acc = Ok l /\ zlen l <= count.
Proof.
  induction n as [|n IH]; intros i stop count acc H1 H2; [lia|]. cbn [fill_gap]. destruct (i =? stop); [exists acc; split; [reflexivity|lia]|]. destruct (zlen (acc ++ [i]) =? count) eqn:E; [eexists; split; [reflexivity|lia]|].
  rewrite zlen_app in E. change (zlen [i]) with 1 in E. apply IH; rewrite zlen_app; change (zlen [i]) with 1; lia.
Qed.
Lemma fill_gaps_ends n count : count < Z.of_nat n -> forall l prev acc, zlen acc < count -> exists r, fill_gaps n prev l count acc = Ok r /\ zlen r <= count.
Proof.
  intros Hn. induction l as [|x l IH]; intros prev acc H; cbn [fill_gaps]; [exists acc; split; [reflexivity|lia]|]. pose proof (zlen_nonneg acc) as Za.
  assert (S : exists a, match prev with None => if 1 <? x then fill_gap n 1 x count acc else Ok acc | Some p => if 1 <? u32 (p - x) then fill_gap n (u16 (p + 1)) (u16 x) count acc else Ok acc end = Ok a /\ zlen a <= count).
  { destruct prev as [p|]; [destruct (1 <? u32 (p - x))|destruct (1 <? x)]; try (exists acc; split; [reflexivity|lia]); apply fill_gap_ends; lia. }
  destruct S as (a & -> & La). cbn [bind]. destruct (zlen a =? count) eqn:E; [exists a; split; [reflexivity|exact La]|]. apply IH. lia.
Qed.
Lemma free_ids_safe t k at_end count : 0 < count < 2^16 -> count < 65535 \/ (exists ids, list_ids t (image_type k) = Ok ids) -> safe (free_ids t k at_end count).
Proof.
  intros C H. unfold free_ids, free_ids_from. pose proof (safe_list_ids t (image_type k)) as S. destruct (list_ids t (image_type k)) as [ids|e| |] eqn:E; try exact S.
  - destruct at_end; [exact I|]. destruct (fill_gaps_ends (Z.to_nat 65537) count ltac:(lia) (sort_ids ids) None []) as (r & -> & _); [change (@zlen Z []) with 0; lia|]. exact I.
  - destruct H as [H|[ids [=]]]. unfold u32. rewrite Z.mod_small by lia. rewrite count_up_from by lia. exact I.
Qed.
Lemma dec_bound d : bytes d -> zlen d = 16 -> 0 <= nth 6 (dec_fields dirent_widths d) 0 < 2^32 /\ 0 <= nth 7 (dec_fields dirent_widths d) 0 < 2^32.
Proof.
  intros B L. pose proof (dec_fields_fits dirent_widths d B) as F. pose proof (dec_fields_length dirent_widths d) as Ln. destruct (dec_fields dirent_widths d) as [|a [|b [|c [|e [|x [|y [|s [|o [|z l]]]]]]]]]; try discriminate Ln.
  unfold dirent_widths in F. cbn [fits] in F. change (256 ^ Z.of_nat 4) with (2^32) in F. cbn [nth]. lia.
Qed.
Lemma wr_safe d off bs : 0 <= off -> off + zlen bs <= zlen d -> exists d', wr d off bs = Ok d' /\ zlen d' = zlen d.
Proof. apply wr_total. Qed.
Lemma zlen_group_entry k v id : length v = 8%nat -> zlen (group_entry k v id) = 14.
Proof. intros L. unfold group_entry. destruct k; rewrite enc_fields_length; try reflexivity. rewrite app_length, firstn_length, L. reflexivity. Qed.
Lemma skipn_skipn' {A} (l : list A) : skipn 2 (skipn 2 l) = skipn (Z.to_nat 4) l.
Proof. destruct l as [|a [|b l]]; reflexivity. Qed.
Lemma safe_add_file t k f name language at_end codepage timestamp : bytes f -> tree_bytes t -> announced f < 65535 \/ (exists ids, list_ids t (image_type k) = Ok ids) ->
  safe (add_file t k f name language at_end codepage timestamp).
Proof.
  intros Bf Bt Hc. unfold add_file, add_file_from.
  assert (Main : forall group, (forall d c, group = Some (d, c) -> bytes d) -> safe (add_images_from (Z.to_nat 65537) t k f group name language at_end codepage timestamp)).
  { intros group Bg. unfold add_images_from. apply safe_bind; [apply safe_throw_if|]. intros [] L. apply throw_if_ok in L. rewrite rd_ok by lia. cbn [bind].
    assert (Ea : nth 2 (dec_fields head_widths (slice f 0 6)) 0 = announced f).
    { unfold announced. replace (slice f 4 2) with (slice (slice f 0 6) 4 2) by (apply slice_slice; lia). unfold head_widths. cbn [dec_fields nth]. rewrite skipn_skipn'. reflexivity. }
    rewrite Ea. pose proof (unle_bound (slice f 4 2) (bytes_slice f 4 2 Bf)) as Ub. rewrite zlen_slice in Ub by lia. change (256 ^ 2) with (2^16) in Ub. fold (announced f) in Ub. revert Hc Ub. clear Ea. generalize (announced f). intros count Hc Ub.
    rewrite u32_small by lia. apply safe_bind; [apply safe_throw_if|]. intros [] C. apply throw_if_ok in C.
    assert (Ck : forall i, In i (zrange count) -> match check_dirent k f (6 + count * 16) i with Ok _ => forall s, s = slice f (6 + i * 16) 16 -> 0 <= nth 7 (dec_fields dirent_widths s) 0 /\ 0 <= nth 6 (dec_fields dirent_widths s) 0 /\ nth 7 (dec_fields dirent_widths s) 0 + nth 6 (dec_fields dirent_widths s) 0 <= zlen f | Throw _ => True | _ => False end).
    { intros i Hi. apply in_zrange in Hi. unfold check_dirent. rewrite rd_ok by lia. cbn [bind]. pose proof (dec_bound (slice f (6 + i * 16) 16) (bytes_slice f _ _ Bf) ltac:(apply zlen_slice; lia)) as [D6 D7].
      match goal with |- context [throw_if ?c _] => destruct c eqn:E end; cbn [throw_if]; [exact I|]. intros s ->. unfold is_sum_safe, max_dword in E. rewrite u32_small in E by lia. rewrite orb_false_iff in E. destruct E as [E1 E2]. rewrite u32_small in E2 by lia. lia. }
    assert (Cm : match mfold (fun (_ : unit) i => check_dirent k f (6 + count * 16) i) (zrange count) tt with Ok _ => Forall (fun i => exists u, check_dirent k f (6 + count * 16) i = Ok u) (zrange count) | Throw _ => True | _ => False end).
    { revert Ck. generalize (zrange count). induction l as [|i l IH]; intros Ck; [constructor|]. cbn [mfold]. pose proof (Ck i (or_introl eq_refl)) as C1. destruct (check_dirent k f (6 + count * 16) i) as [[]| | |] eqn:E; try exact C1. cbn [bind].
      assert (IHl := IH (fun j Hj => Ck j (or_intror Hj))). destruct (mfold (fun (_ : unit) i => check_dirent k f (6 + count * 16) i) l tt); try exact IHl. constructor; [eauto|exact IHl]. }
    destruct (mfold (fun (_ : unit) i => check_dirent k f (6 + count * 16) i) (zrange count) tt) as [[]| | |]; try exact I; try exact Cm. cbn [bind]. rewrite Forall_forall in Cm.
    (* the group *)
    assert (Gr : match match group with
                 | Some (d, c) => throw_if (zlen d <? 6) (incorrect k) ;;; b <- rd_le d 4 2 ;; throw_if (zlen d <? 6 + b * 14) (incorrect k) ;;; Ok (b, (resize d (6 + (b + count) * 14), c))
                 | None => g <- wr (zeros (6 + count * 14)) 0 (slice f 0 6) ;; Ok (0, (g, codepage)) end with
                 | Ok (b, (g, _)) => 0 <= b /\ zlen g = 6 + (b + count) * 14 | Throw _ => True | _ => False end).
    { destruct group as [[d c]|].
      - destruct (zlen d <? 6) eqn:E; [exact I|]. cbn [throw_if bind]. unfold rd_le. rewrite rd_ok by lia. cbn [bind]. pose proof (unle_bound (slice d 4 2) (bytes_slice d 4 2 (Bg d c eq_refl))) as Ug.
        change (slice d 4 (Z.of_nat 2)) with (slice d 4 2). destruct (zlen d <? 6 + unle (slice d 4 2) * 14); [exact I|]. cbn [throw_if bind]. split; [lia|]. apply zlen_resize. lia.
      - destruct (wr_safe (zeros (6 + count * 14)) 0 (slice f 0 6)) as (g & -> & Lg); [lia|rewrite zlen_slice, zlen_zeros by lia; lia|]. cbn [bind]. split; [lia|]. rewrite Lg, zlen_zeros by lia. lia. }
    destruct (match group with
                 | Some (d, c) => throw_if (zlen d <? 6) (incorrect k) ;;; b <- rd_le d 4 2 ;; throw_if (zlen d <? 6 + b * 14) (incorrect k) ;;; Ok (b, (resize d (6 + (b + count) * 14), c))
                 | None => g <- wr (zeros (6 + count * 14)) 0 (slice f 0 6) ;; Ok (0, (g, codepage)) end) as [[b [g cp]]| | |]; try exact I; try exact Gr. destruct Gr as [Hb Lg]. cbn [bind].
    apply safe_bind; [apply free_ids_safe; [lia|exact Hc]|]. intros ids _.
    pose proof (mfold_safe (put_image k f ids b language cp timestamp) (fun st => zlen (snd st) = 6 + (b + count) * 14) (zrange count)) as M.
    assert (S : match mfold (put_image k f ids b language cp timestamp) (zrange count) (t, g) with Ok st => zlen (snd st) = 6 + (b + count) * 14 | Throw _ => True | _ => False end).
    { apply M; [|exact Lg]. intros [t1 g1] i Lg1 Hi. cbn [snd] in Lg1. pose proof (Ck i Hi) as Cki. destruct (Cm i Hi) as [u Eu]. rewrite Eu in Cki. specialize (Cki _ eq_refl). apply in_zrange in Hi. unfold put_image. rewrite rd_ok by lia. cbn [bind].
      destruct (nth_error ids (Z.to_nat i)) as [id|]; [|exact I]. cbn [bind]. destruct (wr_safe g1 (6 + (b + i) * 14) (group_entry k (dec_fields dirent_widths (slice f (6 + i * 16) 16)) id)) as (g2 & -> & Lg2); [lia|rewrite zlen_group_entry by (rewrite dec_fields_length; reflexivity); lia|]. cbn [bind].
      rewrite rd_ok by lia. cbn [bind]. match goal with |- context [add_resource ?a ?b ?c ?d ?e ?f ?g] => pose proof (safe_add a b c d e f g) as Sa; destruct (add_resource a b c d e f g) end; cbn [bind]; try exact I; try exact Sa. cbn [snd]. lia. }
    destruct (mfold (put_image k f ids b language cp timestamp) (zrange count) (t, g)) as [[t1 g1]| | |]; try exact I; try exact S. cbn [bind snd] in *.
    apply safe_bind; [|intros g2 _; apply safe_add]. destruct group; [|exact I]. destruct (wr_safe g1 4 (le 2 (u16 (b + count)))) as (g2 & -> & _); [lia|rewrite zlen_le; lia|exact I]. }
  pose proof (safe_data t language (group_type k) name) as Sd. destruct (resource_data t language (group_type k) name) as [[d c]| | |] eqn:E; try exact Sd; apply Main; intros d' c' [= <- <-]; eapply Bt; exact E.
Qed.
