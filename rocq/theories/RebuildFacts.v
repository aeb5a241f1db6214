(** Lemmas about RebuildModel.v. *)
From Verif Require Export RebuildModel SpecRebuild PeEditFacts LoadExec.

(** ** Headers *)
Definition ptr_headers (p : pe) (strip : bool) : Z :=
  u64 (dos_written strip + sizeof_nt (p_plus p) + align_up64 (if strip then 0 else zlen (p_stub p)) 4
       - missing_dirs p + 40 * zlen (p_sections p)).
Definition dir_bound (p : pe) : Z * Z := nth 11 (h_dirs (p_nt p)) (0, 0).
Definition ptr_data (p : pe) (strip hb : bool) : Z :=
  align_up64 (if hb then u64 (ptr_headers p strip + snd (dir_bound p)) else ptr_headers p strip) (falign p).
Definition rebuilt_nt (p : pe) (strip change_hdr hb : bool) : nt_headers :=
  let h := p_nt p in
  let size := if change_hdr then u32 (ptr_data p strip hb) else h_hdrsize h in
  set_h_optsize (u16 (sizeof_opt (p_plus p) - missing_dirs p))
  (set_h_imagesize (match rev (p_sections p) with [] => size | s :: _ => u32 (s_va s + aligned_vsize (h_salign h) s) end)
  (set_h_nsections (u16 (zlen (p_sections p)))
  (set_h_hdrsize size
  (set_h_dirs (if hb then upd (h_dirs h) 11 (u32 (ptr_headers p strip), snd (dir_bound p)) else h_dirs h)
  (set_h_basecode (if strip then 16 else h_basecode h) h))))).
Definition rebuilt (p : pe) (strip change_hdr hb : bool) : pe :=
  mk_pe (p_plus p) (p_magic p) (p_dosmid p) (p_lfanew p) (if strip then [] else p_stub p)
    (rebuilt_nt p strip change_hdr hb) (place_sections (falign p) (ptr_data p strip hb) (p_sections p))
    (p_overlay p) (p_full p) (p_debug p).
Definition new_lfanew (p : pe) (strip : bool) : Z :=
  if strip then p_lfanew p else u32 (64 + align_up (u32 (zlen (p_stub p))) 4).

Ltac pe_red := cbv [update_number_of_sections set_number_of_sections set_size_of_image set_size_of_headers with_nt store_dir
  falign nrva hdrsize salign imagesize chars imagebase missing_dirs rebuilt rebuilt_nt new_lfanew
  h_signature h_machine h_nsections h_timestamp h_symtab h_nsyms h_optsize h_chars h_magic h_majlink h_minlink h_code h_idata h_udata h_ep h_basecode h_basedata h_imagebase h_salign h_falign h_majos h_minos h_majimg h_minimg h_majsub h_minsub h_win32ver h_imagesize h_hdrsize h_checksum h_subsystem h_dllchars h_stackres h_stackcom h_heapres h_heapcom h_loaderflags h_nrva h_dirs p_plus p_magic p_dosmid p_lfanew p_stub p_nt p_sections p_overlay p_full p_debug set_h_signature set_h_machine set_h_nsections set_h_timestamp set_h_symtab set_h_nsyms set_h_optsize set_h_chars set_h_magic set_h_majlink set_h_minlink set_h_code set_h_idata set_h_udata set_h_ep set_h_basecode set_h_basedata set_h_imagebase set_h_salign set_h_falign set_h_majos set_h_minos set_h_majimg set_h_minimg set_h_majsub set_h_minsub set_h_win32ver set_h_imagesize set_h_hdrsize set_h_checksum set_h_subsystem set_h_dllchars set_h_stackres set_h_stackcom set_h_heapres set_h_heapcom set_h_loaderflags set_h_nrva set_h_dirs set_p_plus set_p_magic set_p_dosmid set_p_lfanew set_p_stub set_p_nt set_p_sections set_p_overlay set_p_full set_p_debug].
Lemma update_image_size_eq q : update_image_size q =
  set_size_of_image (match rev (p_sections q) with [] => hdrsize q | s :: _ => u32 (s_va s + aligned_vsize (salign q) s) end) q.
Proof. unfold update_image_size. destruct (rev (p_sections q)); reflexivity. Qed.
Lemma rebuild_headers_eq p (strip chg save hb : bool) :
  (if save then directory_exists p dir_bound_import else Ok false) = Ok hb ->
  length (h_dirs (p_nt p)) = 16%nat -> (hb = true -> dir_bound_import < nrva p) ->
  rebuild_headers p strip chg save =
  throw_if (chg && match p_sections p with s :: _ => s_va s <? u32 (ptr_data p strip hb) | [] => false end) cannot_rebuild_image ;;;
  Ok (rebuilt p strip chg hb, new_lfanew p strip).
Proof.
  intros Hb Hl Hn.
  set (p1 := if strip then with_nt (set_h_basecode 16) (set_p_stub [] p) else p).
  assert ((if save then directory_exists p1 dir_bound_import else Ok false) = Ok hb) as Hb1.
  { rewrite <- Hb. unfold p1. destruct strip, save; reflexivity. }
  assert (h_dirs (p_nt p1) = h_dirs (p_nt p) /\ nrva p1 = nrva p /\ falign p1 = falign p /\ p_sections p1 = p_sections p /\
    p_plus p1 = p_plus p /\ zlen (p_stub p1) = (if strip then 0 else zlen (p_stub p))) as (E1 & E2 & E3 & E4 & E5 & E6).
  { unfold p1. destruct strip; repeat split. }
  unfold rebuild_headers. fold p1. rewrite Hb1. cbn [bind].
  replace (u64 (dos_written strip + sizeof_nt (p_plus p1) + align_up64 (zlen (p_stub p1)) 4 - missing_dirs p1 + 40 * zlen (p_sections p1)))
    with (ptr_headers p strip) by (unfold ptr_headers, missing_dirs; rewrite E2, E4, E5, E6; reflexivity).
  assert (nth_ub (h_dirs (p_nt p1)) dir_bound_import = Ok (dir_bound p)) as En.
  { rewrite E1. unfold dir_bound. apply nth_ub_ok; [|unfold dir_bound_import; lia].
    change (Z.to_nat dir_bound_import) with 11%nat. apply nth_error_nth'. lia. }
  destruct hb.
  - specialize (Hn eq_refl). unfold set_directory_rva. rewrite E2. rewrite (proj2 (Z.leb_gt _ _) Hn). cbn [throw_if bind].
    rewrite En. cbn [bind]. unfold get_directory_size. rewrite store_dir_nrva, E2, (proj2 (Z.leb_gt _ _) Hn). cbn [throw_if bind].
    assert (nth_ub (h_dirs (p_nt (store_dir p1 dir_bound_import (u32 (ptr_headers p strip), snd (dir_bound p))))) dir_bound_import =
      Ok (u32 (ptr_headers p strip), snd (dir_bound p))) as ->.
    { rewrite store_dir_dirs, E1. apply nth_ub_ok; [|unfold dir_bound_import; lia].
      change (Z.to_nat dir_bound_import) with 11%nat. apply nth_error_upd_same. lia. }
    cbn [bind snd]. unfold ptr_data at 1. change (falign (store_dir p1 dir_bound_import (u32 (ptr_headers p strip), snd (dir_bound p)))) with (falign p1).
    rewrite E3. fold (ptr_data p strip true). change (p_sections (store_dir p1 dir_bound_import (u32 (ptr_headers p strip), snd (dir_bound p)))) with (p_sections p1).
    rewrite E4.
    destruct chg; cbn [andb]; [destruct (match p_sections p with [] => false | s :: _ => s_va s <? u32 (ptr_data p strip true) end);
      cbn [throw_if bind]; [reflexivity|]|cbn [throw_if bind]];
    rewrite update_image_size_eq; unfold p1; destruct strip; destruct p as [? ? ? ? ? h secs ? ? ?]; destruct h; pe_red; reflexivity.
  - cbn [bind]. rewrite E3. fold (ptr_data p strip false).
    rewrite E4.
    destruct chg; cbn [andb]; [destruct (match p_sections p with [] => false | s :: _ => s_va s <? u32 (ptr_data p strip false) end);
      cbn [throw_if bind]; [reflexivity|]|cbn [throw_if bind]];
    rewrite update_image_size_eq; unfold p1; destruct strip; destruct p as [? ? ? ? ? h secs ? ? ?]; destruct h; pe_red; reflexivity.
Qed.

(** ** Sections *)
Lemma place_keeps fa l : forall ptr, Forall2 same_but_place l (place_sections fa ptr l).
Proof.
  induction l as [|s t IH]; intros ptr; cbn [place_sections]; [constructor|].
  destruct (s_rawsize s =? 0); constructor; try apply IH; unfold same_but_place; destruct s; reflexivity.
Qed.
Lemma same_place_fields s t : same_but_place s t ->
  s_name t = s_name s /\ s_vsize t = s_vsize s /\ s_va t = s_va s /\ s_rawsize t = s_rawsize s /\ s_relptr t = s_relptr s /\
  s_lineptr t = s_lineptr s /\ s_nrel t = s_nrel s /\ s_nline t = s_nline s /\ s_chars t = s_chars s /\
  s_data t = s_data s /\ s_old t = s_old s.
Proof. unfold same_but_place. destruct s, t. cbn. intros H. inversion H. repeat split. Qed.
Lemma same_place_raw s t : same_but_place s t -> raw_view t = raw_view s.
Proof.
  intros H. apply same_place_fields in H as (_ & _ & _ & _ & _ & _ & _ & _ & _ & Hd & Ho).
  unfold raw_view, unmap_virtual. rewrite Ho. destruct (s_old s); cbn; rewrite Hd; reflexivity.
Qed.
Lemma same_place_in sa r s t : same_but_place s t -> in_section sa r t = in_section sa r s.
Proof.
  intros H. apply same_place_fields in H as (_ & Hv & Ha & Hr & _).
  unfold in_section, aligned_vsize. rewrite Hv, Ha, Hr. reflexivity.
Qed.
Lemma find_index_Forall2 {A} (R : A -> A -> Prop) f g l m :
  (forall x y, R x y -> g y = f x) -> Forall2 R l m -> find_index g m = find_index f l.
Proof. intros H F. induction F as [|x y l m Hxy F IH]; cbn [find_index]; [reflexivity|]. rewrite (H _ _ Hxy), IH. reflexivity. Qed.
Lemma Forall2_nth {A B} (R : A -> B -> Prop) l m i x : Forall2 R l m -> nth_error l i = Some x -> exists y, nth_error m i = Some y /\ R x y.
Proof.
  intros F. revert i. induction F as [|a b l m Hab F IH]; intros [|i] H; cbn in *; try discriminate.
  - inversion H; subst. exists b. split; [reflexivity|assumption].
  - apply IH; assumption.
Qed.
Lemma Forall2_nth_r {A B} (R : A -> B -> Prop) l m i y : Forall2 R l m -> nth_error m i = Some y -> exists x, nth_error l i = Some x /\ R x y.
Proof.
  intros F. revert i. induction F as [|a b l m Hab F IH]; intros [|i] H; cbn in *; try discriminate.
  - inversion H; subst. exists a. split; [reflexivity|assumption].
  - apply IH; assumption.
Qed.

Fixpoint body (l : list section) (out : list Z) : list Z :=
  match l with
  | [] => out
  | s :: t => body t (out ++ zeros (s_rawptr s - zlen out) ++ ztake (s_rawsize s) (raw_view s))
  end.
Lemma write_sections_ok l : forall out,
  Forall (fun s => 0 <= s_rawsize s <= zlen (raw_view s)) l -> write_sections l out = Ok (body l out).
Proof.
  induction l as [|s t IH]; intros out F; cbn [write_sections body]; [reflexivity|].
  apply Forall_cons_iff in F as [H F]. rewrite rd_ok by lia. cbn [bind]. rewrite slice_take_drop, zdrop_0 by lia. apply IH; assumption.
Qed.

Lemma bound_inside p rva len size :
  Forall (fun s => hdrsize p <= s_va s) (p_sections p) -> length_rva p rva rva RawData true = Ok len ->
  0 <= rva <= hdrsize p -> 0 <= size <= len -> zlen (p_full p) < 2^32 ->
  exists buf off, ptr_rva p rva RawData true = Ok (buf, off) /\ 0 <= off /\ off + size <= zlen buf.
Proof.
  intros W E Hr Hs Hf. unfold length_rva in E. unfold ptr_rva. cbn [andb] in *.
  destruct (Z.ltb_spec rva (zlen (p_full p))) as [L|L]; cbn [andb] in E.
  - inversion E; subst len. exists (p_full p), rva. split; [reflexivity|]. split; [lia|].
    rewrite u32_small in Hs by lia. lia.
  - bnd E i Ei. rewrite Ei. cbn [bind]. bnd E s Es. rewrite Es. cbn [bind]. thr E C.
    exists (raw_view s), (rva - s_va s). split; [reflexivity|]. split; [lia|].
    inversion E as [E']. clear E. unfold data_length in E'. pose proof (zlen_nonneg (raw_view s)).
    apply get_section_inv in Es. pose proof (nth_Forall _ _ _ _ W Es) as Hv. cbv beta in Hv.
    destruct (Z.ltb_spec (zlen (raw_view s) + s_va s - rva) 0) as [L1|L1]; [lia|].
    unfold u32 in E'. pose proof (Z.mod_le (zlen (raw_view s) + s_va s - rva) (2^32) ltac:(lia) ltac:(lia)). lia.
Qed.
Lemma ptr_rebuilt p strip chg hb rva : match ptr_rva p rva RawData true with
  | Ok x => ptr_rva (rebuilt p strip chg hb) rva RawData true = Ok x | _ => True end.
Proof.
  unfold ptr_rva. change (p_full (rebuilt p strip chg hb)) with (p_full p).
  destruct (true && (rva <? zlen (p_full p))); [reflexivity|].
  assert (section_from_rva (rebuilt p strip chg hb) rva = section_from_rva p rva) as ES.
  { unfold section_from_rva. change (salign (rebuilt p strip chg hb)) with (salign p).
    change (p_sections (rebuilt p strip chg hb)) with (place_sections (falign p) (ptr_data p strip hb) (p_sections p)).
    rewrite (find_index_Forall2 same_but_place (in_section (salign p) rva) (in_section (salign p) rva) (p_sections p)); [reflexivity| |apply place_keeps].
    intros x y H. apply same_place_in; assumption. }
  rewrite ES. destruct (section_from_rva p rva) as [i| | |]; cbn [bind]; try exact I.
  unfold get_section. destruct (nth_error (p_sections p) i) as [s|] eqn:E; cbn [bind]; [|exact I].
  change (p_sections (rebuilt p strip chg hb)) with (place_sections (falign p) (ptr_data p strip hb) (p_sections p)).
  destruct (Forall2_nth _ _ _ _ _ (place_keeps (falign p) (p_sections p) (ptr_data p strip hb)) E) as (t & Et & Ht).
  rewrite Et. cbn [bind view]. rewrite (same_place_raw _ _ Ht).
  apply same_place_fields in Ht as (_ & _ & -> & _). reflexivity.
Qed.
Lemma dirs_bytes_length l : zlen (dirs_bytes l) = 8 * zlen l.
Proof.
  unfold dirs_bytes. induction l as [|d t IH]; [reflexivity|]. cbn [map concat]. rewrite zlen_app, IH, zlen_cons.
  change (zlen (le 4 (fst d) ++ le 4 (snd d))) with 8. lia.
Qed.
Lemma nt_fields_width plus h : length (nt_fields plus h) = length (nt_widths plus).
Proof. destruct plus; reflexivity. Qed.
Lemma nt_bytes_length p : length (h_dirs (p_nt p)) = 16%nat -> zlen (nt_bytes p) = sizeof_nt (p_plus p).
Proof.
  intros H. unfold nt_bytes. rewrite zlen_app, dirs_bytes_length. unfold zlen at 2. rewrite H.
  destruct (p_plus p); reflexivity.
Qed.
Lemma dos_bytes_length p lf : zlen (p_dosmid p) = 58 -> zlen (dos_bytes p lf) = 64.
Proof. intros H. unfold dos_bytes. rewrite !zlen_app, H. reflexivity. Qed.
Lemma missing_small p : 0 <= nrva p <= 16 -> missing_dirs p = 8 * (16 - nrva p).
Proof. intros H. unfold missing_dirs, image_numberof_directory_entries. rewrite u32_small by lia. reflexivity. Qed.

(** ** The whole writer *)
Definition stub_written (p : pe) (strip : bool) : list Z :=
  if strip then [] else p_stub p ++ zeros (align_up64 (zlen (p_stub p)) 4 - zlen (p_stub p)).
Definition headers_written (p : pe) (strip chg hb : bool) (bound : list Z) : list Z :=
  ztake (dos_written strip) (dos_bytes p (new_lfanew p strip)) ++ stub_written p strip ++
  ztake (sizeof_nt (p_plus p) - 8 * (16 - nrva p)) (nt_bytes (rebuilt p strip chg hb)) ++
  concat (map section_bytes (p_sections (rebuilt p strip chg hb))) ++ bound.
Lemma align4 n : 0 <= n < 2^31 -> align_up64 n 4 = ceil_mult n 4 /\ align_up (u32 n) 4 = ceil_mult n 4 /\ n <= ceil_mult n 4 <= n + 3 /\ ceil_mult n 4 mod 4 = 0.
Proof.
  intros H. assert (power_of_two 4) as P by (exists 2; split; [lia|reflexivity]).
  pose proof (ceil_mult_least n 4 ltac:(lia)) as (_ & L1 & L2 & _).
  split; [apply align_up64_small; [assumption|lia|lia]|]. split; [|split; [lia|apply ceil_mult_mod; lia]].
  rewrite u32_small by lia. apply align_up_small; [assumption|lia|lia|lia].
Qed.
Lemma ptr_headers_eq p strip : 0 <= nrva p <= 16 -> zlen (p_stub p) + 40 * zlen (p_sections p) < 2^31 ->
  ptr_headers p strip = nt_offset strip p + nt_length p + 40 * zlen (p_sections p) /\ 0 < ptr_headers p strip < 2^31 + 500.
Proof.
  intros N H. pose proof (zlen_nonneg (p_stub p)). pose proof (zlen_nonneg (p_sections p)).
  unfold ptr_headers, nt_offset, nt_length. rewrite missing_small by assumption.
  destruct (align4 (if strip then 0 else zlen (p_stub p))) as (-> & _ & L & _); [destruct strip; lia|].
  assert (u64 (dos_written strip + sizeof_nt (p_plus p) + ceil_mult (if strip then 0 else zlen (p_stub p)) 4 - 8 * (16 - nrva p) + 40 * zlen (p_sections p)) =
    (if strip then 16 else 64 + ceil_mult (zlen (p_stub p)) 4) + ((if p_plus p then 136 else 120) + 8 * nrva p) + 40 * zlen (p_sections p)) as ->.
  { unfold dos_written, sizeof_nt in *. destruct strip, (p_plus p); try change (ceil_mult 0 4) with 0; rewrite u64_small; lia. }
  split; [reflexivity|]. destruct strip, (p_plus p); lia.
Qed.
Definition saves_bound (p : pe) (save : bool) : bool :=
  save && (11 <? nrva p) && negb (fst (dir_bound p) =? 0) && (fst (dir_bound p) <=? hdrsize p).
Definition bound_bytes (p : pe) (hb : bool) : list Z :=
  if hb then match ptr_rva p (fst (dir_bound p)) RawData true with
             | Ok (buf, off) => slice buf off (snd (dir_bound p)) | _ => [] end
  else [].
Definition headers_too_long (p : pe) (strip chg hb : bool) : bool :=
  chg && match p_sections p with s :: _ => s_va s <? u32 (ptr_data p strip hb) | [] => false end.
Definition bound_readable (p : pe) (save : bool) : Prop :=
  fst (dir_bound p) = 0 \/ (0 < nrva p <= 11) \/
  (11 < nrva p /\ (save = true -> exists len, length_rva p (fst (dir_bound p)) (fst (dir_bound p)) RawData true = Ok len /\ snd (dir_bound p) <= len)).
Lemma dir_bound_ok p : dirs_ok p -> nth_ub (h_dirs (p_nt p)) dir_bound_import = Ok (dir_bound p) /\ is_u32 (fst (dir_bound p)) /\ is_u32 (snd (dir_bound p)).
Proof.
  intros [L F]. split.
  - unfold dir_bound. apply nth_ub_ok; [|unfold dir_bound_import; lia].
    change (Z.to_nat dir_bound_import) with 11%nat. apply nth_error_nth'. lia.
  - rewrite Forall_forall in F. apply F. unfold dir_bound. apply nth_In. lia.
Qed.
Lemma bound_exists_eq p : dirs_ok p -> 0 <= nrva p <= 16 ->
  directory_exists p dir_bound_import = Ok (((11 <? nrva p) || (nrva p =? 0)) && negb (fst (dir_bound p) =? 0)).
Proof.
  intros D N. unfold directory_exists. rewrite (proj1 (dir_bound_ok p D)). cbn [bind].
  assert ((dir_bound_import <=? u32 (nrva p - 1)) = ((11 <? nrva p) || (nrva p =? 0))) as ->.
  { unfold u32, dir_bound_import. destruct (Z.eqb_spec (nrva p) 0) as [E|E].
    - rewrite E. reflexivity.
    - rewrite Z.mod_small by lia. lia. }
  destruct ((11 <? nrva p) || (nrva p =? 0)); reflexivity.
Qed.
Lemma rebuild_eq p strip chg save : rebuild_range p -> bound_readable p save ->
  let hb := saves_bound p save in
  rebuild_pe p strip chg save =
    (throw_if (headers_too_long p strip chg hb) cannot_rebuild_image ;;;
     Ok (rebuilt p strip chg hb, body (p_sections (rebuilt p strip chg hb)) (headers_written p strip chg hb (bound_bytes p hb)))) /\
  zlen (bound_bytes p hb) = if hb then snd (dir_bound p) else 0.
Proof.
  intros (D & N & Hm & W & Hh & R & Hf & HV & HS) Bd hb.
  destruct (dir_bound_ok p D) as (En & [R1 R1'] & [R2 R2']).
  set (d := dir_bound p) in *.
  set (ex := ((11 <? nrva p) || (nrva p =? 0)) && negb (fst d =? 0)).
  assert (directory_exists p dir_bound_import = Ok ex) as Eex by (apply bound_exists_eq; assumption).
  assert (ex = (11 <? nrva p) && negb (fst d =? 0)) as Eex2.
  { unfold ex. destruct Bd as [B|[B|[B _]]]; fold d in B; lia. }
  unfold rebuild_pe. rewrite Eex.
  assert ((if save then Ok ex else Ok false) = Ok (save && ex)) as -> by (destruct save; reflexivity).
  cbn [bind].
  assert (ex = true -> get_directory_rva p dir_bound_import = Ok (fst d) /\ get_directory_size p dir_bound_import = Ok (snd d)) as Hget.
  { intros E. assert (nrva p <=? dir_bound_import = false) as C by (unfold dir_bound_import; lia).
    unfold get_directory_rva, get_directory_size. rewrite C, En. split; reflexivity. }
  assert ((if save && ex then
     rva <- get_directory_rva p dir_bound_import ;;
     len <- length_rva p rva rva RawData true ;;
     size <- get_directory_size p dir_bound_import ;;
     throw_if (len <? size) incorrect_bound_import_directory
   else Ok tt) = Ok tt) as ->.
  { destruct (save && ex) eqn:E; [|reflexivity]. destruct (Hget ltac:(lia)) as [-> ->]. cbn [bind].
    destruct Bd as [B|[B|[B1 B2]]]; [fold d in B; lia|lia|].
    destruct (B2 ltac:(lia)) as (len & Hl & Hle). fold d in Hl, Hle. rewrite Hl. cbn [bind].
    replace (len <? snd d) with false by lia. reflexivity. }
  cbn [bind].
  assert ((if ex then get_directory_rva p dir_bound_import else Ok 0) = Ok (if ex then fst d else 0)) as ->.
  { destruct ex; [apply Hget; reflexivity|reflexivity]. }
  cbn [bind].
  set (rva0 := if ex then fst d else 0).
  set (ins := negb (rva0 =? 0) && (hdrsize p <? rva0)).
  set (save1 := if ins then false else save).
  assert (hb = save1 && ex) as Ehb.
  { unfold hb, saves_bound, save1. fold d. destruct save; [|destruct ins; reflexivity]. cbn [andb].
    destruct ex.
    - unfold ins, rva0. symmetry in Eex2. rewrite Eex2. apply andb_true_iff in Eex2 as [_ Eex2]. rewrite Eex2. cbn [andb].
      destruct (Z.ltb_spec (hdrsize p) (fst d)); lia.
    - rewrite <- Eex2. rewrite andb_false_r. reflexivity. }
  rewrite (rebuild_headers_eq p strip chg save1 hb).
  2:{ rewrite Eex. rewrite Ehb. destruct save1; reflexivity. }
  2:{ apply D. }
  2:{ intros E. unfold dir_bound_import. rewrite Ehb in E. lia. }
  fold (headers_too_long p strip chg hb).
  assert (zlen (bound_bytes p hb) = (if hb then snd d else 0) /\
    (hb = true -> exists buf off, ptr_rva (rebuilt p strip chg hb) (fst d) RawData true = Ok (buf, off) /\ rd buf off (snd d) = Ok (bound_bytes p hb))) as [LB HB].
  { unfold bound_bytes. fold d. destruct hb eqn:Eh; [|split; [reflexivity|discriminate]].
    destruct Bd as [B|[B|[B1 B2]]]; [fold d in B; lia|lia|].
    destruct (B2 ltac:(unfold save1 in Ehb; destruct ins; cbn [andb] in Ehb; [discriminate|lia])) as (len & Hl & Hle).
    fold d in Hl, Hle.
    destruct (bound_inside p (fst d) len (snd d) HV Hl) as (buf & off & EP & O1 & O2); try lia.
    pose proof (ptr_rebuilt p strip chg true (fst d)) as PR. rewrite EP in PR.
    rewrite EP. split; [rewrite zlen_slice; lia|]. intros _. exists buf, off. split; [exact PR|]. apply rd_ok; lia. }
  split; [|exact LB].
  destruct (headers_too_long p strip chg hb); cbn [throw_if bind]; [reflexivity|].
  rewrite rd_ok by (try rewrite dos_bytes_length by exact Hm; unfold dos_written; destruct strip; lia).
  cbn [bind].
  assert (missing_dirs (rebuilt p strip chg hb) = 8 * (16 - nrva p)) as EM by (apply (missing_small p); assumption).
  rewrite EM. change (p_plus (rebuilt p strip chg hb)) with (p_plus p).
  assert (length (h_dirs (p_nt (rebuilt p strip chg hb))) = 16%nat) as LD.
  { unfold rebuilt. cbn [p_nt]. unfold rebuilt_nt. cbn [h_dirs set_h_optsize set_h_imagesize set_h_nsections set_h_hdrsize set_h_dirs].
    destruct hb; [rewrite upd_length|]; apply D. }
  assert (u64 (sizeof_nt (p_plus p) - 8 * (16 - nrva p)) = sizeof_nt (p_plus p) - 8 * (16 - nrva p)) as ->.
  { apply u64_small. unfold sizeof_nt. destruct (p_plus p); lia. }
  rewrite rd_ok.
  2: lia.
  2: unfold sizeof_nt; destruct (p_plus p); lia.
  2:{ rewrite nt_bytes_length by exact LD. change (p_plus (rebuilt p strip chg hb)) with (p_plus p). lia. }
  cbn [bind].
  assert (directory_exists (rebuilt p strip chg hb) dir_bound_import = Ok (((11 <? nrva p) || (nrva p =? 0)) && negb (fst (dir_bound (rebuilt p strip chg hb)) =? 0))) as Eex3.
  { apply (bound_exists_eq (rebuilt p strip chg hb)); [|exact N]. split; [exact LD|].
    unfold rebuilt. cbn [p_nt]. unfold rebuilt_nt. cbn [h_dirs set_h_optsize set_h_imagesize set_h_nsections set_h_hdrsize set_h_dirs].
    destruct hb; [|apply D]. apply Forall_upd; [apply D|]. cbn [fst snd]. split; [apply u32_range|split; assumption]. }
  assert ((if save1 then directory_exists (rebuilt p strip chg hb) dir_bound_import else Ok false) = Ok hb) as ->.
  { rewrite Ehb, <- Ehb. destruct save1; [|rewrite Ehb; reflexivity]. rewrite Eex3. f_equal.
    cbn [andb] in Ehb. rewrite Ehb. unfold dir_bound at 1. unfold rebuilt. cbn [p_nt]. unfold rebuilt_nt.
    cbn [h_dirs set_h_optsize set_h_imagesize set_h_nsections set_h_hdrsize set_h_dirs].
    destruct ex eqn:Ex.
    - assert (nth 11 (upd (h_dirs (p_nt p)) 11 (u32 (ptr_headers p strip), snd (dir_bound p))) (0, 0) = (u32 (ptr_headers p strip), snd (dir_bound p))) as ->.
      { apply nth_error_nth. apply nth_error_upd_same. destruct D; lia. }
      cbn [fst]. destruct (ptr_headers_eq p strip N HS) as [_ HP]. rewrite u32_small by lia. lia.
    - unfold ex in Ex. rewrite <- Ex. reflexivity. }
  cbn [bind].
  assert ((if hb then
      ' (buf, off) <- ptr_rva (rebuilt p strip chg hb) (if ins then 0 else rva0) RawData true ;;
      size <- get_directory_size (rebuilt p strip chg hb) dir_bound_import ;;
      d <- rd buf off size ;;
      Ok ((slice (dos_bytes (rebuilt p strip chg hb) (new_lfanew p strip)) 0 (dos_written strip) ++
            (p_stub (rebuilt p strip chg hb) ++ zeros (align_up64 (zlen (p_stub (rebuilt p strip chg hb))) 4 - zlen (p_stub (rebuilt p strip chg hb)))) ++
            slice (nt_bytes (rebuilt p strip chg hb)) 0 (sizeof_nt (p_plus p) - 8 * (16 - nrva p)) ++
            concat (map section_bytes (p_sections (rebuilt p strip chg hb)))) ++ d)
    else Ok (slice (dos_bytes (rebuilt p strip chg hb) (new_lfanew p strip)) 0 (dos_written strip) ++
            (p_stub (rebuilt p strip chg hb) ++ zeros (align_up64 (zlen (p_stub (rebuilt p strip chg hb))) 4 - zlen (p_stub (rebuilt p strip chg hb)))) ++
            slice (nt_bytes (rebuilt p strip chg hb)) 0 (sizeof_nt (p_plus p) - 8 * (16 - nrva p)) ++
            concat (map section_bytes (p_sections (rebuilt p strip chg hb))))) =
    Ok (headers_written p strip chg hb (bound_bytes p hb))) as ->.
  { assert (slice (dos_bytes (rebuilt p strip chg hb) (new_lfanew p strip)) 0 (dos_written strip) ++
            (p_stub (rebuilt p strip chg hb) ++ zeros (align_up64 (zlen (p_stub (rebuilt p strip chg hb))) 4 - zlen (p_stub (rebuilt p strip chg hb)))) ++
            slice (nt_bytes (rebuilt p strip chg hb)) 0 (sizeof_nt (p_plus p) - 8 * (16 - nrva p)) ++
            concat (map section_bytes (p_sections (rebuilt p strip chg hb))) = headers_written p strip chg hb []) as ->.
    { unfold headers_written. rewrite app_nil_r, !slice_take_drop, !zdrop_0 by lia. f_equal. f_equal.
      unfold stub_written. destruct strip; reflexivity. }
    assert (forall x, headers_written p strip chg hb [] ++ x = headers_written p strip chg hb x) as HX.
    { intros x. unfold headers_written. rewrite app_nil_r, <- !app_assoc. reflexivity. }
    destruct hb eqn:Eh; [|reflexivity].
    assert ((if ins then 0 else rva0) = fst d) as ->.
    { unfold save1 in Ehb. destruct ins; [discriminate Ehb|]. unfold rva0. replace ex with true; [reflexivity|].
      destruct save; cbn [andb] in Ehb; [exact Ehb|discriminate]. }
    destruct (HB eq_refl) as (buf & off & -> & Hrd). cbn [bind].
    assert (get_directory_size (rebuilt p strip chg true) dir_bound_import = Ok (snd d)) as ->.
    { unfold get_directory_size. change (nrva (rebuilt p strip chg true)) with (nrva p).
      assert (nrva p <=? dir_bound_import = false) as -> by (unfold dir_bound_import; unfold hb, saves_bound in Eh; lia).
      cbn [throw_if bind]. unfold rebuilt. cbn [p_nt]. unfold rebuilt_nt.
      cbn [h_dirs set_h_optsize set_h_imagesize set_h_nsections set_h_hdrsize set_h_dirs].
      rewrite (nth_ub_ok _ dir_bound_import (u32 (ptr_headers p strip), snd (dir_bound p))); [reflexivity| |unfold dir_bound_import; lia].
      change (Z.to_nat dir_bound_import) with 11%nat. apply nth_error_upd_same. destruct D; lia. }
    cbn [bind]. rewrite Hrd. cbn [bind]. rewrite HX. reflexivity. }
  cbn [bind]. rewrite write_sections_ok; [reflexivity|].
  apply Forall_forall. intros t Ht. apply In_nth_error in Ht as [i Hi].
  destruct (Forall2_nth_r _ _ _ _ _ (place_keeps (falign p) (p_sections p) (ptr_data p strip hb)) Hi) as (x & Hx & Hs).
  rewrite (same_place_raw _ _ Hs). apply same_place_fields in Hs as (_ & _ & _ & -> & _).
  pose proof (nth_Forall _ _ _ _ R Hx) as Hr. cbv beta in Hr. split; [|exact Hr].
  destruct (wf_ranges _ (nth_Forall _ _ _ _ W Hx)) as (_ & _ & [? _] & _). assumption.
Qed.
Lemma readable_or_throws p strip chg save : rebuild_range p ->
  bound_readable p save \/ exists e, rebuild_pe p strip chg save = Throw e.
Proof.
  intros (D & N & Hm & W & Hh & R & Hf & HV & HS). unfold bound_readable.
  destruct (Z.eq_dec (fst (dir_bound p)) 0) as [Z0|Z0]; [left; left; assumption|].
  destruct (dir_bound_ok p D) as (En & _ & _).
  pose proof (bound_exists_eq p D N) as Eex.
  destruct (Z.eq_dec (nrva p) 0) as [N0|N0].
  - right. exists directory_does_not_exist. unfold rebuild_pe. rewrite Eex, N0. cbn [Z.ltb Z.compare orb Z.eqb andb].
    rewrite (proj2 (Z.eqb_neq _ _) Z0). cbn [negb]. unfold get_directory_rva. rewrite N0. destruct save; reflexivity.
  - destruct (Z_le_gt_dec (nrva p) 11) as [L|L]; [left; right; left; lia|].
    destruct save; [|left; right; right; split; [lia|discriminate]].
    pose proof (length_rva_safe p (fst (dir_bound p)) (fst (dir_bound p)) RawData true) as SL.
    assert (((11 <? nrva p) || (nrva p =? 0)) && negb (fst (dir_bound p) =? 0) = true) as C1 by lia.
    assert (nrva p <=? dir_bound_import = false) as C2 by (unfold dir_bound_import; lia).
    destruct (length_rva p (fst (dir_bound p)) (fst (dir_bound p)) RawData true) as [len|e|k|] eqn:EL; try contradiction.
    + destruct (Z_lt_le_dec len (snd (dir_bound p))) as [L1|L1].
      * right. exists incorrect_bound_import_directory. unfold rebuild_pe. rewrite Eex, C1. cbn [bind].
        unfold get_directory_rva at 1, get_directory_size at 1. rewrite C2, En. cbn [throw_if bind]. rewrite EL. cbn [bind].
        replace (len <? snd (dir_bound p)) with true by lia. reflexivity.
      * left. right. right. split; [lia|]. intros _. exists len. split; [reflexivity|lia].
    + right. exists e. unfold rebuild_pe. rewrite Eex, C1. cbn [bind].
      unfold get_directory_rva at 1, get_directory_size at 1. rewrite C2, En. cbn [throw_if bind]. rewrite EL. reflexivity.
Qed.
Lemma rebuild_safe p strip chg save : rebuild_range p -> safe (rebuild_pe p strip chg save).
Proof.
  intros R. destruct (readable_or_throws p strip chg save R) as [B|[e E]].
  - destruct (rebuild_eq p strip chg save R B) as [-> _]. destruct (headers_too_long _ _ _ _); exact I.
  - rewrite E. exact I.
Qed.

(** ** Where the data go *)
Lemma body_prefix l : forall out, exists t, body l out = out ++ t.
Proof.
  induction l as [|s l IH]; intros out; cbn [body].
  - exists []. rewrite app_nil_r. reflexivity.
  - destruct (IH (out ++ zeros (s_rawptr s - zlen out) ++ ztake (s_rawsize s) (raw_view s))) as [t ->].
    eexists. rewrite <- !app_assoc. reflexivity.
Qed.
Lemma slice_prefix {A} (a t : list A) off n : 0 <= off -> 0 <= n -> off + n <= zlen a -> slice (a ++ t) off n = slice a off n.
Proof. intros. apply slice_app_l; assumption. Qed.
Lemma data_total_nonneg fa l : 0 < fa -> Forall wf_section l -> 0 <= data_total fa l.
Proof.
  intros Hf W. induction W as [|s l Hs W IH]; cbn [data_total]; [lia|].
  destruct (wf_ranges s Hs) as (_ & _ & [? _] & _). pose proof (ceil_mult_least (s_rawsize s) fa Hf) as (_ & L & _). lia.
Qed.
Lemma aligned_rawsize_ceil fa s : power_of_two fa -> fa < 2^32 -> 0 <= s_rawsize s -> ceil_mult (s_rawsize s) fa < 2^32 ->
  aligned_rawsize fa s = ceil_mult (s_rawsize s) fa.
Proof.
  intros P L H C. unfold aligned_rawsize. destruct (Z.eqb_spec (s_rawsize s) 0) as [E|E].
  - rewrite E. symmetry. apply ceil_mult_0. apply pow2_pos; assumption.
  - apply align_up_small; assumption.
Qed.
Lemma body_places fa l : power_of_two fa -> fa < 2^32 -> forall ptr out,
  (fa | ptr) -> 0 <= zlen out <= ptr -> ptr + data_total fa l < 2^32 -> Forall wf_section l ->
  Forall (fun s => s_rawsize s <= zlen (raw_view s)) l ->
  Forall (fun s => s_rawsize s = 0 -> s_rawptr s <= ptr) l ->
  let l' := place_sections fa ptr l in
  zlen (body l' out) <= ptr + data_total fa l /\
  (forall i s, nth_error l' i = Some s -> s_rawsize s <> 0 ->
     (fa | s_rawptr s) /\ ptr <= s_rawptr s /\ s_rawptr s + s_rawsize s <= zlen (body l' out) /\
     slice (body l' out) (s_rawptr s) (s_rawsize s) = ztake (s_rawsize s) (raw_view s)) /\
  (forall i j s t, (i < j)%nat -> nth_error l' i = Some s -> nth_error l' j = Some t -> s_rawsize s <> 0 -> s_rawsize t <> 0 ->
     s_rawptr s + s_rawsize s <= s_rawptr t).
Proof.
  intros P32 L32. pose proof (pow2_pos _ P32) as Hfa.
  induction l as [|s l IH]; intros ptr out Hd Ho Ht W R St; cbn [place_sections data_total] in *.
  - cbn [body]. split; [lia|]. split; intros [|i]; intros; discriminate.
  - apply Forall_cons_iff in W as [Ws W]. apply Forall_cons_iff in R as [Rs R]. apply Forall_cons_iff in St as [Ss St].
    destruct (wf_ranges s Ws) as (_ & _ & [r0 r1] & [p0 p1]).
    pose proof (ceil_mult_least (s_rawsize s) fa Hfa) as (D1 & L1 & _).
    pose proof (data_total_nonneg fa l Hfa W) as T0. cbv zeta.
    destruct (Z.eqb_spec (s_rawsize s) 0) as [E|E].
    + specialize (Ss E). rewrite E, ceil_mult_0 in * by assumption. cbn [body]. rewrite E, ztake_0, app_nil_r by lia.
      destruct (IH ptr (out ++ zeros (s_rawptr s - zlen out))) as (A1 & A2 & A3); try assumption; try lia.
      { rewrite zlen_app, zlen_zeros_max. lia. }
      split; [lia|]. split.
      * intros [|i] x Hx Hn; cbn in Hx; [inversion Hx; subst; contradiction|]. apply (A2 i x Hx Hn).
      * intros [|i] [|j] x t Hij Hx Hy; cbn in Hx, Hy; try lia; [inversion Hx; subst; intros; contradiction|].
        apply (A3 i j); try assumption; lia.
    + rewrite aligned_rawsize_ceil by (assumption || lia). rewrite u32_small by lia. rewrite u64_small by lia. cbn [body].
      change (s_rawptr (set_s_rawptr ptr s)) with ptr. change (s_rawsize (set_s_rawptr ptr s)) with (s_rawsize s).
      change (raw_view (set_s_rawptr ptr s)) with (raw_view (set_s_rawptr ptr s)).
      assert (raw_view (set_s_rawptr ptr s) = raw_view s) as ER by (apply same_place_raw; unfold same_but_place; destruct s; reflexivity).
      rewrite ER.
      set (out1 := out ++ zeros (ptr - zlen out) ++ ztake (s_rawsize s) (raw_view s)).
      assert (zlen out1 = ptr + s_rawsize s) as L2.
      { unfold out1. rewrite !zlen_app, zlen_zeros, zlen_ztake by lia. lia. }
      destruct (IH (ptr + ceil_mult (s_rawsize s) fa) out1) as (A1 & A2 & A3); try assumption; try lia.
      { apply Z.divide_add_r; assumption. }
      { eapply Forall_impl; [|exact St]. cbv beta. intros x Hx Hz. specialize (Hx Hz). lia. }
      destruct (body_prefix (place_sections fa (ptr + ceil_mult (s_rawsize s) fa) l) out1) as [tl Etl].
      split; [lia|]. split.
      * intros [|i] x Hx Hn; cbn in Hx.
        -- inversion Hx; subst x. change (s_rawptr (set_s_rawptr ptr s)) with ptr. change (s_rawsize (set_s_rawptr ptr s)) with (s_rawsize s).
           rewrite ER. split; [assumption|]. split; [lia|]. rewrite Etl. split; [rewrite zlen_app; pose proof (zlen_nonneg tl); lia|].
           rewrite slice_prefix by lia. unfold out1. rewrite app_assoc.
           assert (zlen (out ++ zeros (ptr - zlen out)) = ptr) as L3 by (rewrite zlen_app, zlen_zeros by lia; lia).
           rewrite slice_app_r by lia. rewrite L3, Z.sub_diag, slice_take_drop, zdrop_0 by lia.
           rewrite ztake_ztake by lia. f_equal; lia.
        -- destruct (A2 i x Hx Hn) as (B1 & B2 & B3 & B4). split; [assumption|]. split; [lia|]. split; assumption.
      * intros [|i] [|j] x t Hij Hx Hy Hn Hm; cbn in Hx, Hy; try lia.
        -- inversion Hx; subst x. change (s_rawptr (set_s_rawptr ptr s)) with ptr. change (s_rawsize (set_s_rawptr ptr s)) with (s_rawsize s).
           destruct (A2 j t Hy Hm) as (B1 & B2 & _). lia.
        -- apply (A3 i j); try assumption; lia.
Qed.
Lemma bound_length_eq p save : dirs_ok p -> bound_length save p = if saves_bound p save then snd (dir_bound p) else 0.
Proof.
  intros [L _]. unfold bound_length, bound_saved, saves_bound, dir_bound.
  rewrite (nth_error_nth' _ (0, 0)) by lia. destruct (nth 11 (h_dirs (p_nt p)) (0, 0)) as [rva size]. reflexivity.
Qed.
Lemma bound_saved_eq p save : dirs_ok p -> bound_saved save p = saves_bound p save.
Proof.
  intros [L _]. unfold bound_saved, saves_bound, dir_bound.
  rewrite (nth_error_nth' _ (0, 0)) by lia. destruct (nth 11 (h_dirs (p_nt p)) (0, 0)) as [rva size]. reflexivity.
Qed.
Lemma section_bytes_length s : zlen (s_name s) = 8 -> zlen (section_bytes s) = 40.
Proof. intros H. unfold section_bytes. rewrite zlen_app, H. reflexivity. Qed.
Lemma sections_bytes_length l : Forall wf_section l -> zlen (concat (map section_bytes l)) = 40 * zlen l.
Proof.
  induction 1 as [|s l Hs W IH]; [reflexivity|]. cbn [map concat]. rewrite zlen_app, IH, zlen_cons, section_bytes_length; [lia|apply Hs].
Qed.
Lemma wf_place s t : same_but_place s t -> is_u32 (s_rawptr t) -> wf_section s -> wf_section t.
Proof.
  intros H R W. apply same_place_fields in H as (E1 & E2 & E3 & E4 & E5 & E6 & E7 & E8 & E9 & E10 & E11).
  unfold wf_section in *. rewrite E1, E2, E3, E4, E5, E6, E7, E8, E9, E10, E11. tauto.
Qed.
Lemma place_wf fa l : forall ptr, Forall wf_section l -> Forall wf_section (place_sections fa ptr l).
Proof.
  induction l as [|s l IH]; intros ptr W; cbn [place_sections]; [constructor|]. apply Forall_cons_iff in W as [Ws W].
  destruct (s_rawsize s =? 0); constructor; auto.
  apply (wf_place s); [unfold same_but_place; destruct s; reflexivity| |assumption].
  cbn. apply u32_range.
Qed.
Lemma place_length fa l : forall ptr, zlen (place_sections fa ptr l) = zlen l.
Proof. induction l as [|s l IH]; intros ptr; cbn [place_sections]; [reflexivity|]. destruct (_ =? 0); rewrite !zlen_cons, IH; reflexivity. Qed.
Lemma stub_written_length p strip : zlen (p_stub p) < 2^31 -> zlen (stub_written p strip) = nt_offset strip p - dos_written strip.
Proof.
  intros H. pose proof (zlen_nonneg (p_stub p)). unfold stub_written, nt_offset, dos_written. destruct strip; [reflexivity|].
  destruct (align4 (zlen (p_stub p)) ltac:(lia)) as (-> & _ & L & _). rewrite zlen_app, zlen_zeros by lia. lia.
Qed.
Lemma rebuilt_dirs_length p strip chg hb : length (h_dirs (p_nt p)) = 16%nat -> length (h_dirs (p_nt (rebuilt p strip chg hb))) = 16%nat.
Proof. intros H. unfold rebuilt, rebuilt_nt. cbn. destruct hb; [rewrite upd_length|]; assumption. Qed.
Lemma headers_written_length p strip chg hb b : rebuild_range p ->
  zlen (headers_written p strip chg hb b) = nt_offset strip p + nt_length p + 40 * zlen (p_sections p) + zlen b.
Proof.
  intros (D & N & Hm & W & Hh & R & Hf & HV & HS). pose proof (zlen_nonneg (p_sections p)).
  unfold headers_written. rewrite !zlen_app, stub_written_length by lia.
  rewrite zlen_ztake by (rewrite dos_bytes_length by assumption; unfold dos_written; destruct strip; lia).
  rewrite zlen_ztake.
  2:{ rewrite nt_bytes_length by (apply rebuilt_dirs_length; apply D). change (p_plus (rebuilt p strip chg hb)) with (p_plus p).
      unfold sizeof_nt; destruct (p_plus p); lia. }
  rewrite sections_bytes_length by (apply place_wf; assumption).
  change (p_sections (rebuilt p strip chg hb)) with (place_sections (falign p) (ptr_data p strip hb) (p_sections p)).
  rewrite place_length. unfold nt_length, sizeof_nt. destruct (p_plus p); lia.
Qed.
Lemma nt_offset_bounds strip p : 0 <= zlen (p_stub p) < 2^31 -> 16 <= nt_offset strip p <= 67 + zlen (p_stub p).
Proof.
  intros H. unfold nt_offset. destruct strip; [lia|]. destruct (align4 (zlen (p_stub p)) H) as (_ & _ & L & _). lia.
Qed.
Lemma ptr_data_eq p strip save : rebuild_range p -> power_of_two (falign p) -> falign p < 2^32 ->
  ptr_data p strip (saves_bound p save) = data_start strip save p /\
  0 < headers_end strip save p <= data_start strip save p /\ (falign p | data_start strip save p).
Proof.
  intros (D & N & Hm & W & Hh & R & Hf & HV & HS) P L. unfold ptr_data, data_start, headers_end.
  pose proof (zlen_nonneg (p_sections p)). pose proof (zlen_nonneg (p_stub p)).
  destruct (ptr_headers_eq p strip N HS) as [EP HP]. rewrite bound_length_eq by assumption.
  destruct (dir_bound_ok p D) as (_ & _ & [R1 R2]). pose proof (nt_offset_bounds strip p ltac:(lia)) as HO.
  assert (0 < nt_length p <= 264) by (unfold nt_length; destruct (p_plus p); lia).
  assert ((if saves_bound p save then u64 (ptr_headers p strip + snd (dir_bound p)) else ptr_headers p strip) =
    nt_offset strip p + nt_length p + 40 * zlen (p_sections p) + (if saves_bound p save then snd (dir_bound p) else 0)) as ->.
  { destruct (saves_bound p save); [rewrite u64_small|]; lia. }
  set (x := nt_offset strip p + nt_length p + 40 * zlen (p_sections p) + (if saves_bound p save then snd (dir_bound p) else 0)).
  assert (0 < x < 2^33) as HX by (unfold x; destruct (saves_bound p save); lia).
  pose proof (ceil_mult_least x (falign p) (pow2_pos _ P)) as (D1 & L1 & _).
  split; [apply align_up64_small; [assumption|assumption|lia]|]. split; [lia|exact D1].
Qed.
Lemma rebuild_places p strip chg save q out :
  rebuild_range p -> power_of_two (falign p) -> falign p < 2^32 ->
  data_start strip save p + data_total (falign p) (p_sections p) < 2^32 ->
  no_stale_pointers (data_start strip save p) p ->
  rebuild_pe p strip chg save = Ok (q, out) ->
  Forall2 same_but_place (p_sections p) (p_sections q) /\
  zlen out <= data_start strip save p + data_total (falign p) (p_sections p) /\
  (forall i s, nth_error (p_sections q) i = Some s -> s_rawsize s <> 0 ->
     (falign p | s_rawptr s) /\ headers_end strip save p <= s_rawptr s /\ s_rawptr s + s_rawsize s <= zlen out /\
     slice out (s_rawptr s) (s_rawsize s) = ztake (s_rawsize s) (raw_view s)) /\
  (forall i j s t, (i < j)%nat -> nth_error (p_sections q) i = Some s -> nth_error (p_sections q) j = Some t ->
     s_rawsize s <> 0 -> s_rawsize t <> 0 -> s_rawptr s + s_rawsize s <= s_rawptr t).
Proof.
  intros RR P L Ht St E. destruct (readable_or_throws p strip chg save RR) as [B|[e E']]; [|rewrite E' in E; discriminate].
  destruct (rebuild_eq p strip chg save RR B) as [Eq LB]. rewrite Eq in E.
  destruct (headers_too_long p strip chg (saves_bound p save)); cbn [throw_if bind] in E; [discriminate|].
  inversion E; subst q out. clear E.
  destruct (ptr_data_eq p strip save RR P L) as (E1 & E2 & E3).
  change (p_sections (rebuilt p strip chg (saves_bound p save))) with (place_sections (falign p) (ptr_data p strip (saves_bound p save)) (p_sections p)).
  rewrite E1. split; [apply place_keeps|].
  pose proof (headers_written_length p strip chg (saves_bound p save) (bound_bytes p (saves_bound p save)) RR) as EL.
  rewrite LB in EL. pose proof RR as (D & N & Hm & W & Hh & R & Hf & HV & HS).
  rewrite <- (bound_length_eq p save D) in EL. fold (headers_end strip save p) in EL.
  destruct (body_places (falign p) (p_sections p) P L (data_start strip save p)
    (headers_written p strip chg (saves_bound p save) (bound_bytes p (saves_bound p save))) E3 ltac:(lia) Ht W R St) as (A1 & A2 & A3).
  split; [assumption|]. split; [|exact A3].
  intros i s Hs Hn. destruct (A2 i s Hs Hn) as (B1 & B2 & B3 & B4). split; [assumption|]. split; [lia|]. split; assumption.
Qed.
