(** Cases that go wrong, and samples. *)
From Verif Require Import BaseFacts DirFacts StoreFacts ResDataFacts ManagerFacts.
From Verif Require Export IconSafe.

(** ** Samples *)
Definition small_icon : picture := mk_picture [16; 16; 0; 0; 1; 32] [1; 2; 3].
Definition large_icon : picture := mk_picture [32; 32; 2; 0; 1; 4] [4; 5].
(* the second image in front, two bytes in between *)
Definition sample_file : list Z := le 2 0 ++ le 2 1 ++ le 2 2 ++ file_record small_icon 42 ++ file_record large_icon 38 ++ [4; 5] ++ [0; 0] ++ [1; 2; 3].
Lemma small_good : good_picture small_icon. Proof. split; [vm_compute; repeat split; congruence|vm_compute; split; congruence]. Qed.
Lemma large_good : good_picture large_icon. Proof. split; [vm_compute; repeat split; congruence|vm_compute; split; congruence]. Qed.
Lemma sample_file_ok : image_file sample_file 0 1 [small_icon; large_icon].
Proof.
  split; [unfold is_u16; lia|]. split; [unfold is_u16; lia|]. split; [vm_compute; split; congruence|]. split; [exists []; eexists; split; reflexivity|].
  intros [|[|i]] e E; cbn [nth_error] in E; [injection E as <-|injection E as <-|destruct i; discriminate].
  - split; [exact small_good|]. exists 42. split; [vm_compute; congruence|]. split; [vm_compute; congruence|]. split.
    + exists (le 2 0 ++ le 2 1 ++ le 2 2), (file_record large_icon 38 ++ [4; 5] ++ [0; 0] ++ [1; 2; 3]). split; reflexivity.
    + exists (ztake 42 sample_file), []. split; reflexivity.
  - split; [exact large_good|]. exists 38. split; [vm_compute; congruence|]. split; [vm_compute; congruence|]. split.
    + exists (le 2 0 ++ le 2 1 ++ le 2 2 ++ file_record small_icon 42), ([4; 5] ++ [0; 0] ++ [1; 2; 3]). split; reflexivity.
    + exists (ztake 38 sample_file), ([0; 0] ++ [1; 2; 3]). split; reflexivity.
Qed.
Definition leaf (d : list Z) : rnode := dir_new [(Ided 1033, RData d 0)].
(* icons 2 and 4 *)
Definition icon_tree : rnode := dir_new [(Ided 3, dir_new [(Ided 2, leaf [9]); (Ided 4, leaf [8; 8])])].
Ltac levels :=
  repeat match goal with
  | |- three_levels _ => unfold three_levels, dir_new; do 2 eexists; split; [reflexivity|]; split
  | |- name_level _ => unfold name_level, dir_new; do 2 eexists; split; [reflexivity|]; split
  | |- language_level _ => unfold language_level, leaf, dir_new; do 2 eexists; split; [reflexivity|]; split
  | |- unique _ => unfold unique; cbn [map fst]
  | |- NoDup _ => constructor
  | |- ~ In _ _ => cbn [In]; intuition discriminate
  | |- Forall _ _ => constructor
  | |- exists d c, _ = _ => do 2 eexists; reflexivity
  | |- _ (snd _) => cbn [snd]
  end.
Lemma icon_tree_ok : three_levels icon_tree. Proof. unfold icon_tree. levels. Qed.
Lemma icon_tree_ids : list_ids icon_tree (image_type Icon) = Ok [2; 4]. Proof. reflexivity. Qed.
Lemma icon_tree_room at_end : room icon_tree Icon at_end 2.
Proof.
  right. exists [2; 4]. split; [reflexivity|]. split; [repeat constructor; unfold is_u16; lia|]. destruct at_end.
  - exists 4. split; [right; split; [cbn [In]; tauto|repeat constructor; lia]|lia].
  - rewrite (free_numbers_split [2; 4] 4); [|lia|left; cbn [In]; tauto|repeat constructor; lia]. rewrite zlen_app, zlen_from. pose proof (zlen_nonneg (free_below [2; 4] 4)). lia.
Qed.
Definition arrow : picture := mk_picture [32; 32; 0; 0; 5; 6] [7; 7; 7].
Definition cursor_file (e : picture) : list Z := le 2 0 ++ le 2 2 ++ le 2 1 ++ file_record e 22 ++ pixels e.
Lemma cursor_file_ok e : good_picture e -> 22 + zlen (pixels e) < 2^32 -> image_file (cursor_file e) 0 2 [e].
Proof.
  intros G B. replace (cursor_file e) with (packed_file 0 2 [e]); [apply packed_ok; try (unfold is_u16; lia); [change (zlen [e]) with 1; lia|apply Forall_cons; [exact G|constructor]|change (zlen [e]) with 1; rewrite total_cons; change (total_size []) with 0; lia]|].
  unfold packed_file, cursor_file, file_record. change (zlen [e]) with 1. change (6 + 16 * 1) with 22. cbn [packed_entries map concat]. rewrite !app_nil_r, <- !app_assoc. reflexivity.
Qed.
Definition empty_tree : rnode := dir_new [].
Lemma empty_ok : three_levels empty_tree. Proof. unfold empty_tree. levels. Qed.
Lemma empty_room k at_end count : count <= 65534 -> room empty_tree k at_end count.
Proof. intros H. left. split; [exists resource_directory_entry_not_found; destruct k; reflexivity|exact H]. Qed.

(** ** What goes wrong *)
(* numbers above 65535 start again at 0: the icon 1 that is there is replaced *)
Definition full_tree : rnode := dir_new [(Ided 3, dir_new [(Ided 1, leaf [9]); (Ided 65535, leaf [8])])].
Lemma full_tree_ok : three_levels full_tree. Proof. unfold full_tree. levels. Qed.
Lemma replaced : exists t f es name language, three_levels t /\ image_file f 0 1 es /\ content t (group_type Icon) name language = None /\ Forall is_u16 (in_use t Icon) /\
  exists t' x, add_file t Icon f name language true 0 0 = Ok t' /\ content t (image_type Icon) (Ided x) language = Some ([9], 0) /\ content t' (image_type Icon) (Ided x) language = Some ([4; 5], 0).
Proof.
  exists full_tree, sample_file, [small_icon; large_icon], (Ided 1), 1033. split; [exact full_tree_ok|]. split; [exact sample_file_ok|]. split; [reflexivity|]. split; [apply Forall_forall; intros x [<-|[<-|[]]]; unfold is_u16; lia|].
  eexists. exists 1. split; [vm_compute; reflexivity|]. split; vm_compute; reflexivity.
Qed.
(* 65535 pictures into a tree without icons: the 16-bit counter never reaches 65536 *)
Lemma total_repeat e n : total_size (repeat e n) = Z.of_nat n * zlen (pixels e).
Proof. induction n as [|n IH]; [reflexivity|]. cbn [repeat]. rewrite total_cons, IH. lia. Qed.
Lemma never_ends t k f name language at_end codepage timestamp r ty es e : image_file f r ty es -> Forall (kept k) es -> zlen es = 65535 -> list_ids t (image_type k) = Throw e -> (exists e', resource_data t language (group_type k) name = Throw e') ->
  forall n, add_file_from n t k f name language at_end codepage timestamp = Fuel.
Proof.
  intros Hf Hk Hz He [e' Hg] n. destruct (file_parts k f r ty es Hf Hk) as (Lf & Rh & Dh & Ck & Pa). unfold add_file_from. rewrite Hg. unfold add_images_from. replace (zlen f <? 6) with false by lia. cbn [throw_if bind]. rewrite Rh. cbn [bind]. rewrite Dh.
  replace (u32 (6 + zlen es * 16)) with (6 + 16 * zlen es) by (rewrite u32_small; lia). replace ((zlen f <? 6 + 16 * zlen es) || (zlen es =? 0)) with false by lia. cbn [throw_if bind].
  replace (zrange (zlen es)) with (from 0 (length es)) by (rewrite zrange_from; unfold zlen; rewrite Nat2Z.id; reflexivity). rewrite Ck. cbn [bind].
  destruct (wr_safe (zeros (6 + zlen es * 14)) 0 (le 2 r ++ le 2 ty ++ le 2 (zlen es))) as (g & -> & _); [lia|rewrite !zlen_app, !zlen_le, zlen_zeros by lia; lia|]. cbn [bind].
  unfold free_ids_from. rewrite He, Hz. change (u32 (65535 + 1)) with 65536. rewrite count_up_endless by lia. reflexivity.
Qed.
Lemma endless_file : exists f es, image_file f 0 1 es /\ zlen es = 65535 /\ forall n at_end, add_file_from n empty_tree Icon f (Ided 1) 1033 at_end 0 0 = Fuel.
Proof.
  assert (H : forall m, Z.of_nat m = 65535 -> exists f es, image_file f 0 1 es /\ zlen es = 65535 /\ forall n at_end, add_file_from n empty_tree Icon f (Ided 1) 1033 at_end 0 0 = Fuel).
  { intros m Hm. assert (Zr : zlen (repeat small_icon m) = 65535) by (unfold zlen; rewrite repeat_length; exact Hm).
    assert (F : image_file (packed_file 0 1 (repeat small_icon m)) 0 1 (repeat small_icon m)).
    { apply packed_ok; try (unfold is_u16; lia); [apply Forall_forall; intros x Hx; apply repeat_spec in Hx as ->; exact small_good|]. rewrite Zr, total_repeat, Hm. change (zlen (pixels small_icon)) with 3. lia. }
    exists (packed_file 0 1 (repeat small_icon m)), (repeat small_icon m). split; [exact F|]. split; [exact Zr|]. intros n at_end. eapply never_ends; [exact F| |exact Zr|reflexivity|eexists; reflexivity]. apply Forall_forall. intros x _. exact I. }
  apply (H (Z.to_nat 65535)). lia.
Qed.
(* a cursor of height 128 comes back with height 0; ColorCount and Reserved come back as 0 *)
Lemma attrs_at f r ty e es : image_file f r ty (e :: es) -> slice f 6 8 = enc_fields attr_widths (attrs e).
Proof.
  intros (_ & _ & _ & _ & H). destruct (H 0%nat e eq_refl) as ([G _] & off & _ & _ & H1 & _). apply stands_holds in H1. rewrite holds_app in H1. destruct H1 as [H1 _]. replace (6 + 16 * Z.of_nat 0) with 6 in H1 by lia. apply (holds_slice _ _ _ 8 H1).
  apply six in G as (a & b & c & d & x & y & -> & _). reflexivity.
Qed.
Definition lost (e : picture) : Prop := exists f t' f', image_file f 0 2 [e] /\ add_file empty_tree Cursor f (Ided 1) 1033 true 0 0 = Ok t' /\ get_file t' Cursor (ByLanguage 1033) (Ided 1) = Ok f' /\ forall r ty, ~ image_file f' r ty [e].
Lemma lost_if e t' f' : good_picture e -> 22 + zlen (pixels e) < 2^32 -> add_file empty_tree Cursor (cursor_file e) (Ided 1) 1033 true 0 0 = Ok t' -> get_file t' Cursor (ByLanguage 1033) (Ided 1) = Ok f' -> slice f' 6 8 <> enc_fields attr_widths (attrs e) -> lost e.
Proof. intros G B A Ge N. exists (cursor_file e), t', f'. split; [apply cursor_file_ok; assumption|]. split; [exact A|]. split; [exact Ge|]. intros r ty H. apply N. exact (attrs_at _ _ _ _ _ H). Qed.
Definition tall : picture := mk_picture [32; 128; 0; 0; 5; 6] [7; 7; 7].
Definition coloured : picture := mk_picture [32; 32; 16; 0; 5; 6] [7; 7; 7].
Definition reserved_set : picture := mk_picture [32; 32; 0; 1; 5; 6] [7; 7; 7].
Ltac is_lost := eapply lost_if; [split; [vm_compute; repeat split; congruence|vm_compute; split; congruence]|vm_compute; reflexivity|vm_compute; reflexivity|vm_compute; reflexivity|vm_compute; congruence].
Lemma tall_lost : lost tall. Proof. is_lost. Qed.
Lemma coloured_lost : lost coloured. Proof. is_lost. Qed.
Lemma reserved_lost : lost reserved_set. Proof. is_lost. Qed.
(* a group of two cursors with room for one entry: the second entry is read behind the data *)
Definition short_group : list Z := le 2 0 ++ le 2 2 ++ le 2 2 ++ group_record Cursor arrow 5.
Definition short_tree : rnode := dir_new [(Ided 1, dir_new [(Ided 7, leaf (image_data Cursor arrow))]); (Ided 12, dir_new [(Ided 1, leaf short_group)])].
Lemma short_tree_ok : three_levels short_tree. Proof. unfold short_tree. levels. Qed.
Lemma overread : exists t id language, three_levels t /\ tree_bytes t /\ get_single t Cursor (ByLanguage language) id = Ub OobRead.
Proof.
  exists short_tree, 7, 1033. split; [exact short_tree_ok|]. split; [|vm_compute; reflexivity]. intros root name language d c H.
  assert (B : bytes (image_data Cursor arrow) /\ bytes short_group) by (split; apply Forall_forall; intros x Hx; vm_compute in Hx; repeat (destruct Hx as [<-|Hx]; [unfold is_u8; lia|]); destruct Hx).
  destruct short_tree_ok as (h & l1 & E & _ & F1). rewrite E in H. rewrite look_data in H by exact F1. injection E as <- <-. unfold look, under in H. rewrite !assoc_cons in H.
  destruct (rname_eqb root (Ided 1)); [|destruct (rname_eqb root (Ided 12)); [|discriminate H]]; cbn [dir_new] in H; rewrite !assoc_cons in H.
  - destruct (rname_eqb name (Ided 7)); [|discriminate H]. unfold leaf, dir_new in H. rewrite assoc_cons in H. destruct (rname_eqb (Ided language) (Ided 1033)); [|discriminate H]. injection H as <- _. apply B.
  - destruct (rname_eqb name (Ided 1)); [|discriminate H]. unfold leaf, dir_new in H. rewrite assoc_cons in H. destruct (rname_eqb (Ided language) (Ided 1033)); [|discriminate H]. injection H as <- _. apply B.
Qed.
