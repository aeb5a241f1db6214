(** Proofs: the bytes of a version resource (C54). *)
From Coq Require Import String.
From Verif Require Import ResDataFacts StoreFacts ManagerFacts ExportFacts VerFacts VerRound VerRead SpecVerFormat.

Lemma utf16z_wide s : utf16z s = wide_z s.
Proof. unfold utf16z, wide_z. rewrite flat_map_app, flat_map_concat_map. reflexivity. Qed.
Lemma padded_pad4 bs : padded bs = pad4 bs.
Proof. unfold padded, pad4, round4. do 2 f_equal. pose proof (zlen_nonneg bs). lia. Qed.
Lemma vblock_head v t k body : vblock v t k body = pad4 (key_head (key_bytes k + zlen body) v t k) ++ body.
Proof.
  unfold vblock. rewrite !padded_pad4, utf16z_wide. f_equal. f_equal. unfold key_head, block_head. rewrite <- !app_assoc. do 2 f_equal.
  rewrite zlen_pad4, !zlen_app, zlen_wide_z, !zlen_le. unfold key_bytes. f_equal. f_equal. lia.
Qed.
Lemma pad4_app a b : zlen a mod 4 = 0 -> pad4 (a ++ b) = a ++ pad4 b.
Proof. intros H. rewrite <- !padded_pad4. unfold padded. rewrite zlen_app, <- app_assoc. do 3 f_equal. pose proof (zlen_nonneg a). pose proof (zlen_nonneg b). lia. Qed.
Lemma pad4_same bs : zlen bs mod 4 = 0 -> pad4 bs = bs.
Proof. intros H. rewrite <- padded_pad4. unfold padded. replace ((- zlen bs) mod 4) with 0 by (pose proof (zlen_nonneg bs); lia). apply app_nil_r. Qed.
Lemma pad4_two bs : zlen bs mod 4 = 2 -> pad4 bs = bs ++ [0; 0].
Proof. intros H. rewrite <- padded_pad4. unfold padded. replace ((- zlen bs) mod 4) with 2 by (pose proof (zlen_nonneg bs); lia). reflexivity. Qed.

Lemma string_part_block e : string_part e = str_block e.
Proof.
  unfold string_part, str_block. rewrite vblock_head, padded_pad4, pad4_app, utf16z_wide, zlen_wide_z.
  - do 2 f_equal. f_equal. lia.
  - rewrite zlen_pad4. apply round4_spec, zlen_nonneg.
Qed.
Lemma flat_concat {A} (f g : A -> list Z) l : (forall x, f x = g x) -> flat_map f l = concat (map g l).
Proof. intros H. rewrite flat_map_concat_map. f_equal. apply map_ext. exact H. Qed.
Lemma table_part_block e : table_part e = table_block e.
Proof. unfold table_part, table_block, str_blocks. rewrite vblock_head, (flat_concat _ str_block) by exact string_part_block. fold (str_blocks (snd e)). rewrite zlen_str_blocks. reflexivity. Qed.
Lemma strings_part_block s : strings_part s = strings_block s.
Proof.
  destruct s as [|e s]; [reflexivity|]. unfold strings_part, strings_block. set (l := e :: s). rewrite vblock_head, (flat_concat _ table_block) by exact table_part_block.
  fold (table_blocks l). rewrite zlen_table_blocks. change (text "StringFileInfo") with string_file_info. change (key_bytes string_file_info) with 36. rewrite pad4_same by (rewrite zlen_key_head; reflexivity). reflexivity.
Qed.
Lemma pairs_part_block t : pairs_part t = trans_block t.
Proof.
  destruct t as [|e t]; [reflexivity|]. unfold pairs_part, trans_block. set (l := e :: t). rewrite (flat_concat _ pair_bytes) by reflexivity. fold (pairs_bytes l).
  rewrite !vblock_head. change (text "VarFileInfo") with var_file_info. change (text "Translation") with translation_key.
  rewrite !pad4_two by (rewrite zlen_key_head; reflexivity). rewrite !zlen_app, !zlen_key_head, zlen_pairs.
  change (key_bytes var_file_info) with 32. change (key_bytes translation_key) with 32. change (zlen translation_key) with 11. change (zlen [0; 0]) with 2.
  rewrite <- !app_assoc. replace (32 + (8 + 2 * 11 + 2 + 4 * zlen l)) with (64 + 4 * zlen l) by lia. reflexivity.
Qed.
Lemma fixed_part_bytes i : fixed_part i = fixed_bytes i.
Proof. reflexivity. Qed.
Lemma version_format_bytes i s t : version_format i s t = version_bytes i s t.
Proof.
  unfold version_format, version_bytes. rewrite vblock_head, strings_part_block, pairs_part_block, fixed_part_bytes. change (text "VS_VERSION_INFO") with version_key.
  rewrite pad4_two by (rewrite zlen_key_head; reflexivity). rewrite <- !app_assoc, !zlen_app, zlen_fixed, zlen_strings_block, zlen_trans_block.
  change (key_bytes version_key) with 40.
  match goal with |- key_head ?a _ _ _ ++ _ = _ => replace a with (block_bytes s t) by (unfold block_bytes; lia) end. reflexivity.
Qed.
Lemma zlen_format i s t : zlen (version_format i s t) = block_bytes s t.
Proof. rewrite version_format_bytes. apply zlen_version. Qed.
Lemma format_written i s t : zlen (version_format i s t) < 65536 -> version_data i s t = Ok (version_format i s t).
Proof. rewrite zlen_format, version_format_bytes. apply version_data_ok. Qed.
Lemma format_read i s t : info_ok i -> tables_ok s -> translations_ok t -> zlen (version_format i s t) < 65536 -> version_info (version_format i s t) = Ok (i, (s, t)).
Proof.
  intros H1 H2 H3 H4. pose proof (format_written _ _ _ H4) as W. rewrite zlen_format in H4. destruct (version_round i s t H1 H2 H3 H4) as (d & E & _ & R). rewrite W in E. injection E as <-. exact R.
Qed.
