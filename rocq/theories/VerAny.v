(** Proofs: version resources in any order (C54). *)
From Coq Require Import String Permutation.
From Verif Require Import ResDataFacts StoreFacts ManagerFacts ExportFacts VerFacts VerRound VerRead VerFormat SpecVerAny.

(** ** What the reader builds *)
Definition add_strings (l acc : list (list Z * list Z)) : list (list Z * list Z) := fold_left (fun a e => sinsert (fst e) (snd e) a) l acc.
Definition add_tables (l acc : list (list Z * list (list Z * list Z))) : list (list Z * list (list Z * list Z)) := fold_left (fun a e => sinsert (fst e) (add_strings (snd e) []) a) l acc.
Definition add_pairs (l acc : list (Z * Z)) : list (Z * Z) := fold_left (fun a e => multi_insert (fst e) (snd e) a) l acc.
Definition add_child (st : list (list Z * list (list Z * list Z)) * list (Z * Z)) (c : version_child) :=
  match c with Strings s => (add_tables s (fst st), snd st) | Pairs t => (fst st, add_pairs t (snd st)) end.
Definition string_fine (x : list Z * list Z) : Prop := key_ok (fst x) /\ value_ok (snd x).
Definition table_fine (e : list Z * list (list Z * list Z)) : Prop := key_ok (fst e) /\ Forall string_fine (snd e).

Lemma string_entry_any d base size pos acc k v : holds d pos (str_block (k, v)) -> key_ok k -> value_ok v -> zlen d < 65536 -> pos mod 4 = 0 -> 0 <= pos - base < size /\ 0 <= base ->
  string_entry d (zlen d) base size (pos, acc) = Ok (inl (pos + string_bytes (k, v), sinsert k v acc)).
Proof.
  intros H K V L M B. pose proof (holds_range _ _ _ H) as [R1 R2]. rewrite zlen_str_block in R2. unfold str_block in H. cbn [fst snd] in H. apply holds_app in H as [H1 H2]. rewrite zlen_pad4, zlen_key_head in H2. apply holds_pad4 in H1, H2.
  pose proof (zlen_nonneg k) as Nk. pose proof (zlen_nonneg v) as Nv. unfold string_bytes in *. cbn [fst snd] in *.
  pose proof (round4_spec (6 + 2 * (zlen k + 1)) ltac:(lia)) as [Rk Rk4]. fold (key_bytes k) in Rk, Rk4. pose proof (round4_spec (2 * (zlen v + 1)) ltac:(lia)) as [Rv Rv4].
  unfold string_entry. rewrite u32_diff by lia. replace (pos - base <? size) with true by lia.
  rewrite (block_exact d pos _ _ _ _ H1 K) by lia. cbn [bind]. replace (zlen v + 1 =? 0) with false by lia. rewrite value_pos_ok by lia. cbn [bind]. replace (zlen d <? pos + key_bytes k + (zlen v + 1)) with false by lia. cbn [throw_if bind].
  assert (E : rd_units d (pos + key_bytes k) (zlen v + 1) = Ok (v ++ [0])).
  { replace (zlen v + 1) with (zlen (v ++ [0])) by (rewrite zlen_app; reflexivity). apply rd_units_ok; [apply Forall_app; split; [apply V|repeat constructor; unfold is_u16; lia]|]. rewrite wide_snoc. replace (pos + key_bytes k) with (pos + round4 (8 + 2 * zlen k)); [exact H2|]. unfold key_bytes. do 2 f_equal. lia. }
  rewrite E. cbn [bind]. rewrite strip_null by exact V.
  assert (R4 : round4 (key_bytes k + 2 * (zlen v + 1)) = key_bytes k + round4 (2 * (zlen v + 1))) by (unfold round4 in *; lia). rewrite align16_ok by lia. rewrite R4. unfold u32. rewrite Z.mod_small by lia. reflexivity.
Qed.
Lemma strings_any d base size m : forall pos acc, holds d pos (str_blocks m) -> Forall string_fine m -> zlen d < 65536 -> pos mod 4 = 0 -> 0 <= base <= pos -> pos <= zlen d -> size = pos - base + sum_of string_bytes m ->
  nloop (S (length m)) (string_entry d (zlen d) base size) (pos, acc) = Ok (inr (add_strings m acc)).
Proof.
  induction m as [|[k v] m IH]; intros pos acc H F L M B R Hs.
  - cbn [sum_of] in Hs. cbn [nloop length]. unfold string_entry. rewrite u32_diff by lia. replace (pos - base <? size) with false by lia. reflexivity.
  - cbn [length sum_of] in *. rewrite str_blocks_cons in H. apply holds_app in H as [H1 H2]. rewrite zlen_str_block in H2. pose proof (string_bytes_pos (k, v)) as P. pose proof (string_bytes_mod (k, v)) as Pm. pose proof (sum_nonneg string_bytes m string_bytes_nonneg) as Ps.
    inversion F as [|? ? [Fk Fv] F']; subst. cbn [fst snd] in Fk, Fv. pose proof (holds_range _ _ _ H2) as [_ R2]. rewrite zlen_str_blocks in R2.
    rewrite (nloop_step _ _ _ (pos + string_bytes (k, v), sinsert k v acc)); [|apply string_entry_any; try assumption; lia]. apply IH; [exact H2|exact F'|exact L|lia..].
Qed.
Lemma table_entry_any d base size pos acc k m : holds d pos (table_block (k, m)) -> key_ok k -> Forall string_fine m -> zlen d < 65536 -> pos mod 4 = 0 -> 0 <= pos - base < size /\ 0 <= base ->
  table_entry big_fuel d (zlen d) base size (pos, acc) = Ok (inl (pos + table_bytes (k, m), sinsert k (add_strings m []) acc)).
Proof.
  intros H K Sm L M B. pose proof (holds_range _ _ _ H) as [R1 R2]. rewrite zlen_table_block in R2. pose proof (table_bytes_mod (k, m)) as T4. unfold table_block in H. cbn [fst snd] in H. apply holds_app in H as [H1 H2]. rewrite zlen_pad4, zlen_key_head in H2. apply holds_pad4 in H1.
  pose proof (zlen_nonneg k) as Nk. pose proof (sum_nonneg string_bytes m string_bytes_nonneg) as Nm. pose proof (table_bytes_pos (k, m)) as Tp. assert (Et : table_bytes (k, m) = key_bytes k + sum_of string_bytes m) by reflexivity.
  pose proof (round4_spec (6 + 2 * (zlen k + 1)) ltac:(lia)) as [Rk Rk4]. fold (key_bytes k) in Rk, Rk4. replace (round4 (8 + 2 * zlen k)) with (key_bytes k) in H2 by (unfold key_bytes; f_equal; lia).
  unfold table_entry. rewrite u32_diff by lia. replace (pos - base <? size) with true by lia. rewrite (block_exact d pos _ _ _ _ H1 K) by lia. cbn [bind]. rewrite first_child_ok by lia. cbn [bind]. change (round4 0) with 0. rewrite Z.add_0_r.
  pose proof (sum_length string_bytes m ltac:(intros x; pose proof (string_bytes_pos x); lia)) as Lm.
  assert (E : nloop (Datatypes.S (length m)) (string_entry d (zlen d) pos (table_bytes (k, m))) (pos + key_bytes k, []) = Ok (inr (add_strings m []))) by (apply strings_any; [exact H2|exact Sm|lia..]).
  rewrite (mloop_exec _ big_fuel _ _ _ E) by (unfold big_fuel; lia). cbn [bind].
  assert (R4 : round4 (table_bytes (k, m)) = table_bytes (k, m)) by (unfold round4; lia). rewrite align16_ok by lia. rewrite R4. unfold u32. rewrite Z.mod_small by lia. reflexivity.
Qed.
Lemma tables_any d base size s : forall pos acc, holds d pos (table_blocks s) -> Forall table_fine s -> zlen d < 65536 -> pos mod 4 = 0 -> 0 <= base <= pos -> pos <= zlen d -> size = pos - base + sum_of table_bytes s ->
  nloop (S (length s)) (table_entry big_fuel d (zlen d) base size) (pos, acc) = Ok (inr (add_tables s acc)).
Proof.
  induction s as [|[k m] s IH]; intros pos acc H F L M B R Hs.
  - cbn [sum_of] in Hs. cbn [nloop length]. unfold table_entry. rewrite u32_diff by lia. replace (pos - base <? size) with false by lia. reflexivity.
  - cbn [length sum_of] in *. rewrite table_blocks_cons in H. apply holds_app in H as [H1 H2]. rewrite zlen_table_block in H2. pose proof (table_bytes_pos (k, m)) as P. pose proof (table_bytes_mod (k, m)) as Pm. pose proof (sum_nonneg table_bytes s table_bytes_nonneg) as Ps.
    inversion F as [|? ? [Fk Fv] F']; subst. cbn [fst snd] in Fk, Fv. pose proof (holds_range _ _ _ H2) as [_ R2]. rewrite zlen_table_blocks in R2.
    rewrite (nloop_step _ _ _ (pos + table_bytes (k, m), sinsert k (add_strings m []) acc)); [|apply table_entry_any; try assumption; lia]. apply IH; [exact H2|exact F'|exact L|lia..].
Qed.
Definition pair_fine (e : Z * Z) : Prop := is_u16 (fst e) /\ is_u16 (snd e).
Lemma pairs_any d vp v t : forall i acc, holds d (vp + i) (pairs_bytes t) -> Forall pair_fine t -> 0 <= i -> v = i + 4 * zlen t -> v < 65536 ->
  nloop (S (length t)) (pair_entry d vp v) (i, acc) = Ok (inr (add_pairs t acc)).
Proof.
  induction t as [|[a b] t IH]; intros i acc H F I0 Hv L.
  - change (@zlen (Z * Z) []) with 0 in Hv. cbn [nloop length]. unfold pair_entry. replace (i <? v) with false by lia. reflexivity.
  - rewrite zlen_cons in Hv. pose proof (zlen_nonneg t) as N. cbn [length] in *. change (pairs_bytes ((a, b) :: t)) with (pair_bytes (a, b) ++ pairs_bytes t) in H. apply holds_app in H as [H1 H2]. change (zlen (pair_bytes (a, b))) with 4 in H2.
    unfold pair_bytes in H1. cbn [fst snd] in H1. apply holds_app in H1 as [H1 H3]. change (zlen (le 2 a)) with 2 in H3. inversion F as [|? ? [Fa Fb] F']; subst. cbn [fst snd] in Fa, Fb. unfold is_u16 in Fa, Fb.
    rewrite (nloop_step _ _ _ (i + 4, multi_insert a b acc)).
    + apply IH; [replace (vp + (i + 4)) with (vp + i + 4) by lia; exact H2|exact F'|lia|lia|lia].
    + unfold pair_entry. match goal with |- context [i <? ?v] => replace (i <? v) with true by lia end. rewrite (rd_le_ok' d (vp + i) 2 a) by (try exact H1; lia). cbn [bind]. replace (vp + 2 + i) with (vp + i + 2) by lia. rewrite (rd_le_ok' d (vp + i + 2) 2 b) by (try exact H3; lia). cbn [bind].
      unfold u32. rewrite Z.mod_small by lia. reflexivity.
Qed.
Lemma strings_child_any d size pos l st tr : holds d pos (key_head (36 + sum_of table_bytes l) 0 1 string_file_info ++ table_blocks l) -> Forall table_fine l -> zlen d < 65536 -> pos mod 4 = 0 -> 0 <= pos < size ->
  child_entry big_fuel d (zlen d) size (pos, (st, tr)) = Ok (inl (pos + 36 + sum_of table_bytes l, (add_tables l st, tr))).
Proof.
  intros H T L M B. pose proof (holds_range _ _ _ H) as [R1 R2]. rewrite zlen_app, zlen_table_blocks in R2. change (zlen (key_head (36 + sum_of table_bytes l) 0 1 string_file_info)) with 36 in R2.
  apply holds_app in H as [H1 H2]. change (zlen (key_head (36 + sum_of table_bytes l) 0 1 string_file_info)) with 36 in H2. pose proof (sum_nonneg table_bytes l table_bytes_nonneg) as N. pose proof (sum_mod table_bytes l table_bytes_mod) as N4.
  assert (K : key_ok string_file_info) by (split; [repeat constructor; unfold is_u16; lia|cbn; lia]).
  unfold child_entry. replace (pos <? size) with true by lia. assert (Ss : is_sum_safe pos 8 = true) by (unfold is_sum_safe, u32, max_dword; lia). rewrite Ss. cbn [negb throw_if bind]. rewrite (block_exact d pos _ _ _ _ H1 K) by lia. cbn [bind].
  change (str_eqb string_file_info string_file_info) with true. cbv iota. rewrite first_child_ok; [|lia|lia|lia|change (key_bytes string_file_info) with 36; lia]. cbn [bind]. change (key_bytes string_file_info) with 36. change (round4 0) with 0. rewrite Z.add_0_r.
  pose proof (sum_length table_bytes l ltac:(intros x; pose proof (table_bytes_pos x); lia)) as Lm.
  assert (E : nloop (S (length l)) (table_entry big_fuel d (zlen d) pos (36 + sum_of table_bytes l)) (pos + 36, st) = Ok (inr (add_tables l st))) by (apply tables_any; [exact H2|exact T|lia..]).
  rewrite (mloop_exec _ big_fuel _ _ _ E) by (unfold big_fuel; lia). cbn [bind]. assert (R4 : round4 (36 + sum_of table_bytes l) = 36 + sum_of table_bytes l) by (unfold round4; lia). rewrite align16_ok by lia. rewrite R4. unfold u32. rewrite Z.mod_small by lia. do 3 f_equal. lia.
Qed.
Lemma var_block_any d base size pos acc t : holds d pos (key_head (32 + 4 * zlen t) (4 * zlen t) 0 translation_key ++ [0; 0] ++ pairs_bytes t) -> Forall pair_fine t -> zlen d < 65536 -> pos mod 4 = 0 -> 0 <= pos - base < size /\ 0 <= base ->
  var_entry big_fuel d (zlen d) base size (pos, acc) = Ok (inl (pos + 32 + 4 * zlen t, add_pairs t acc)).
Proof.
  intros H T L M B. apply holds_app in H as [H1 H2]. change (zlen (key_head (32 + 4 * zlen t) (4 * zlen t) 0 translation_key)) with 30 in H2. apply holds_app in H2 as [_ H2]. change (zlen [0; 0]) with 2 in H2. pose proof (zlen_nonneg t) as N.
  pose proof (holds_range _ _ _ H2) as [_ R2]. rewrite zlen_pairs in R2. pose proof (holds_range _ _ _ H1) as [R1 _].
  assert (K : key_ok translation_key) by (split; [repeat constructor; unfold is_u16; lia|cbn; lia]).
  unfold var_entry. rewrite u32_diff by lia. replace (pos - base <? size) with true by lia. rewrite (block_exact d pos _ _ _ _ H1 K) by lia. cbn [bind]. change (str_eqb translation_key translation_key) with true.
  assert (R4 : round4 (32 + 4 * zlen t) = 32 + 4 * zlen t) by (unfold round4; lia). cbn [andb]. destruct (4 * zlen t =? 0) eqn:Ez.
  { cbn [negb bind]. assert (t = []) as -> by (destruct t; [reflexivity|rewrite zlen_cons in Ez; pose proof (zlen_nonneg t); lia]). rewrite align16_ok by lia. rewrite R4. unfold u32. rewrite Z.mod_small by lia. cbn [add_pairs fold_left]. do 3 f_equal. lia. }
  cbn [negb].
  rewrite value_pos_ok; [|lia|lia|change (key_bytes translation_key) with 32; lia]. change (key_bytes translation_key) with 32. cbn [bind]. replace (zlen d <? pos + 32 + 4 * zlen t) with false by lia. cbn [throw_if bind].
  assert (E : nloop (S (length t)) (pair_entry d (pos + 32) (4 * zlen t)) (0, acc) = Ok (inr (add_pairs t acc))) by (apply pairs_any; [replace (pos + 32 + 0) with (pos + 30 + 2) by lia; exact H2|exact T|lia..]).
  rewrite (mloop_exec _ big_fuel _ _ _ E) by (unfold big_fuel, zlen in *; lia). cbn [bind]. rewrite align16_ok by lia. rewrite R4. unfold u32. rewrite Z.mod_small by lia. do 3 f_equal. lia.
Qed.
Lemma trans_child_any d size pos st acc l : holds d pos (key_head (64 + 4 * zlen l) 0 1 var_file_info ++ [0; 0] ++ key_head (32 + 4 * zlen l) (4 * zlen l) 0 translation_key ++ [0; 0] ++ pairs_bytes l) -> Forall pair_fine l -> zlen d < 65536 -> pos mod 4 = 0 -> 0 <= pos < size ->
  child_entry big_fuel d (zlen d) size (pos, (st, acc)) = Ok (inl (pos + 64 + 4 * zlen l, (st, add_pairs l acc))).
Proof.
  intros H T L M B. pose proof (holds_range _ _ _ H) as [R1 R2]. rewrite !zlen_app, zlen_pairs, !zlen_key_head in R2. change (zlen var_file_info) with 11 in R2. change (zlen translation_key) with 11 in R2. change (zlen [0; 0]) with 2 in R2.
  apply holds_app in H as [H1 H2]. change (zlen (key_head (64 + 4 * zlen l) 0 1 var_file_info)) with 30 in H2. apply holds_app in H2 as [_ H2]. change (zlen [0; 0]) with 2 in H2. pose proof (zlen_nonneg l) as N.
  assert (K : key_ok var_file_info) by (split; [repeat constructor; unfold is_u16; lia|cbn; lia]).
  unfold child_entry. replace (pos <? size) with true by lia. assert (Ss : is_sum_safe pos 8 = true) by (unfold is_sum_safe, u32, max_dword; lia). rewrite Ss. cbn [negb throw_if bind]. rewrite (block_exact d pos _ _ _ _ H1 K) by lia. cbn [bind].
  change (str_eqb var_file_info string_file_info) with false. change (str_eqb var_file_info var_file_info) with true. cbv iota. rewrite first_child_ok; [|lia|lia|lia|change (key_bytes var_file_info) with 32; lia]. cbn [bind]. change (key_bytes var_file_info) with 32. change (round4 0) with 0. rewrite Z.add_0_r.
  replace (pos + 30 + 2) with (pos + 32) in H2 by lia.
  assert (E : nloop 2 (var_entry big_fuel d (zlen d) pos (64 + 4 * zlen l)) (pos + 32, acc) = Ok (inr (add_pairs l acc))).
  { rewrite (nloop_step _ _ _ (pos + 32 + 32 + 4 * zlen l, add_pairs l acc)); [|apply var_block_any; try assumption; lia]. cbn [nloop]. unfold var_entry at 1. rewrite u32_diff by lia. replace (pos + 32 + 32 + 4 * zlen l - pos <? 64 + 4 * zlen l) with false by lia. reflexivity. }
  rewrite (mloop_exec _ big_fuel _ _ _ E) by (unfold big_fuel; lia). cbn [bind]. assert (R4 : round4 (64 + 4 * zlen l) = 64 + 4 * zlen l) by (unfold round4; lia). rewrite align16_ok by lia. rewrite R4. unfold u32. rewrite Z.mod_small by lia. do 3 f_equal. lia.
Qed.

(** ** The children *)
Definition child_block (c : version_child) : list Z :=
  match c with
  | Strings l => key_head (36 + sum_of table_bytes l) 0 1 string_file_info ++ table_blocks l
  | Pairs l => key_head (64 + 4 * zlen l) 0 1 var_file_info ++ [0; 0] ++ key_head (32 + 4 * zlen l) (4 * zlen l) 0 translation_key ++ [0; 0] ++ pairs_bytes l
  end.
Definition child_bytes (c : version_child) : Z := match c with Strings l => 36 + sum_of table_bytes l | Pairs l => 64 + 4 * zlen l end.
Lemma zlen_child c : zlen (child_block c) = child_bytes c.
Proof.
  destruct c as [l|l]; unfold child_block, child_bytes; rewrite !zlen_app, ?zlen_table_blocks, ?zlen_pairs, !zlen_key_head.
  - change (zlen string_file_info) with 14. lia.
  - change (zlen var_file_info) with 11. change (zlen translation_key) with 11. change (zlen [0; 0]) with 2. lia.
Qed.
Lemma child_bytes_pos c : 36 <= child_bytes c.
Proof. destruct c as [l|l]; unfold child_bytes; [pose proof (sum_nonneg table_bytes l table_bytes_nonneg); lia|pose proof (zlen_nonneg l); lia]. Qed.
Lemma child_bytes_nonneg c : 0 <= child_bytes c. Proof. pose proof (child_bytes_pos c). lia. Qed.
Lemma child_bytes_mod c : child_bytes c mod 4 = 0.
Proof. destruct c as [l|l]; unfold child_bytes; [pose proof (sum_mod table_bytes l table_bytes_mod); lia|lia]. Qed.
Lemma children_any d size cs : zlen d < 65536 -> forall pos st, holds d pos (concat (map child_block cs)) -> Forall child_ok cs -> pos mod 4 = 0 -> 0 <= pos -> size = pos + sum_of child_bytes cs ->
  nloop (S (length cs)) (child_entry big_fuel d (zlen d) size) (pos, st) = Ok (inr (fold_left add_child cs st)).
Proof.
  intros L. induction cs as [|c cs IH]; intros pos [st tr] H F M P Hs.
  - cbn [sum_of] in Hs. cbn [nloop length fold_left]. unfold child_entry. replace (pos <? size) with false by lia. reflexivity.
  - cbn [length sum_of map concat fold_left] in *. apply holds_app in H as [H1 H2]. rewrite zlen_child in H2. inversion F as [|? ? Fc F']; subst. pose proof (child_bytes_pos c) as Pc. pose proof (child_bytes_mod c) as Pm. pose proof (sum_nonneg child_bytes cs child_bytes_nonneg) as Ps.
    rewrite (nloop_step _ _ _ (pos + child_bytes c, add_child (st, tr) c)); [apply IH; [exact H2|exact F'|lia..]|].
    destruct c as [l|l]; cbn [child_block child_ok] in H1, Fc.
    + rewrite (strings_child_any d _ pos l st tr H1 Fc L M) by lia. unfold child_bytes, add_child. cbn [fst snd]. do 3 f_equal. lia.
    + rewrite (trans_child_any d _ pos st tr l H1 Fc L M) by lia. unfold child_bytes, add_child. cbn [fst snd]. do 3 f_equal. lia.
Qed.
Lemma child_part_block c : child_part c = child_block c.
Proof.
  destruct c as [l|l]; unfold child_part, child_block.
  - rewrite vblock_head, (flat_concat _ table_block) by exact table_part_block. fold (table_blocks l). rewrite zlen_table_blocks. change (text "StringFileInfo") with string_file_info. change (key_bytes string_file_info) with 36. rewrite pad4_same by (rewrite zlen_key_head; reflexivity). reflexivity.
  - rewrite (flat_concat _ pair_bytes) by reflexivity. fold (pairs_bytes l).
    rewrite !vblock_head. change (text "VarFileInfo") with var_file_info. change (text "Translation") with translation_key.
    rewrite !pad4_two by (rewrite zlen_key_head; reflexivity). rewrite !zlen_app, !zlen_key_head, zlen_pairs.
    change (key_bytes var_file_info) with 32. change (key_bytes translation_key) with 32. change (zlen translation_key) with 11. change (zlen [0; 0]) with 2.
    rewrite <- !app_assoc. replace (32 + (8 + 2 * 11 + 2 + 4 * zlen l)) with (64 + 4 * zlen l) by lia. reflexivity.
Qed.
Definition file_bytes (i : file_info) (cs : list version_child) : list Z :=
  key_head (92 + sum_of child_bytes cs) 52 0 version_key ++ [0; 0] ++ fixed_bytes i ++ concat (map child_block cs).
Lemma version_file_bytes i cs : version_file i cs = file_bytes i cs.
Proof.
  unfold version_file, file_bytes. rewrite vblock_head, fixed_part_bytes, (flat_concat _ child_block) by exact child_part_block. change (text "VS_VERSION_INFO") with version_key.
  rewrite pad4_two by (rewrite zlen_key_head; reflexivity). rewrite <- !app_assoc, !zlen_app, zlen_fixed, (zlen_concat child_block child_bytes) by exact zlen_child.
  change (key_bytes version_key) with 40. match goal with |- key_head ?a _ _ _ ++ _ = _ => replace a with (92 + sum_of child_bytes cs) by lia end. reflexivity.
Qed.
Lemma zlen_file i cs : zlen (file_bytes i cs) = 92 + sum_of child_bytes cs.
Proof. unfold file_bytes. rewrite !zlen_app, zlen_key_head, zlen_fixed, (zlen_concat child_block child_bytes) by exact zlen_child. change (zlen version_key) with 15. change (zlen [0; 0]) with 2. lia. Qed.
Lemma file_read i cs : info_ok i -> Forall child_ok cs -> zlen (file_bytes i cs) < 65536 -> version_info (file_bytes i cs) = Ok (i, fold_left add_child cs ([], [])).
Proof.
  intros Hi F Hz. unfold version_info. pose proof (zlen_file i cs) as L. assert (Hd : holds (file_bytes i cs) 0 (file_bytes i cs)) by (apply stands_holds; exists [], []; rewrite app_nil_r; split; reflexivity).
  unfold file_bytes in Hd at 2. set (d := file_bytes i cs) in *. clearbody d. pose proof (sum_nonneg child_bytes cs child_bytes_nonneg) as N. set (n := 92 + sum_of child_bytes cs) in *.
  apply holds_app in Hd as [H1 Hd]. change (zlen (key_head n 52 0 version_key)) with 38 in Hd. apply holds_app in Hd as [_ Hd]. change (zlen [0; 0]) with 2 in Hd. apply holds_app in Hd as [H2 Hd]. rewrite zlen_fixed in Hd. change (0 + 38 + 2 + 52) with 92 in Hd. change (0 + 38 + 2) with 40 in H2.
  assert (K : key_ok version_key) by (split; [repeat constructor; unfold is_u16; lia|cbn; lia]). unfold version_info_from. replace (zlen d <? 8) with false by lia. cbn [throw_if bind].
  unfold key_head, block_head in H1. rewrite <- !app_assoc in H1. apply holds_app in H1 as [Ha H1]. apply holds_app in H1 as [Hb H1]. apply holds_app in H1 as [Hc He]. rewrite !zlen_le in *. change (0 + Z.of_nat 2) with 2 in *. change (2 + Z.of_nat 2 + Z.of_nat 2) with 6 in He.
  rewrite (rd_le_ok' d 0 2 n) by (try exact Ha; lia). cbn [bind]. rewrite (rd_le_ok' d 2 2 52) by (try exact Hb; lia). cbn [bind]. rewrite (w_string_exact d 6 _ version_key He K) by (change (zlen version_key) with 15; lia). cbn [bind]. change (str_eqb version_key version_key) with true. cbn [negb throw_if bind].
  assert (Ef : fixed_info d (zlen d) 52 version_key = Ok i).
  { unfold fixed_info. change (52 =? 0) with false. cbv iota. change (value_pos 0 version_key) with (Ok 40). cbn [bind]. replace (zlen d <? 40 + 52) with false by lia. cbn [throw_if bind]. rewrite (rd_holds _ _ _ 52 H2) by (rewrite zlen_fixed; reflexivity). cbn [bind].
    unfold fixed_bytes. match goal with |- context [enc_fields ?w ?x] => rewrite <- (app_nil_r (enc_fields w x)) end. rewrite dec_enc_fields; [|destruct Hi as (I1 & I2 & I3 & I4 & I5 & I6 & I7 & I8 & I9 & I10); unfold is_u32 in *; unfold ffi_widths; cbn [repeat fits]; unfold ffi_signature, ffi_version, ffi_mask; repeat split; lia].
    change (negb (ffi_signature =? ffi_signature) || negb (ffi_version =? ffi_version)) with false. cbn [throw_if bind]. destruct i; reflexivity. }
  rewrite Ef. cbn [bind]. change (first_child_pos 0 52 version_key) with (Ok 92). cbn [bind].
  pose proof (sum_length child_bytes cs ltac:(intros x; pose proof (child_bytes_pos x); lia)) as Lm.
  assert (E : nloop (S (length cs)) (child_entry big_fuel d (zlen d) n) (92, ([], [])) = Ok (inr (fold_left add_child cs ([], [])))) by (apply children_any; [lia|exact Hd|exact F|reflexivity|lia|reflexivity]).
  rewrite (mloop_exec _ big_fuel _ _ _ E) by (unfold big_fuel; lia). reflexivity.
Qed.

(** ** The maps *)
Lemma insert_in {A} k (v : A) m : keys_ascending m -> keys_ascending (sinsert k v m) /\ (forall x, In x (sinsert k v m) -> x = (k, v) \/ In x m) /\
  (forall k' v', In (k', v') (sinsert k v m) <-> In (k', v') m \/ (k' = k /\ v' = v /\ ~ In k (map fst m))).
Proof.
  unfold keys_ascending. induction m as [|[k1 v1] m IH]; intros S; cbn [sinsert map fst].
  - split; [repeat constructor|]. split; [intros x [<-|[]]; auto|]. intros k' v'. cbn [In]. split; [intros [E|[]]; injection E as <- <-; tauto|intros [[]|(-> & -> & _)]; auto].
  - inversion S as [|? ? S1 S2]; subst. destruct (IH S1) as (I1 & I2 & I3). destruct (str_ltb k k1) eqn:E1.
    + apply str_ltb_before in E1. assert (F : Forall (str_before k) (map fst m)) by (apply (Forall_impl _ (P := str_before k1)); [|exact S2]; intros x Hx; exact (str_before_trans _ _ _ E1 Hx)).
      split; [cbn [map fst]; constructor; [exact S|constructor; assumption]|]. split; [intros x [<-|H]; auto|].
      intros k' v'. cbn [In]. split; [|intros [H|(-> & -> & _)]; auto]. intros [E|H]; [|auto]. injection E as <- <-. right. split; [reflexivity|]. split; [reflexivity|].
      intros [E|H]; [subst; apply str_ltb_before in E1; rewrite str_ltb_irrefl in E1; discriminate|]. rewrite Forall_forall in F. apply F, str_ltb_before in H. rewrite str_ltb_irrefl in H. discriminate.
    + destruct (str_eqb k k1) eqn:E2.
      * apply str_eqb_eq in E2 as ->. split; [exact S|]. split; [auto|]. intros k' v'. split; [auto|]. intros [H|(_ & _ & H)]; [exact H|]. exfalso. apply H. left. reflexivity.
      * pose proof (str_total _ _ E1 E2) as T. split; [|split].
        -- cbn [map fst]. constructor; [exact I1|]. apply Forall_forall. intros x Hx. apply in_map_iff in Hx as (y & <- & Hy). apply I2 in Hy as [->|Hy]; [exact T|]. rewrite Forall_forall in S2. apply S2, in_map, Hy.
        -- intros x [<-|H]; [right; left; reflexivity|]. apply I2 in H as [->|H]; [auto|right; right; exact H].
        -- intros k' v'. cbn [In]. rewrite I3. split; [intros [H|[H|(-> & -> & H)]]; [auto|auto|]|intros [[H|H]|(-> & -> & H)]; [auto|auto|]].
           ++ right. split; [reflexivity|]. split; [reflexivity|]. intros [H'|H']; [|exact (H H')]. subst k1. assert (C : str_eqb k k = true) by (apply str_eqb_eq; reflexivity). congruence.
           ++ right. right. split; [reflexivity|]. split; [reflexivity|]. intros H'. apply H. right. exact H'.
Qed.
Lemma listed_snoc {A} (l : list (list Z * A)) k v k' v' : listed_first (l ++ [(k, v)]) k' v' <-> listed_first l k' v' \/ (k' = k /\ v' = v /\ ~ In k (map fst l)).
Proof.
  split.
  - intros (a & b & E & N). destruct b as [|y b _] using rev_ind.
    + apply app_inj_tail in E as [-> E]. injection E as -> ->. auto.
    + change (a ++ (k', v') :: b ++ [y]) with (a ++ ((k', v') :: b) ++ [y]) in E. rewrite app_assoc in E. apply app_inj_tail in E as [-> _]. left. exists a, b. auto.
  - intros [(a & b & -> & N)|(-> & -> & N)]; [exists a, (b ++ [(k, v)]); split; [rewrite <- app_assoc; reflexivity|exact N]|exists l, []; auto].
Qed.
Lemma listed_key {A} (l : list (list Z * A)) k : In k (map fst l) <-> exists v, listed_first l k v.
Proof.
  split.
  - induction l as [|[k1 v1] l IH] using rev_ind; [intros []|]. intros H. rewrite map_app in H. destruct (in_dec (list_eq_dec Z.eq_dec) k (map fst l)) as [Y|Y].
    + destruct (IH Y) as (v & Hv). exists v. apply listed_snoc. auto.
    + apply in_app_or in H as [H|[<-|[]]]; [contradiction|]. exists v1. apply listed_snoc. auto.
  - intros (v & a & b & -> & _). rewrite map_app. apply in_or_app. right. left. reflexivity.
Qed.
Lemma fold_map {A B} (f : A -> B) (l : list (list Z * A)) :
  let m := fold_left (fun a e => sinsert (fst e) (f (snd e)) a) l [] in keys_ascending m /\ forall k w, In (k, w) m <-> exists v, listed_first l k v /\ w = f v.
Proof.
  induction l as [|[k1 v1] l IH] using rev_ind; cbv zeta.
  - split; [constructor|]. intros k w. split; [intros []|intros (v & (a & b & E & _) & _)]. destruct a; discriminate E.
  - rewrite fold_left_app. cbn [fold_left fst snd]. destruct IH as [S I]. set (m := fold_left _ l []) in *. destruct (insert_in k1 (f v1) m S) as (J1 & _ & J3). split; [exact J1|]. intros k w. rewrite J3, I.
    assert (Ek : In k1 (map fst m) <-> In k1 (map fst l)).
    { rewrite (listed_key l k1). split.
      - intros H. apply in_map_iff in H as ((k2, w2) & E & H). cbn [fst] in E. subst k2. apply I in H as (v & H & _). exists v. exact H.
      - intros (v & H). apply in_map_iff. exists (k1, f v). split; [reflexivity|]. apply I. exists v. auto. }
    rewrite Ek. split.
    + intros [(v & H & ->)|(-> & -> & H)]; [exists v|exists v1]; rewrite listed_snoc; auto.
    + intros (v & H & ->). apply listed_snoc in H as [H|(-> & -> & H)]; [left; exists v; auto|right; auto].
Qed.
Lemma strings_map_of l : map_of l (add_strings l []).
Proof. destruct (fold_map (fun v => v) l) as [S I]. split; [exact S|]. intros k v. unfold add_strings. rewrite I. split; [intros (x & H & ->); exact H|intros H; exists v; auto]. Qed.
Lemma ascending_unique {A} (a b : list (list Z * A)) : keys_ascending a -> keys_ascending b -> (forall x, In x a <-> In x b) -> a = b.
Proof.
  unfold keys_ascending. revert b. induction a as [|[k v] a IH]; intros [|[k' v'] b] Sa Sb E.
  - reflexivity.
  - exfalso. apply (E (k', v')). left. reflexivity.
  - exfalso. apply (E (k, v)). left. reflexivity.
  - cbn [map fst] in Sa, Sb. inversion Sa as [|? ? Sa1 Sa2]; inversion Sb as [|? ? Sb1 Sb2]; subst. rewrite Forall_forall in Sa2, Sb2.
    assert (Irr : forall x, ~ str_before x x) by (intros x H; apply str_ltb_before in H; rewrite str_ltb_irrefl in H; discriminate).
    assert (Eh : (k, v) = (k', v')).
    { destruct (proj1 (E (k, v)) (or_introl eq_refl)) as [H|H]; [congruence|]. destruct (proj2 (E (k', v')) (or_introl eq_refl)) as [H'|H']; [congruence|]. exfalso.
      apply (Irr k), (str_before_trans _ k'); [apply Sa2, (in_map fst _ _ H')|apply Sb2, (in_map fst _ _ H)]. }
    injection Eh as <- <-. f_equal. apply IH; [assumption..|]. intros x. split; intros H.
    + destruct (proj1 (E x) (or_intror H)) as [<-|H']; [|exact H']. exfalso. apply (Irr k), Sa2, (in_map fst _ _ H).
    + destruct (proj2 (E x) (or_intror H)) as [<-|H']; [|exact H']. exfalso. apply (Irr k), Sb2, (in_map fst _ _ H).
Qed.
Lemma map_of_unique {A} (l a b : list (list Z * A)) : map_of l a -> map_of l b -> a = b.
Proof. intros [Sa Ia] [Sb Ib]. apply ascending_unique; [assumption..|]. intros [k v]. rewrite Ia, Ib. reflexivity. Qed.
Lemma tables_tables_of l : tables_of l (add_tables l []).
Proof.
  destruct (fold_map (fun v => add_strings v []) l) as [S I]. split; [exact S|]. intros k m. unfold add_tables. rewrite I. split.
  - intros (x & H & ->). exists x. split; [exact H|apply strings_map_of].
  - intros (raw & H & M). exists raw. split; [exact H|]. apply (map_of_unique raw); [exact M|apply strings_map_of].
Qed.
Lemma multi_in k v m : Sorted.StronglySorted Z.le (map fst m) -> Sorted.StronglySorted Z.le (map fst (multi_insert k v m)) /\ (forall x, In x (multi_insert k v m) -> x = (k, v) \/ In x m) /\
  (forall j, filter (fun e => fst e =? j) (multi_insert k v m) = filter (fun e => fst e =? j) m ++ filter (fun e => fst e =? j) [(k, v)]).
Proof.
  induction m as [|[k1 v1] m IH]; intros S; cbn [multi_insert map fst].
  - split; [repeat constructor|]. split; [intros x [<-|[]]; auto|reflexivity].
  - cbn [map fst] in S. inversion S as [|? ? S1 S2]; subst. destruct (IH S1) as (I1 & I2 & I3). destruct (Z.ltb_spec k k1) as [C|C].
    + assert (F : Forall (Z.le k) (map fst m)) by (apply (Forall_impl _ (P := Z.le k1)); [intros; lia|exact S2]). split; [cbn [map fst]; constructor; [exact S|constructor; [lia|exact F]]|]. split; [intros x [<-|H]; auto|].
      intros j. change ((k, v) :: (k1, v1) :: m) with ([(k, v)] ++ (k1, v1) :: m). rewrite filter_app. destruct (Z.eqb_spec k j) as [->|Ne].
      * assert (N : filter (fun e : Z * Z => fst e =? j) ((k1, v1) :: m) = []).
        { cbn [filter fst]. replace (k1 =? j) with false by lia. clear - C S2. induction m as [|[a b] m IH]; [reflexivity|]. cbn [map fst] in S2. inversion S2; subst. cbn [filter fst]. replace (a =? j) with false by lia. apply IH. assumption. }
        rewrite N. rewrite app_nil_r. reflexivity.
      * cbn [filter fst]. replace (k =? j) with false by lia. rewrite app_nil_r. reflexivity.
    + split; [|split].
      * cbn [map fst]. constructor; [exact I1|]. apply Forall_forall. intros x Hx. apply in_map_iff in Hx as (y & <- & Hy). apply I2 in Hy as [->|Hy]; [exact C|]. rewrite Forall_forall in S2. apply S2, in_map, Hy.
      * intros x [<-|H]; [right; left; reflexivity|]. apply I2 in H as [->|H]; [auto|right; right; exact H].
      * intros j. cbn [filter fst]. rewrite I3. cbn [filter fst]. destruct (k1 =? j); reflexivity.
Qed.
Lemma pairs_pairs_of l : pairs_of l (add_pairs l []).
Proof.
  unfold add_pairs. induction l as [|[k v] l [S I]] using rev_ind; [split; [constructor|reflexivity]|]. rewrite fold_left_app. cbn [fold_left fst snd]. destruct (multi_in k v _ S) as (J1 & _ & J3). split; [exact J1|]. intros j. rewrite J3, I, filter_app. reflexivity.
Qed.
Lemma fold_children cs : forall st, fold_left add_child cs st = (add_tables (all_tables cs) (fst st), add_pairs (all_pairs cs) (snd st)).
Proof.
  induction cs as [|c cs IH]; intros [s t]; [reflexivity|]. cbn [fold_left]. rewrite IH. unfold all_tables, all_pairs. cbn [flat_map]. unfold add_tables, add_pairs. rewrite !fold_left_app. destruct c; reflexivity.
Qed.
Lemma any_order i cs : info_ok i -> Forall child_ok cs -> zlen (version_file i cs) < 65536 ->
  exists s t, version_info (version_file i cs) = Ok (i, (s, t)) /\ tables_of (all_tables cs) s /\ pairs_of (all_pairs cs) t.
Proof.
  intros H1 H2 H3. rewrite version_file_bytes in *. rewrite (file_read i cs H1 H2 H3), fold_children. cbn [fst snd]. eexists _, _. split; [reflexivity|]. split; [apply tables_tables_of|apply pairs_pairs_of].
Qed.
