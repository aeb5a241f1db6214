(** Proofs: what the version information reader makes of the bytes the writer stores (C54), and the refutations of C55. *)
From Verif Require Import ResDataFacts StoreFacts ManagerFacts ExportFacts.
From Verif Require Export VerRound.

(** ** Containers *)
Lemma str_ltb_irrefl a : str_ltb a a = false.
Proof. induction a as [|x a IH]; cbn [str_ltb]; [reflexivity|]. rewrite IH. lia. Qed.
Lemma before_not_ltb a b : str_before a b -> str_ltb b a = false /\ str_eqb b a = false.
Proof.
  intros H. split.
  - destruct (str_ltb b a) eqn:E; [|reflexivity]. apply str_ltb_before in E. pose proof (str_before_trans _ _ _ H E) as C. apply str_ltb_before in C. rewrite str_ltb_irrefl in C. discriminate.
  - destruct (str_eqb b a) eqn:E; [|reflexivity]. apply str_eqb_eq in E as ->. apply str_ltb_before in H. rewrite str_ltb_irrefl in H. discriminate.
Qed.
Lemma sinsert_last {A} k (v : A) m : Forall (fun x => str_before x k) (map fst m) -> sinsert k v m = m ++ [(k, v)].
Proof.
  induction m as [|[k' v'] m IH]; cbn [map fst sinsert app]; intros H; [reflexivity|]. inversion H as [|? ? H1 H2]; subst. destruct (before_not_ltb _ _ H1) as [-> ->]. rewrite IH by exact H2. reflexivity.
Qed.
Lemma multi_last k v m : Forall (fun x => x <= k) (map fst m) -> multi_insert k v m = m ++ [(k, v)].
Proof.
  induction m as [|[k' v'] m IH]; cbn [map fst multi_insert app]; intros H; [reflexivity|]. inversion H as [|? ? H1 H2]; subst. replace (k <? k') with false by lia. rewrite IH by exact H2. reflexivity.
Qed.
Lemma sorted_app_mid {A} (R : A -> A -> Prop) l1 x l2 : Sorted.StronglySorted R (l1 ++ x :: l2) -> Forall (fun y => R y x) l1.
Proof.
  induction l1 as [|y l1 IH]; cbn [app]; intros H; [constructor|]. inversion H as [|? ? H1 H2]; subst. constructor; [|apply IH, H1]. rewrite Forall_forall in H2. apply H2. apply in_or_app. right. left. reflexivity.
Qed.

(** ** Blocks *)
Lemma w_scan_exact key : forall n rest, key_ok key -> (length key < n)%nat -> w_scan (wide_z key ++ rest) n = Ok (Some key).
Proof.
  induction key as [|x key IH]; intros n rest [K1 K2] L; (destruct n as [|n]; [cbn [length] in L; lia|]).
  - reflexivity.
  - inversion K1 as [|? ? Kx Kt]; subst. unfold wide_z. cbn [map concat]. rewrite le2. cbn [app w_scan]. unfold is_u16 in Kx.
    assert (E : x mod 256 + 256 * (x / 256 mod 256) = x) by lia. rewrite E. replace (x =? 0) with false; [|symmetry; apply Z.eqb_neq; intros ->; apply K2; left; reflexivity].
    fold (wide_z key). rewrite IH; [reflexivity| |cbn [length] in L; lia]. split; [exact Kt|]. intros H. apply K2. right. exact H.
Qed.
Lemma w_string_exact d off n key : holds d off (wide_z key) -> key_ok key -> zlen key < n -> w_string d off n = Ok (Some key).
Proof.
  intros H K L. apply stands_holds in H as (a & b & -> & <-). unfold w_string, zdrop. unfold zlen at 1. rewrite Nat2Z.id. rewrite skipn_app, Nat.sub_diag, skipn_all. cbn [app skipn]. apply w_scan_exact; [exact K|]. unfold zlen in L. lia.
Qed.
Lemma holds_pad4 d pos bs : holds d pos (pad4 bs) -> holds d pos bs.
Proof. unfold pad4. intros H. apply holds_app in H as [H _]. exact H. Qed.
Lemma block_exact d pos l v t key : holds d pos (key_head l v t key) -> key_ok key -> 0 < l < 65536 -> 0 <= v < 65536 -> block_at d (zlen d) pos = Ok (l, v, key).
Proof.
  intros H K L V. pose proof (holds_range _ _ _ H) as [R1 R2]. rewrite zlen_key_head in R2. pose proof (zlen_nonneg key) as N. unfold key_head, block_head in H. rewrite <- !app_assoc in H.
  apply holds_app in H as [H1 H]. apply holds_app in H as [H2 H]. apply holds_app in H as [H3 H4]. rewrite !zlen_le in *. change (Z.of_nat 2) with 2 in *.
  unfold block_at. replace (zlen d <? pos + 8) with false by lia. cbn [throw_if bind]. rewrite (rd_le_ok' d pos 2 l) by (try exact H1; lia). cbn [bind]. rewrite (rd_le_ok' d (pos + 2) 2 v) by (try exact H2; lia). cbn [bind].
  replace (l =? 0) with false by lia. cbn [throw_if bind]. replace (pos + 2 + 2 + 2) with (pos + 6) in H4 by lia. rewrite (w_string_exact d (pos + 6) _ key H4 K); [reflexivity|]. pose proof (holds_range _ _ _ H4) as [_ R3]. rewrite zlen_wide_z in R3. lia.
Qed.
Lemma key_end pos k : pos mod 4 = 0 -> round4 (6 + pos + (zlen k + 1) * 2) = pos + key_bytes k.
Proof. intros H. unfold round4, key_bytes, round4. lia. Qed.
Lemma value_pos_ok pos k : 0 <= pos -> pos mod 4 = 0 -> pos + key_bytes k < 2 ^ 30 -> value_pos pos k = Ok (pos + key_bytes k).
Proof.
  intros P M H. pose proof (zlen_nonneg k) as N. pose proof (round4_spec (6 + 2 * (zlen k + 1)) ltac:(lia)) as [R _]. fold (key_bytes k) in R. unfold value_pos. cbv zeta.
  assert (W : u32 (u32 (u32 (zlen k) + 1) * 2) = (zlen k + 1) * 2) by (unfold u32; rewrite (Z.mod_small (zlen k)) by lia; rewrite (Z.mod_small (zlen k + 1)) by lia; apply Z.mod_small; lia). rewrite W.
  assert (E : align_up (u32 (6 + pos + (zlen k + 1) * 2)) 4 = pos + key_bytes k) by (unfold u32; rewrite Z.mod_small by lia; rewrite align4 by lia; apply key_end; exact M). rewrite E.
  match goal with |- context [throw_if ?c _] => replace c with false by lia end. reflexivity.
Qed.
Lemma first_child_ok pos v k : 0 <= pos -> pos mod 4 = 0 -> 0 <= v < 65536 -> pos + key_bytes k < 2 ^ 30 -> first_child_pos pos v k = Ok (pos + key_bytes k + round4 v).
Proof.
  intros P M V H. pose proof (zlen_nonneg k) as N. pose proof (round4_spec (6 + 2 * (zlen k + 1)) ltac:(lia)) as [R _]. fold (key_bytes k) in R. pose proof (round4_spec v ltac:(lia)) as [Rv _]. unfold first_child_pos. cbv zeta.
  assert (W : u32 (u32 (u32 (zlen k) + 1) * 2) = (zlen k + 1) * 2) by (unfold u32; rewrite (Z.mod_small (zlen k)) by lia; rewrite (Z.mod_small (zlen k + 1)) by lia; apply Z.mod_small; lia). rewrite W.
  assert (E : align_up (u32 (6 + pos + (zlen k + 1) * 2)) 4 = pos + key_bytes k) by (unfold u32; rewrite Z.mod_small by lia; rewrite align4 by lia; apply key_end; exact M). rewrite E. rewrite align4 by lia.
  unfold u32. rewrite Z.mod_small by lia. match goal with |- context [throw_if ?c _] => replace c with false by lia end. reflexivity.
Qed.
Lemma strip_null v : value_ok v -> strip_nullbytes (v ++ [0]) = v.
Proof.
  intros [_ L]. unfold strip_nullbytes. rewrite rev_app_distr. cbn [rev app drop_leading0 Z.eqb]. destruct v as [|x v] using rev_ind; [reflexivity|clear IHv].
  rewrite last_last in L. rewrite rev_app_distr. cbn [rev app drop_leading0]. replace (x =? 0) with false by lia. cbn [rev]. rewrite rev_involutive. reflexivity.
Qed.
Lemma align16_ok l : 0 <= l -> round4 l < 65536 -> align_up16 l 4 = round4 l.
Proof. intros H R. pose proof (round4_spec l H) as [S _]. assert (E : align_up16 l 4 = u16 (ceil_mult l 4)) by exact (align_up16_pow2 l 2 ltac:(lia) ltac:(lia)). rewrite E. unfold ceil_mult, u16. rewrite Z.mod_small; unfold round4 in *; lia. Qed.
Lemma wide_snoc v : wide (v ++ [0]) = wide_z v.
Proof. unfold wide, wide_z. rewrite map_app, concat_app. reflexivity. Qed.

(** ** Loops *)
Lemma nloop_step {S R} n (f : S -> res (S + R)) s s' : f s = Ok (inl s') -> nloop (Datatypes.S n) f s = nloop n f s'.
Proof. intros H. cbn [nloop]. rewrite H. reflexivity. Qed.
Lemma u32_diff a b : 0 <= a - b < 2 ^ 32 -> u32 (a - b) = a - b.
Proof. intros H. unfold u32. apply Z.mod_small. exact H. Qed.
Lemma str_blocks_cons e m : str_blocks (e :: m) = str_block e ++ str_blocks m. Proof. reflexivity. Qed.
Lemma table_blocks_cons e m : table_blocks (e :: m) = table_block e ++ table_blocks m. Proof. reflexivity. Qed.
Lemma string_entry_exact d base size pos acc k v : holds d pos (str_block (k, v)) -> key_ok k -> value_ok v -> zlen d < 65536 -> pos mod 4 = 0 -> 0 <= pos - base < size /\ 0 <= base ->
  Forall (fun x => str_before x k) (map fst acc) -> string_entry d (zlen d) base size (pos, acc) = Ok (inl (pos + string_bytes (k, v), acc ++ [(k, v)])).
Proof.
  intros H K V L M B S. pose proof (holds_range _ _ _ H) as [R1 R2]. rewrite zlen_str_block in R2. unfold str_block in H. cbn [fst snd] in H. apply holds_app in H as [H1 H2]. rewrite zlen_pad4, zlen_key_head in H2. apply holds_pad4 in H1, H2.
  pose proof (zlen_nonneg k) as Nk. pose proof (zlen_nonneg v) as Nv. unfold string_bytes in *. cbn [fst snd] in *.
  pose proof (round4_spec (6 + 2 * (zlen k + 1)) ltac:(lia)) as [Rk Rk4]. fold (key_bytes k) in Rk, Rk4. pose proof (round4_spec (2 * (zlen v + 1)) ltac:(lia)) as [Rv Rv4].
  unfold string_entry. rewrite u32_diff by lia. replace (pos - base <? size) with true by lia.
  rewrite (block_exact d pos _ _ _ _ H1 K) by lia. cbn [bind]. replace (zlen v + 1 =? 0) with false by lia. rewrite value_pos_ok by lia. cbn [bind]. replace (zlen d <? pos + key_bytes k + (zlen v + 1)) with false by lia. cbn [throw_if bind].
  assert (E : rd_units d (pos + key_bytes k) (zlen v + 1) = Ok (v ++ [0])).
  { replace (zlen v + 1) with (zlen (v ++ [0])) by (rewrite zlen_app; reflexivity). apply rd_units_ok; [apply Forall_app; split; [apply V|repeat constructor; unfold is_u16; lia]|]. rewrite wide_snoc. replace (pos + key_bytes k) with (pos + round4 (8 + 2 * zlen k)); [exact H2|]. unfold key_bytes. do 2 f_equal. lia. }
  rewrite E. cbn [bind]. rewrite strip_null by exact V. rewrite sinsert_last by exact S.
  assert (R4 : round4 (key_bytes k + 2 * (zlen v + 1)) = key_bytes k + round4 (2 * (zlen v + 1))) by (unfold round4 in *; lia). rewrite align16_ok by lia. rewrite R4. unfold u32. rewrite Z.mod_small by lia. reflexivity.
Qed.
Lemma strings_exact d base size m : forall pos acc, holds d pos (str_blocks m) -> strings_ok (acc ++ m) -> zlen d < 65536 -> pos mod 4 = 0 -> 0 <= pos - base -> base <= pos -> 0 <= pos <= zlen d -> size = pos - base + sum_of string_bytes m -> 0 <= base ->
  nloop (S (length m)) (string_entry d (zlen d) base size) (pos, acc) = Ok (inr (acc ++ m)).
Proof.
  induction m as [|[k v] m IH]; intros pos acc H [S F] L M B1 B2 R Hs Hb.
  - cbn [sum_of] in Hs. cbn [nloop length]. unfold string_entry. rewrite u32_diff by lia. replace (pos - base <? size) with false by lia. rewrite app_nil_r. reflexivity.
  - cbn [length sum_of] in *. rewrite str_blocks_cons in H. apply holds_app in H as [H1 H2]. rewrite zlen_str_block in H2. pose proof (string_bytes_pos (k, v)) as P. pose proof (string_bytes_mod (k, v)) as Pm. pose proof (sum_nonneg string_bytes m string_bytes_nonneg) as Ps.
    pose proof F as F0. apply Forall_app in F0 as [_ F0]. inversion F0 as [|? ? [Fk Fv] _]; subst. cbn [fst snd] in Fk, Fv. unfold keys_ascending in S. pose proof S as S0. rewrite map_app in S0. cbn [map fst] in S0. apply sorted_app_mid in S0.
    pose proof (holds_range _ _ _ H2) as [_ R2]. rewrite zlen_str_blocks in R2.
    rewrite (nloop_step _ _ _ (pos + string_bytes (k, v), acc ++ [(k, v)])); [|apply string_entry_exact; try assumption; lia].
    replace (acc ++ (k, v) :: m) with ((acc ++ [(k, v)]) ++ m) in * by (rewrite <- app_assoc; reflexivity). apply IH; [exact H2|split; assumption|exact L|lia|lia|lia|lia|lia|exact Hb].
Qed.
Lemma table_entry_exact d base size pos acc k m : holds d pos (table_block (k, m)) -> key_ok k -> strings_ok m -> zlen d < 65536 -> pos mod 4 = 0 -> 0 <= pos - base < size /\ 0 <= base ->
  Forall (fun x => str_before x k) (map fst acc) -> table_entry big_fuel d (zlen d) base size (pos, acc) = Ok (inl (pos + table_bytes (k, m), acc ++ [(k, m)])).
Proof.
  intros H K Sm L M B S. pose proof (holds_range _ _ _ H) as [R1 R2]. rewrite zlen_table_block in R2. pose proof (table_bytes_mod (k, m)) as T4. unfold table_block in H. cbn [fst snd] in H. apply holds_app in H as [H1 H2]. rewrite zlen_pad4, zlen_key_head in H2. apply holds_pad4 in H1.
  pose proof (zlen_nonneg k) as Nk. pose proof (sum_nonneg string_bytes m string_bytes_nonneg) as Nm. pose proof (table_bytes_pos (k, m)) as Tp. assert (Et : table_bytes (k, m) = key_bytes k + sum_of string_bytes m) by reflexivity.
  pose proof (round4_spec (6 + 2 * (zlen k + 1)) ltac:(lia)) as [Rk Rk4]. fold (key_bytes k) in Rk, Rk4. replace (round4 (8 + 2 * zlen k)) with (key_bytes k) in H2 by (unfold key_bytes; f_equal; lia).
  unfold table_entry. rewrite u32_diff by lia. replace (pos - base <? size) with true by lia. rewrite (block_exact d pos _ _ _ _ H1 K) by lia. cbn [bind]. rewrite first_child_ok by lia. cbn [bind]. change (round4 0) with 0. rewrite Z.add_0_r.
  pose proof (sum_length string_bytes m ltac:(intros x; pose proof (string_bytes_pos x); lia)) as Lm.
  assert (E : nloop (Datatypes.S (length m)) (string_entry d (zlen d) pos (table_bytes (k, m))) (pos + key_bytes k, []) = Ok (inr ([] ++ m))) by (apply strings_exact; [exact H2|exact Sm|lia..]).
  rewrite (mloop_exec _ big_fuel _ _ _ E) by (unfold big_fuel; lia). cbn [bind app]. rewrite sinsert_last by exact S.
  assert (R4 : round4 (table_bytes (k, m)) = table_bytes (k, m)) by (unfold round4; lia). rewrite align16_ok by lia. rewrite R4. unfold u32. rewrite Z.mod_small by lia. reflexivity.
Qed.
Lemma tables_exact d base size s : forall pos acc, holds d pos (table_blocks s) -> tables_ok (acc ++ s) -> zlen d < 65536 -> pos mod 4 = 0 -> 0 <= base <= pos -> pos <= zlen d -> size = pos - base + sum_of table_bytes s ->
  nloop (S (length s)) (table_entry big_fuel d (zlen d) base size) (pos, acc) = Ok (inr (acc ++ s)).
Proof.
  induction s as [|[k m] s IH]; intros pos acc H [S F] L M B R Hs.
  - cbn [sum_of] in Hs. cbn [nloop length]. unfold table_entry. rewrite u32_diff by lia. replace (pos - base <? size) with false by lia. rewrite app_nil_r. reflexivity.
  - cbn [length sum_of] in *. rewrite table_blocks_cons in H. apply holds_app in H as [H1 H2]. rewrite zlen_table_block in H2. pose proof (table_bytes_pos (k, m)) as P. pose proof (table_bytes_mod (k, m)) as Pm. pose proof (sum_nonneg table_bytes s table_bytes_nonneg) as Ps.
    pose proof F as F0. apply Forall_app in F0 as [_ F0]. inversion F0 as [|? ? [Fk Fv] _]; subst. cbn [fst snd] in Fk, Fv. unfold keys_ascending in S. pose proof S as S0. rewrite map_app in S0. cbn [map fst] in S0. apply sorted_app_mid in S0.
    pose proof (holds_range _ _ _ H2) as [_ R2]. rewrite zlen_table_blocks in R2.
    rewrite (nloop_step _ _ _ (pos + table_bytes (k, m), acc ++ [(k, m)])); [|apply table_entry_exact; try assumption; lia].
    replace (acc ++ (k, m) :: s) with ((acc ++ [(k, m)]) ++ s) in * by (rewrite <- app_assoc; reflexivity). apply IH; [exact H2|split; assumption|exact L|lia|lia|lia|lia].
Qed.
Lemma pairs_exact d vp v t : forall i acc, holds d (vp + i) (pairs_bytes t) -> translations_ok (acc ++ t) -> 0 <= i -> v = i + 4 * zlen t -> v < 65536 ->
  nloop (S (length t)) (pair_entry d vp v) (i, acc) = Ok (inr (acc ++ t)).
Proof.
  induction t as [|[a b] t IH]; intros i acc H [S F] I0 Hv L.
  - change (@zlen (Z * Z) []) with 0 in Hv. cbn [nloop length]. unfold pair_entry. replace (i <? v) with false by lia. rewrite app_nil_r. reflexivity.
  - rewrite zlen_cons in Hv. pose proof (zlen_nonneg t) as N. cbn [length] in *. change (pairs_bytes ((a, b) :: t)) with (pair_bytes (a, b) ++ pairs_bytes t) in H. apply holds_app in H as [H1 H2]. change (zlen (pair_bytes (a, b))) with 4 in H2.
    unfold pair_bytes in H1. cbn [fst snd] in H1. apply holds_app in H1 as [H1 H3]. change (zlen (le 2 a)) with 2 in H3. pose proof F as F0. apply Forall_app in F0 as [_ F0]. inversion F0 as [|? ? [Fa Fb] _]; subst. cbn [fst snd] in Fa, Fb. unfold is_u16 in Fa, Fb.
    pose proof S as S0. rewrite map_app in S0. cbn [map fst] in S0. apply sorted_app_mid in S0.
    rewrite (nloop_step _ _ _ (i + 4, acc ++ [(a, b)])).
    + replace (acc ++ (a, b) :: t) with ((acc ++ [(a, b)]) ++ t) in * by (rewrite <- app_assoc; reflexivity). apply IH; [replace (vp + (i + 4)) with (vp + i + 4) by lia; exact H2|split; assumption|lia|lia|lia].
    + unfold pair_entry. match goal with |- context [i <? ?v] => replace (i <? v) with true by lia end. rewrite (rd_le_ok' d (vp + i) 2 a) by (try exact H1; lia). cbn [bind]. replace (vp + 2 + i) with (vp + i + 2) by lia. rewrite (rd_le_ok' d (vp + i + 2) 2 b) by (try exact H3; lia). cbn [bind].
      rewrite multi_last by exact S0. unfold u32. rewrite Z.mod_small by lia. reflexivity.
Qed.

(** ** The children of the root block *)
Lemma strings_child d size pos e s tr : holds d pos (strings_block (e :: s)) -> tables_ok (e :: s) -> zlen d < 65536 -> pos mod 4 = 0 -> 0 <= pos < size ->
  child_entry big_fuel d (zlen d) size (pos, ([], tr)) = Ok (inl (pos + 36 + sum_of table_bytes (e :: s), (e :: s, tr))).
Proof.
  set (l := e :: s). intros H T L M B. pose proof (holds_range _ _ _ H) as [R1 R2]. rewrite zlen_strings_block in R2. unfold l in R2 at 1. cbn [strings_block] in H. change (strings_block l) with (key_head (36 + sum_of table_bytes l) 0 1 string_file_info ++ table_blocks l) in H. clearbody l.
  apply holds_app in H as [H1 H2]. change (zlen (key_head (36 + sum_of table_bytes l) 0 1 string_file_info)) with 36 in H2. pose proof (sum_nonneg table_bytes l table_bytes_nonneg) as N. pose proof (sum_mod table_bytes l table_bytes_mod) as N4.
  assert (K : key_ok string_file_info) by (split; [repeat constructor; unfold is_u16; lia|cbn; lia]).
  unfold child_entry. replace (pos <? size) with true by lia. assert (Ss : is_sum_safe pos 8 = true) by (unfold is_sum_safe, u32, max_dword; lia). rewrite Ss. cbn [negb throw_if bind]. rewrite (block_exact d pos _ _ _ _ H1 K) by lia. cbn [bind].
  change (str_eqb string_file_info string_file_info) with true. cbv iota. rewrite first_child_ok; [|lia|lia|lia|change (key_bytes string_file_info) with 36; lia]. cbn [bind]. change (key_bytes string_file_info) with 36. change (round4 0) with 0. rewrite Z.add_0_r.
  pose proof (sum_length table_bytes l ltac:(intros x; pose proof (table_bytes_pos x); lia)) as Lm.
  assert (E : nloop (S (length l)) (table_entry big_fuel d (zlen d) pos (36 + sum_of table_bytes l)) (pos + 36, []) = Ok (inr ([] ++ l))) by (apply tables_exact; [exact H2|exact T|lia..]).
  rewrite (mloop_exec _ big_fuel _ _ _ E) by (unfold big_fuel; lia). cbn [bind app]. assert (R4 : round4 (36 + sum_of table_bytes l) = 36 + sum_of table_bytes l) by (unfold round4; lia). rewrite align16_ok by lia. rewrite R4. unfold u32. rewrite Z.mod_small by lia. do 3 f_equal. lia.
Qed.
Lemma var_block_exact d base size pos t : holds d pos (key_head (32 + 4 * zlen t) (4 * zlen t) 0 translation_key ++ [0; 0] ++ pairs_bytes t) -> translations_ok t -> t <> [] -> zlen d < 65536 -> pos mod 4 = 0 -> 0 <= pos - base < size /\ 0 <= base ->
  var_entry big_fuel d (zlen d) base size (pos, []) = Ok (inl (pos + 32 + 4 * zlen t, t)).
Proof.
  intros H T Ne L M B. apply holds_app in H as [H1 H2]. change (zlen (key_head (32 + 4 * zlen t) (4 * zlen t) 0 translation_key)) with 30 in H2. apply holds_app in H2 as [_ H2]. change (zlen [0; 0]) with 2 in H2. pose proof (zlen_nonneg t) as N.
  pose proof (holds_range _ _ _ H2) as [_ R2]. rewrite zlen_pairs in R2. pose proof (holds_range _ _ _ H1) as [R1 _]. assert (0 < zlen t) as N1 by (destruct t; [congruence|rewrite zlen_cons; pose proof (zlen_nonneg t); lia]).
  assert (K : key_ok translation_key) by (split; [repeat constructor; unfold is_u16; lia|cbn; lia]).
  unfold var_entry. rewrite u32_diff by lia. replace (pos - base <? size) with true by lia. rewrite (block_exact d pos _ _ _ _ H1 K) by lia. cbn [bind]. change (str_eqb translation_key translation_key) with true. replace (4 * zlen t =? 0) with false by lia. cbn [negb andb].
  rewrite value_pos_ok; [|lia|lia|change (key_bytes translation_key) with 32; lia]. change (key_bytes translation_key) with 32. cbn [bind]. replace (zlen d <? pos + 32 + 4 * zlen t) with false by lia. cbn [throw_if bind].
  assert (E : nloop (S (length t)) (pair_entry d (pos + 32) (4 * zlen t)) (0, []) = Ok (inr ([] ++ t))) by (apply pairs_exact; [replace (pos + 32 + 0) with (pos + 30 + 2) by lia; exact H2|exact T|lia..]).
  rewrite (mloop_exec _ big_fuel _ _ _ E) by (unfold big_fuel, zlen in *; lia). cbn [bind app]. assert (R4 : round4 (32 + 4 * zlen t) = 32 + 4 * zlen t) by (unfold round4; lia). rewrite align16_ok by lia. rewrite R4. unfold u32. rewrite Z.mod_small by lia. do 3 f_equal. lia.
Qed.
Lemma trans_child d size pos st e t : holds d pos (trans_block (e :: t)) -> translations_ok (e :: t) -> zlen d < 65536 -> pos mod 4 = 0 -> 0 <= pos < size ->
  child_entry big_fuel d (zlen d) size (pos, (st, [])) = Ok (inl (pos + 64 + 4 * zlen (e :: t), (st, e :: t))).
Proof.
  assert (Ne : e :: t <> []) by discriminate. set (l := e :: t) in *. intros H T L M B. pose proof (holds_range _ _ _ H) as [R1 R2]. rewrite zlen_trans_block in R2. unfold l in R2 at 1.
  change (trans_block l) with (key_head (64 + 4 * zlen l) 0 1 var_file_info ++ [0; 0] ++ key_head (32 + 4 * zlen l) (4 * zlen l) 0 translation_key ++ [0; 0] ++ pairs_bytes l) in H. clearbody l.
  apply holds_app in H as [H1 H2]. change (zlen (key_head (64 + 4 * zlen l) 0 1 var_file_info)) with 30 in H2. apply holds_app in H2 as [_ H2]. change (zlen [0; 0]) with 2 in H2. pose proof (zlen_nonneg l) as N.
  assert (K : key_ok var_file_info) by (split; [repeat constructor; unfold is_u16; lia|cbn; lia]).
  unfold child_entry. replace (pos <? size) with true by lia. assert (Ss : is_sum_safe pos 8 = true) by (unfold is_sum_safe, u32, max_dword; lia). rewrite Ss. cbn [negb throw_if bind]. rewrite (block_exact d pos _ _ _ _ H1 K) by lia. cbn [bind].
  change (str_eqb var_file_info string_file_info) with false. change (str_eqb var_file_info var_file_info) with true. cbv iota. rewrite first_child_ok; [|lia|lia|lia|change (key_bytes var_file_info) with 32; lia]. cbn [bind]. change (key_bytes var_file_info) with 32. change (round4 0) with 0. rewrite Z.add_0_r.
  replace (pos + 30 + 2) with (pos + 32) in H2 by lia.
  assert (E : nloop 2 (var_entry big_fuel d (zlen d) pos (64 + 4 * zlen l)) (pos + 32, []) = Ok (inr l)).
  { rewrite (nloop_step _ _ _ (pos + 32 + 32 + 4 * zlen l, l)); [|apply var_block_exact; try assumption; lia]. cbn [nloop]. unfold var_entry at 1. rewrite u32_diff by lia. replace (pos + 32 + 32 + 4 * zlen l - pos <? 64 + 4 * zlen l) with false by lia. reflexivity. }
  rewrite (mloop_exec _ big_fuel _ _ _ E) by (unfold big_fuel; lia). cbn [bind]. assert (R4 : round4 (64 + 4 * zlen l) = 64 + 4 * zlen l) by (unfold round4; lia). rewrite align16_ok by lia. rewrite R4. unfold u32. rewrite Z.mod_small by lia. do 3 f_equal. lia.
Qed.
Lemma children_exact d size s t : zlen d < 65536 -> zlen d = size -> tables_ok s -> translations_ok t -> holds d 92 (strings_block s ++ trans_block t) -> size = block_bytes s t ->
  nloop 3 (child_entry big_fuel d (zlen d) size) (92, ([], [])) = Ok (inr (s, t)).
Proof.
  intros L Hd Ts Tt H Hs. apply holds_app in H as [H1 H2]. rewrite zlen_strings_block in H2. unfold block_bytes in Hs.
  assert (Done : forall n st, nloop (S n) (child_entry big_fuel d (zlen d) size) (size, st) = Ok (inr st)) by (intros n [a b]; cbn [nloop]; unfold child_entry; rewrite Z.ltb_irrefl; reflexivity).
  pose proof (sum_nonneg table_bytes s table_bytes_nonneg) as N. pose proof (sum_mod table_bytes s table_bytes_mod) as N4. pose proof (zlen_nonneg t) as Nt.
  destruct s as [|e s].
  - destruct t as [|f t]; [replace 92 with size by lia; apply Done|]. rewrite (nloop_step _ _ _ (size, ([], f :: t))); [apply Done|]. rewrite (trans_child d size 92 [] f t); [do 3 f_equal; lia|replace 92 with (92 + 0) by lia; exact H2|exact Tt|exact L|reflexivity|lia].
  - rewrite (nloop_step _ _ _ (92 + 36 + sum_of table_bytes (e :: s), (e :: s, []))); [|apply strings_child; try assumption; [reflexivity|destruct t; lia]].
    destruct t as [|f t]; [replace (92 + 36 + sum_of table_bytes (e :: s)) with size by lia; apply Done|]. rewrite (nloop_step _ _ _ (size, (e :: s, f :: t))); [apply Done|].
    rewrite (trans_child d size _ (e :: s) f t); [do 3 f_equal; lia|replace (92 + 36 + sum_of table_bytes (e :: s)) with (92 + (36 + sum_of table_bytes (e :: s))) by lia; exact H2|exact Tt|exact L|lia|lia].
Qed.
Lemma version_read i s t : info_ok i -> tables_ok s -> translations_ok t -> block_bytes s t < 65536 -> version_info (version_bytes i s t) = Ok (i, (s, t)).
Proof.
  intros Hi Ts Tt H. unfold version_info. pose proof (zlen_version i s t) as L. assert (Hd : holds (version_bytes i s t) 0 (version_bytes i s t)) by (apply stands_holds; exists [], []; rewrite app_nil_r; split; reflexivity).
  unfold version_bytes in Hd at 2. set (d := version_bytes i s t) in *. clearbody d. pose proof (sum_nonneg table_bytes s table_bytes_nonneg) as N. pose proof (zlen_nonneg t) as Nt. assert (L0 : 92 <= block_bytes s t) by (unfold block_bytes; destruct s, t; lia).
  apply holds_app in Hd as [H1 Hd]. change (zlen (key_head (block_bytes s t) 52 0 version_key)) with 38 in Hd. apply holds_app in Hd as [_ Hd]. change (zlen [0; 0]) with 2 in Hd. apply holds_app in Hd as [H2 Hd]. rewrite zlen_fixed in Hd. change (0 + 38 + 2 + 52) with 92 in Hd. change (0 + 38 + 2) with 40 in H2.
  assert (K : key_ok version_key) by (split; [repeat constructor; unfold is_u16; lia|cbn; lia]). unfold version_info_from. replace (zlen d <? 8) with false by lia. cbn [throw_if bind].
  unfold key_head, block_head in H1. rewrite <- !app_assoc in H1. apply holds_app in H1 as [Ha H1]. apply holds_app in H1 as [Hb H1]. apply holds_app in H1 as [Hc He]. rewrite !zlen_le in *. change (0 + Z.of_nat 2) with 2 in *. change (2 + Z.of_nat 2 + Z.of_nat 2) with 6 in He.
  rewrite (rd_le_ok' d 0 2 (block_bytes s t)) by (try exact Ha; lia). cbn [bind]. rewrite (rd_le_ok' d 2 2 52) by (try exact Hb; lia). cbn [bind]. rewrite (w_string_exact d 6 _ version_key He K) by (change (zlen version_key) with 15; lia). cbn [bind]. change (str_eqb version_key version_key) with true. cbn [negb throw_if bind].
  assert (Ef : fixed_info d (zlen d) 52 version_key = Ok i).
  { unfold fixed_info. change (52 =? 0) with false. cbv iota. change (value_pos 0 version_key) with (Ok 40). cbn [bind]. replace (zlen d <? 40 + 52) with false by lia. cbn [throw_if bind]. rewrite (rd_holds _ _ _ 52 H2) by (rewrite zlen_fixed; reflexivity). cbn [bind].
    unfold fixed_bytes. match goal with |- context [enc_fields ?w ?x] => rewrite <- (app_nil_r (enc_fields w x)) end. rewrite dec_enc_fields; [|destruct Hi as (I1 & I2 & I3 & I4 & I5 & I6 & I7 & I8 & I9 & I10); unfold is_u32 in *; unfold ffi_widths; cbn [repeat fits]; unfold ffi_signature, ffi_version, ffi_mask; repeat split; lia].
    change (negb (ffi_signature =? ffi_signature) || negb (ffi_version =? ffi_version)) with false. cbn [throw_if bind]. destruct i; reflexivity. }
  rewrite Ef. cbn [bind]. change (first_child_pos 0 52 version_key) with (Ok 92). cbn [bind].
  assert (E : nloop 3 (child_entry big_fuel d (zlen d) (block_bytes s t)) (92, ([], [])) = Ok (inr (s, t))) by (apply children_exact; try assumption; lia).
  rewrite (mloop_exec _ big_fuel _ _ _ E) by (unfold big_fuel; lia). reflexivity.
Qed.

Lemma version_round i s t : info_ok i -> tables_ok s -> translations_ok t -> block_bytes s t < 65536 ->
  exists d, version_data i s t = Ok d /\ zlen d = block_bytes s t /\ version_info d = Ok (i, (s, t)).
Proof. intros H1 H2 H3 H4. exists (version_bytes i s t). split; [apply version_data_ok; exact H4|]. split; [apply zlen_version|apply version_read; assumption]. Qed.
Lemma version_tree tree i s t language codepage timestamp : three_levels tree -> info_ok i -> tables_ok s -> translations_ok t -> block_bytes s t < 65536 ->
  exists tree', set_version_info tree i s t language codepage timestamp = Ok tree' /\ three_levels tree' /\ version_info_by_lang tree' language = Ok (i, (s, t)) /\
    (forall r n l, r <> rt_version \/ n <> Ided 1 \/ l <> language -> resource_data tree' l r n = resource_data tree l r n) /\
    exists tree'', remove_version_info tree' language = Ok (tree'', true) /\ version_info_by_lang tree'' language = Throw resource_directory_entry_not_found.
Proof.
  intros T H1 H2 H3 H4. destruct (version_round i s t H1 H2 H3 H4) as (d & E & _ & R). unfold set_version_info. rewrite E. cbn [bind].
  destruct (add_ok tree d rt_version (Ided 1) language codepage timestamp T) as (t' & -> & T' & K). exists t'. split; [reflexivity|]. split; [exact T'|].
  assert (Kd : resource_data t' language rt_version (Ided 1) = Ok (d, codepage)).
  { rewrite K. destruct (rname_dec rt_version rt_version); [|congruence]. destruct (rname_dec (Ided 1) (Ided 1)); [|congruence]. destruct (Z.eq_dec language language); [reflexivity|congruence]. }
  split; [unfold version_info_by_lang; rewrite Kd; cbn [bind]; exact R|]. split.
  - intros r n l Hn. rewrite K. destruct (rname_dec r rt_version) as [->|]; [|reflexivity]. destruct (rname_dec n (Ided 1)) as [->|]; [|reflexivity]. destruct (Z.eq_dec l language) as [->|]; [|reflexivity]. destruct Hn as [Hn|[Hn|Hn]]; congruence.
  - destruct (remove_language_ok t' rt_version (Ided 1) language T') as (t'' & b & E2 & T'' & Hb & K2). exists t''. unfold remove_version_info. assert (b = true) as -> by (apply Hb; eauto). split; [exact E2|]. unfold version_info_by_lang. rewrite K2.
    destruct (rname_dec rt_version rt_version); [|congruence]. destruct (rname_dec (Ided 1) (Ided 1)); [|congruence]. destruct (Z.eq_dec language language); [reflexivity|congruence].
Qed.

(** ** Refutations *)
(* a string of two units with two bytes left: four are read *)
Definition overread_data : list Z :=
  key_head 94 0 0 version_key ++ [0; 0] ++ key_head 54 0 1 string_file_info ++ key_head 18 0 1 [] ++ key_head 10 2 1 [] ++ [65; 0].
Lemma overread : version_info overread_data = Ub OobRead.
Proof. vm_compute. reflexivity. Qed.
(* one translation whose size is not a multiple of four *)
Definition odd_translation : list Z :=
  key_head 105 0 0 version_key ++ [0; 0] ++ key_head 65 0 1 var_file_info ++ [0; 0] ++ key_head 33 1 0 translation_key ++ [0; 0] ++ [7].
Lemma odd_overread : version_info odd_translation = Ub OobRead.
Proof. vm_compute. reflexivity. Qed.
(* a block of length 0xFFFD: the next one is at the same place *)
Definition endless_data : list Z := key_head 100 0 0 version_key ++ [0; 0] ++ key_head 0xFFFD 0 1 var_file_info ++ [0; 0] ++ key_head 0xFFFC 0 0 [].
Lemma mloop_stuck {S R} p (body : S -> res (S + R)) s : body s = Ok (inl s) \/ body s = Fuel -> mloop p body s = Fuel.
Proof.
  intros H. rewrite mloop_nloop. generalize (Pos.to_nat p). intros n. assert (E : nloop n body s = Ok (inl s) \/ nloop n body s = Fuel) by (induction n as [|n IH]; cbn [nloop]; [left; reflexivity|]; destruct H as [-> | ->]; [exact IH|right; reflexivity]).
  destruct E as [-> | ->]; reflexivity.
Qed.
Lemma nloop_two {S R} (body : S -> res (S + R)) s s' r n : body s = Ok (inl s') -> body s' = Ok (inr r) -> nloop n body s = Ok (inr r) \/ exists x, nloop n body s = Ok (inl x).
Proof. intros H1 H2. destruct n as [|[|n]]; cbn [nloop]; [right; eauto|rewrite H1; right; eauto|rewrite H1, H2; left; reflexivity]. Qed.
Lemma endless p : version_info_from p endless_data (zlen endless_data) [] [] = Fuel.
Proof.
  assert (V1 : var_entry p endless_data 80 40 0xFFFD (72, []) = Ok (inl (65604, []))) by reflexivity. assert (V2 : var_entry p endless_data 80 40 0xFFFD (65604, []) = Ok (inr [])) by reflexivity.
  assert (Ch : child_entry p endless_data 80 100 (40, ([], [])) = Ok (inl (40, ([], []))) \/ child_entry p endless_data 80 100 (40, ([], [])) = Fuel).
  { change (child_entry p endless_data 80 100 (40, ([], []))) with (' (s', t') <- (t' <- mloop p (var_entry p endless_data 80 40 0xFFFD) (72, []) ;; Ok ([], t')) ;; @Ok ((Z * (list (list Z * list (list Z * list Z)) * list (Z * Z))) + (list (list Z * list (list Z * list Z)) * list (Z * Z))) (inl (40, (s', t')))).
    rewrite mloop_nloop. destruct (nloop_two _ _ _ _ (Pos.to_nat p) V1 V2) as [-> | [x ->]]; [left|right]; reflexivity. }
  change (version_info_from p endless_data (zlen endless_data) [] []) with (r <- mloop p (child_entry p endless_data 80 100) (40, ([], [])) ;; Ok (no_file_info, r)). rewrite (mloop_stuck _ _ _ Ch). reflexivity.
Qed.
(* 65536 bytes or more: written without complaint, the second string is not read back *)
Definition two_strings (v : list Z) : list (list Z * list (list Z * list Z)) := [([48], [([65], v); ([67], v)])].
Definition one_left (v : list Z) : bool := match version_data no_file_info (two_strings v) [] with Ok d => match version_info d with Ok (_, ([(_, [_; _])], _)) => false | _ => true end | _ => false end.
Lemma one_left_lost v : one_left v = true -> exists d, version_data no_file_info (two_strings v) [] = Ok d /\ version_info d <> Ok (no_file_info, (two_strings v, [])).
Proof.
  unfold one_left. destruct (version_data no_file_info (two_strings v) []) as [d|e|u|]; [|discriminate..]. intros H. exists d. split; [reflexivity|]. intros E. rewrite E in H. discriminate H.
Qed.
(* 17000 characters *)
Definition large_value : list Z := repeat 66 (Z.to_nat 17000).
Lemma large_one_left : one_left large_value = true. Proof. vm_compute. reflexivity. Qed.
Lemma large_lost : exists d, version_data no_file_info (two_strings large_value) [] = Ok d /\ version_info d <> Ok (no_file_info, (two_strings large_value, [])).
Proof. exact (one_left_lost large_value large_one_left). Qed.
Lemma two_strings_ok v : value_ok v -> tables_ok (two_strings v).
Proof.
  intros V. assert (K : forall x, x < 65536 -> 0 < x -> key_ok [x]) by (intros x H1 H2; split; [constructor; [unfold is_u16; lia|constructor]|intros [H|[]]; lia]).
  split; [repeat constructor|]. constructor; [|constructor]. cbn [fst snd]. split; [apply K; lia|]. split.
  - repeat constructor. exists [], [65], [67]. repeat split; lia.
  - constructor; [split; [apply K; lia|exact V]|]. constructor; [|constructor]. split; [apply K; lia|exact V].
Qed.
Lemma last_repeat (x d : Z) n : last (repeat x (S n)) d = x.
Proof. induction n as [|n IH]; [reflexivity|]. change (repeat x (S (S n))) with (x :: x :: repeat x n). exact IH. Qed.
Lemma large_value_ok : value_ok large_value.
Proof.
  unfold value_ok, large_value, wide_ok. split; [apply Forall_forall; intros x Hx; apply repeat_spec in Hx; unfold is_u16; lia|].
  replace (Z.to_nat 17000) with (S (Z.to_nat 16999)) by lia. rewrite last_repeat. lia.
Qed.
Lemma bytes_check l : forallb (fun b => (0 <=? b) && (b <? 256)) l = true -> bytes l.
Proof. intros H. apply Forall_forall. intros x Hx. rewrite forallb_forall in H. specialize (H x Hx). lia. Qed.
Lemma endless_bytes : bytes endless_data. Proof. apply bytes_check. vm_compute. reflexivity. Qed.
Lemma overread_bytes : bytes overread_data. Proof. apply bytes_check. vm_compute. reflexivity. Qed.
Lemma odd_bytes : bytes odd_translation. Proof. apply bytes_check. vm_compute. reflexivity. Qed.
Lemma odd_other : odd_translation <> overread_data. Proof. vm_compute. discriminate. Qed.

Definition sample_info : file_info := mk_file_info 65538 7 65537 3 0 4 1 0 0 0.
Definition sample_strings : list (list Z * list (list Z * list Z)) := two_strings [66; 0; 68].
Definition sample_trans : list (Z * Z) := [(1049, 1200); (1049, 1252); (1051, 0)].
Lemma sample_version_ok : info_ok sample_info /\ tables_ok sample_strings /\ translations_ok sample_trans /\ block_bytes sample_strings sample_trans < 65536.
Proof.
  split; [unfold info_ok, is_u32; cbn; lia|]. split.
  { apply two_strings_ok. split; [repeat constructor; unfold is_u16; lia|cbn; lia]. }
  split; [|vm_compute; reflexivity]. split; [repeat constructor; cbn; lia|]. repeat constructor; unfold is_u16; cbn; lia.
Qed.
Definition words_small (d : list Z) : bool := forallb (fun k => match rd_le d (Z.of_nat k) 2 with Ok w => w <? 0xFFFD | _ => true end) (seq 0 (length d)).
Lemma words_small_ok d : words_small d = true -> no_huge_word d.
Proof.
  unfold words_small. rewrite forallb_forall. intros H off w S W. pose proof (proj1 (stands_holds _ _ _) S) as Hd.
  assert (R : 0 <= off /\ off + 2 <= zlen d) by (pose proof (holds_range _ _ _ Hd) as Q; rewrite zlen_le in Q; lia).
  specialize (H (Z.to_nat off)). rewrite Z2Nat.id in H by lia. rewrite (rd_le_ok' d off 2 w) in H by (try exact Hd; try exact S; unfold is_u16 in W; lia).
  assert (X : (w <? 0xFFFD) = true) by (apply H; apply in_seq; unfold zlen in R; lia). lia.
Qed.
Lemma sample_read : exists d, bytes d /\ no_huge_word d /\ version_info d = Ok (sample_info, (sample_strings, sample_trans)).
Proof.
  exists (version_bytes sample_info sample_strings sample_trans). destruct sample_version_ok as (H1 & H2 & H3 & H4).
  split; [apply bytes_check; vm_compute; reflexivity|]. split; [apply words_small_ok; vm_compute; reflexivity|apply version_read; assumption].
Qed.
