(** Proofs: version information round trips (C54). *)
From Verif Require Import ResDataFacts StoreFacts ManagerFacts ExportFacts.
From Verif Require Export VerFacts.

(** ** The bytes *)
Definition pad4 (bs : list Z) : list Z := bs ++ zeros (round4 (zlen bs) - zlen bs).
Definition key_head (l v t : Z) (k : list Z) : list Z := block_head l v t ++ wide_z k.
Definition str_block (e : list Z * list Z) : list Z :=
  pad4 (key_head (key_bytes (fst e) + 2 * (zlen (snd e) + 1)) (zlen (snd e) + 1) 1 (fst e)) ++ pad4 (wide_z (snd e)).
Definition str_blocks (m : list (list Z * list Z)) : list Z := concat (map str_block m).
Definition table_block (e : list Z * list (list Z * list Z)) : list Z := pad4 (key_head (table_bytes e) 0 1 (fst e)) ++ str_blocks (snd e).
Definition table_blocks (s : list (list Z * list (list Z * list Z))) : list Z := concat (map table_block s).
Definition strings_block (s : list (list Z * list (list Z * list Z))) : list Z :=
  match s with [] => [] | _ => key_head (36 + sum_of table_bytes s) 0 1 string_file_info ++ table_blocks s end.
Definition pair_bytes (e : Z * Z) : list Z := le 2 (fst e) ++ le 2 (snd e).
Definition pairs_bytes (t : list (Z * Z)) : list Z := concat (map pair_bytes t).
Definition trans_block (t : list (Z * Z)) : list Z :=
  match t with [] => [] | _ => key_head (64 + 4 * zlen t) 0 1 var_file_info ++ [0; 0] ++ key_head (32 + 4 * zlen t) (4 * zlen t) 0 translation_key ++ [0; 0] ++ pairs_bytes t end.
Definition version_bytes (i : file_info) (s : list (list Z * list (list Z * list Z))) (t : list (Z * Z)) : list Z :=
  key_head (block_bytes s t) 52 0 version_key ++ [0; 0] ++ fixed_bytes i ++ strings_block s ++ trans_block t.

Lemma round4_spec n : 0 <= n -> n <= round4 n < n + 4 /\ round4 n mod 4 = 0.
Proof. unfold round4. lia. Qed.
Lemma zlen_zeros' n : 0 <= n -> zlen (zeros n) = n.
Proof. intros H. unfold zeros, zlen. rewrite repeat_length. lia. Qed.
Lemma zlen_pad4 bs : zlen (pad4 bs) = round4 (zlen bs).
Proof. pose proof (zlen_nonneg bs) as H. pose proof (round4_spec _ H) as [H1 _]. unfold pad4. rewrite zlen_app, zlen_zeros' by lia. lia. Qed.
Lemma zlen_head l v t : zlen (block_head l v t) = 6.
Proof. reflexivity. Qed.
Lemma zlen_key_head l v t k : zlen (key_head l v t k) = 8 + 2 * zlen k.
Proof. unfold key_head. rewrite zlen_app, zlen_wide_z, zlen_head. lia. Qed.
Lemma zlen_str_block e : zlen (str_block e) = string_bytes e.
Proof. unfold str_block, string_bytes, key_bytes. rewrite zlen_app, !zlen_pad4, zlen_key_head, zlen_wide_z. f_equal; f_equal; lia. Qed.
Lemma zlen_concat {A} (f : A -> list Z) (g : A -> Z) l : (forall x, zlen (f x) = g x) -> zlen (concat (map f l)) = sum_of g l.
Proof. intros H. induction l as [|x l IH]; [reflexivity|]. cbn [map concat sum_of]. rewrite zlen_app, IH, H. reflexivity. Qed.
Lemma zlen_str_blocks m : zlen (str_blocks m) = sum_of string_bytes m.
Proof. apply zlen_concat, zlen_str_block. Qed.
Lemma zlen_table_block e : zlen (table_block e) = table_bytes e.
Proof. unfold table_block, table_bytes. rewrite zlen_app, zlen_pad4, zlen_key_head, zlen_str_blocks. unfold key_bytes. f_equal. f_equal. lia. Qed.
Lemma zlen_table_blocks s : zlen (table_blocks s) = sum_of table_bytes s.
Proof. apply zlen_concat, zlen_table_block. Qed.
Lemma zlen_strings_block s : zlen (strings_block s) = match s with [] => 0 | _ => 36 + sum_of table_bytes s end.
Proof. destruct s; [reflexivity|]. unfold strings_block. rewrite zlen_app, zlen_table_blocks. reflexivity. Qed.
Lemma zlen_pairs t : zlen (pairs_bytes t) = 4 * zlen t.
Proof. unfold pairs_bytes. induction t as [|x t IH]; [reflexivity|]. cbn [map concat]. rewrite zlen_app, zlen_cons, IH. change (zlen (pair_bytes x)) with 4. lia. Qed.
Lemma zlen_trans_block t : zlen (trans_block t) = match t with [] => 0 | _ => 64 + 4 * zlen t end.
Proof. destruct t as [|x t]; [reflexivity|]. unfold trans_block. rewrite !zlen_app, zlen_pairs, !zlen_key_head. change (zlen var_file_info) with 11. change (zlen translation_key) with 11. change (zlen [0; 0]) with 2. lia. Qed.
Lemma zlen_fixed i : zlen (fixed_bytes i) = 52.
Proof. reflexivity. Qed.
Lemma zlen_version i s t : zlen (version_bytes i s t) = block_bytes s t.
Proof. unfold version_bytes, block_bytes. rewrite !zlen_app, zlen_strings_block, zlen_trans_block, zlen_key_head, zlen_fixed. change (zlen version_key) with 15. change (zlen [0; 0]) with 2. lia. Qed.
Lemma string_bytes_pos e : 12 <= string_bytes e.
Proof. unfold string_bytes, key_bytes, round4. pose proof (zlen_nonneg (fst e)). pose proof (zlen_nonneg (snd e)). lia. Qed.
Lemma sum_nonneg {A} (g : A -> Z) l : (forall x, 0 <= g x) -> 0 <= sum_of g l.
Proof. intros H. induction l as [|x l IH]; cbn [sum_of]; [lia|]. specialize (H x). lia. Qed.
Lemma sum_length {A} (g : A -> Z) l : (forall x, 1 <= g x) -> Z.of_nat (length l) <= sum_of g l.
Proof. intros H. induction l as [|x l IH]; cbn [sum_of length]; [lia|]. specialize (H x). lia. Qed.
Lemma sum_mod {A} (g : A -> Z) l : (forall x, g x mod 4 = 0) -> sum_of g l mod 4 = 0.
Proof. intros H. induction l as [|x l IH]; cbn [sum_of]; [reflexivity|]. specialize (H x). lia. Qed.
Lemma string_bytes_mod e : string_bytes e mod 4 = 0.
Proof. unfold string_bytes, key_bytes, round4. lia. Qed.
Lemma table_bytes_pos e : 8 <= table_bytes e.
Proof. unfold table_bytes, key_bytes, round4. pose proof (zlen_nonneg (fst e)). pose proof (sum_nonneg string_bytes (snd e) ltac:(intros x; pose proof (string_bytes_pos x); lia)). lia. Qed.
Lemma table_bytes_mod e : table_bytes e mod 4 = 0.
Proof. unfold table_bytes, key_bytes, round4. pose proof (sum_mod string_bytes (snd e) string_bytes_mod). lia. Qed.

(** ** Sizes *)
Lemma align4 n : 0 <= n < 2 ^ 31 -> align_up n 4 = round4 n.
Proof.
  intros H. assert (P : pow2 4) by (exists 2; lia). rewrite align_up_small; [unfold ceil_mult, round4; lia|exact P|lia|lia|]. unfold ceil_mult. lia.
Qed.
Lemma fold_sum {A} (f g : A -> Z) l : (forall x, 0 <= g x) -> (forall x, g x < 2 ^ 31 -> f x = g x) -> forall a, 0 <= a -> a + sum_of g l < 2 ^ 31 -> fold_left (fun n x => u32 (n + f x)) l a = a + sum_of g l.
Proof.
  intros P E. induction l as [|x l IH]; intros a A0 H; cbn [fold_left sum_of] in *; [lia|]. pose proof (P x) as Px. pose proof (sum_nonneg g l P) as Pl. rewrite E by lia. unfold u32. rewrite Z.mod_small by lia. rewrite IH by lia. lia.
Qed.
Lemma key_size_ok k : key_bytes k < 2 ^ 31 -> key_size k = key_bytes k.
Proof. unfold key_size, key_bytes. intros H. pose proof (zlen_nonneg k) as N. pose proof (round4_spec (6 + 2 * (zlen k + 1)) ltac:(lia)) as [R _]. unfold u32. rewrite Z.mod_small by lia. rewrite align4 by lia. f_equal. lia. Qed.
Lemma string_size_ok e : string_bytes e < 2 ^ 31 -> string_size e = string_bytes e.
Proof.
  unfold string_size, string_bytes, value_size. intros H. pose proof (zlen_nonneg (fst e)) as N1. pose proof (zlen_nonneg (snd e)) as N2. pose proof (round4_spec (2 * (zlen (snd e) + 1)) ltac:(lia)) as [R _].
  assert (0 <= key_bytes (fst e)) as K by (unfold key_bytes, round4; lia). rewrite key_size_ok by lia. rewrite (Z.mul_comm (zlen (snd e) + 1)). unfold u32 at 2. rewrite (Z.mod_small (2 * _)) by lia. rewrite align4 by lia. unfold u32. rewrite Z.mod_small; lia.
Qed.
Lemma string_bytes_nonneg e : 0 <= string_bytes e. Proof. pose proof (string_bytes_pos e). lia. Qed.
Lemma table_bytes_nonneg e : 0 <= table_bytes e. Proof. pose proof (table_bytes_pos e). lia. Qed.
Lemma table_size_ok e : table_bytes e < 2 ^ 31 -> table_size e = table_bytes e.
Proof.
  unfold table_size, table_bytes. intros H. pose proof (zlen_nonneg (fst e)) as N1. pose proof (sum_nonneg string_bytes (snd e) string_bytes_nonneg) as N2. assert (0 <= key_bytes (fst e)) as K by (unfold key_bytes, round4; lia).
  rewrite key_size_ok by lia. apply (fold_sum string_size string_bytes); [exact string_bytes_nonneg|exact string_size_ok|lia|lia].
Qed.
Lemma version_size_ok s t : block_bytes s t < 2 ^ 31 -> version_size s t = block_bytes s t.
Proof.
  intros H. unfold version_size. pose proof (zlen_nonneg t) as N. pose proof (sum_nonneg table_bytes s table_bytes_nonneg) as Ns.
  assert (Hs : match s with [] => 92 | _ => fold_left (fun n e => u32 (n + table_size e)) s 128 end = 92 + match s with [] => 0 | _ => 36 + sum_of table_bytes s end).
  { destruct s as [|e s]; [reflexivity|]. rewrite (fold_sum table_size table_bytes); [lia|exact table_bytes_nonneg|exact table_size_ok|lia|]. unfold block_bytes in H. destruct t; lia. }
  cbv zeta. rewrite Hs. unfold block_bytes in *. destruct t as [|x t]; [lia|]. unfold u32. rewrite (Z.mod_small (zlen _ * 4)); [|destruct s; lia]. rewrite Z.mod_small; destruct s; lia.
Qed.

(** ** Writing *)
Definition at_ (total : Z) (pre : list Z) : list Z * Z := (pre ++ zeros (total - zlen pre), zlen pre).
Lemma zeros_split n a : 0 <= a <= n -> zeros n = zeros a ++ zeros (n - a).
Proof. intros H. unfold zeros. rewrite <- repeat_app. f_equal. lia. Qed.
Lemma splice_mid (pre a b rest : list Z) : zlen a = zlen b -> splice (pre ++ a ++ rest) (zlen pre) b = pre ++ b ++ rest.
Proof.
  intros H. unfold splice. f_equal.
  - unfold ztake, zlen. rewrite Nat2Z.id. rewrite firstn_app, Nat.sub_diag, firstn_all. cbn. apply app_nil_r.
  - f_equal. unfold zdrop. rewrite <- H, <- zlen_app, app_assoc. unfold zlen. rewrite Nat2Z.id. rewrite skipn_app, Nat.sub_diag, skipn_all. reflexivity.
Qed.
Lemma wr_mid (pre a b rest : list Z) : zlen a = zlen b -> wr (pre ++ a ++ rest) (zlen pre) b = Ok (pre ++ b ++ rest).
Proof. intros H. rewrite wr_ok; [rewrite splice_mid by exact H; reflexivity|apply zlen_nonneg|]. rewrite !zlen_app. pose proof (zlen_nonneg rest). lia. Qed.
Lemma put_ok total pre bs : zlen pre + zlen bs <= total -> total < 2 ^ 32 -> put (at_ total pre) bs = Ok (at_ total (pre ++ bs)).
Proof.
  intros H T. pose proof (zlen_nonneg pre) as N1. pose proof (zlen_nonneg bs) as N2. unfold put, at_. cbn [fst snd]. rewrite (zeros_split (total - zlen pre) (zlen bs)) by lia.
  rewrite wr_mid by (apply zlen_zeros'; lia). cbn [bind]. rewrite zlen_app. unfold u32. rewrite Z.mod_small by lia. rewrite <- app_assoc. do 5 f_equal. lia.
Qed.
Lemma patch_ok total pre a b bs : zlen a = zlen b -> wr (fst (at_ total (pre ++ a ++ bs))) (zlen pre) b = Ok (fst (at_ total (pre ++ b ++ bs))).
Proof.
  intros H. unfold at_. cbn [fst]. assert (zlen (pre ++ a ++ bs) = zlen (pre ++ b ++ bs)) as -> by (rewrite !zlen_app, H; reflexivity). rewrite <- !app_assoc. apply wr_mid. exact H.
Qed.
Lemma at_pair total x y n : n = zlen y -> x = y -> Ok (fst (at_ total x), n) = Ok (at_ total y).
Proof. intros -> ->. reflexivity. Qed.
Lemma pad_put total pre bs (c : bool) : zlen bs mod 2 = 0 -> c = (zlen bs mod 4 =? 0) -> zlen pre + round4 (zlen bs) <= total -> total < 2 ^ 32 ->
  (if c then Ok (at_ total (pre ++ bs)) else put (at_ total (pre ++ bs)) [0; 0]) = Ok (at_ total (pre ++ pad4 bs)).
Proof.
  intros E -> H T. unfold pad4. pose proof (zlen_nonneg bs) as N. destruct (zlen bs mod 4 =? 0) eqn:C.
  - replace (round4 (zlen bs) - zlen bs) with 0 by (unfold round4; lia). change (zeros 0) with (@nil Z). rewrite app_nil_r. reflexivity.
  - assert (R : round4 (zlen bs) = zlen bs + 2) by (unfold round4; lia). rewrite R. replace (zlen bs + 2 - zlen bs) with 2 by lia. change (zeros 2) with [0; 0]. rewrite put_ok; [rewrite app_assoc; reflexivity| |exact T]. rewrite zlen_app. change (zlen [0; 0]) with 2. lia.
Qed.
Lemma align64_4 n : 0 <= n < 2 ^ 31 -> align_up64 n 4 = round4 n.
Proof.
  intros H. assert (P : pow2 4) by (exists 2; lia). rewrite align_up64_pow2 by (try exact P; lia). unfold ceil_mult, round4, u64. rewrite Z.mod_small; lia.
Qed.
Lemma write_string_ok total pre e : zlen pre + string_bytes e <= total -> total < 65536 -> write_string (at_ total pre) e = Ok (at_ total (pre ++ str_block e)).
Proof.
  destruct e as [k v]. intros H T. unfold string_bytes, key_bytes in H. cbn [fst snd] in H. pose proof (zlen_nonneg k) as Nk. pose proof (zlen_nonneg v) as Nv. pose proof (zlen_nonneg pre) as Np.
  pose proof (round4_spec (6 + 2 * (zlen k + 1)) ltac:(lia)) as [Rk _]. pose proof (round4_spec (2 * (zlen v + 1)) ltac:(lia)) as [Rv _].
  unfold write_string, str_block. cbn [fst snd]. cbv zeta. unfold u16 at 2 3 4 5. rewrite (Z.mod_small (zlen v + 1)) by lia. unfold u32 at 1 2. rewrite (Z.mod_small ((zlen k + 1) * 2)) by lia. rewrite align64_4 by lia.
  replace (6 + (zlen k + 1) * 2) with (6 + 2 * (zlen k + 1)) by lia. fold (key_bytes k). replace ((zlen v + 1) * 2) with (2 * (zlen v + 1)) by lia.
  assert (Hl : u16 (key_bytes k + 2 * (zlen v + 1)) = key_bytes k + 2 * (zlen v + 1)) by (unfold u16, key_bytes; rewrite Z.mod_small; lia). rewrite Hl.
  rewrite put_ok by (rewrite ?zlen_head; lia). cbn [bind]. rewrite put_ok by (rewrite ?zlen_app, ?zlen_head, ?zlen_wide_z; lia). cbn [bind]. rewrite <- app_assoc. fold (key_head (key_bytes k + 2 * (zlen v + 1)) (zlen v + 1) 1 k). set (kh := key_head _ _ _ k).
  assert (Lk : zlen kh = 6 + 2 * (zlen k + 1)) by (unfold kh; rewrite zlen_key_head; lia). clearbody kh.
  rewrite pad_put; [|lia|rewrite Lk; reflexivity|rewrite Lk; lia|lia]. cbn [bind].
  assert (Lw : zlen (wide_z v) = 2 * (zlen v + 1)) by (rewrite zlen_wide_z; lia). rewrite <- Lw. rewrite ztake_full by lia.
  rewrite put_ok by (rewrite ?zlen_app, ?zlen_pad4, ?Lk; lia). cbn [bind]. rewrite pad_put; [rewrite <- app_assoc; reflexivity|lia|reflexivity|rewrite zlen_app, zlen_pad4, Lk, Lw; lia|lia].
Qed.
Lemma fold_put {A} (w : list Z * Z -> A -> res (list Z * Z)) (b : A -> list Z) (g : A -> Z) total l : (forall x, zlen (b x) = g x) -> (forall x, 0 <= g x) ->
  (forall pre x, zlen pre + g x <= total -> w (at_ total pre) x = Ok (at_ total (pre ++ b x))) -> forall pre, zlen pre + sum_of g l <= total -> mfold w l (at_ total pre) = Ok (at_ total (pre ++ concat (map b l))).
Proof.
  intros E P W. induction l as [|x l IH]; intros pre H; cbn [mfold map concat sum_of] in *; [rewrite app_nil_r; reflexivity|]. pose proof (sum_nonneg g l P) as Pl. rewrite W by lia. cbn [bind]. rewrite IH by (rewrite zlen_app, E; lia). rewrite <- app_assoc. reflexivity.
Qed.
Lemma write_table_ok total pre e : zlen pre + table_bytes e <= total -> total < 65536 -> write_table (at_ total pre) e = Ok (at_ total (pre ++ table_block e)).
Proof.
  destruct e as [k m]. intros H T. pose proof H as H0. unfold table_bytes, key_bytes in H. cbn [fst snd] in H. pose proof (zlen_nonneg k) as Nk. pose proof (zlen_nonneg pre) as Np. pose proof (sum_nonneg string_bytes m string_bytes_nonneg) as Nm.
  pose proof (round4_spec (6 + 2 * (zlen k + 1)) ltac:(lia)) as [Rk _].
  unfold write_table, table_block. cbn [fst snd]. cbv zeta. unfold u32 at 1. rewrite (Z.mod_small ((zlen k + 1) * 2)) by lia. replace (6 + (zlen k + 1) * 2) with (6 + 2 * (zlen k + 1)) by lia.
  rewrite put_ok by (rewrite ?zlen_head; lia). cbn [bind]. rewrite put_ok by (rewrite ?zlen_app, ?zlen_head, ?zlen_wide_z; lia). cbn [bind].
  assert (E1 : (pre ++ block_head 0 0 1) ++ wide_z k = pre ++ key_head 0 0 1 k) by (unfold key_head; rewrite <- app_assoc; reflexivity). rewrite E1.
  assert (Lk : zlen (key_head 0 0 1 k) = 6 + 2 * (zlen k + 1)) by (rewrite zlen_key_head; lia). rewrite pad_put; [|rewrite Lk; lia|rewrite Lk; reflexivity|rewrite Lk; lia|lia]. cbn [bind].
  rewrite (fold_put write_string str_block string_bytes total m zlen_str_block string_bytes_nonneg); [|intros; apply write_string_ok; assumption|rewrite zlen_app, zlen_pad4, Lk; lia]. cbn [bind]. fold (str_blocks m).
  cbn [snd at_]. rewrite !zlen_app, zlen_pad4, Lk, zlen_str_blocks, zlen_head.
  assert (Hl : u16 (u32 (zlen pre + round4 (6 + 2 * (zlen k + 1)) + sum_of string_bytes m - (zlen pre + 6)) + 6) = table_bytes (k, m)).
  { unfold table_bytes, key_bytes, u16, u32. cbn [fst snd]. rewrite (Z.mod_small _ (2 ^ 32)) by lia. rewrite Z.mod_small by lia. lia. }
  rewrite Hl. unfold pad4, key_head, block_head. rewrite !zlen_app. repeat rewrite <- app_assoc.
  rewrite (patch_ok total pre (le 2 0) (le 2 (table_bytes (k, m)))) by reflexivity. cbn [bind]. apply at_pair; [|repeat rewrite <- app_assoc; reflexivity].
  rewrite !zlen_app, zlen_str_blocks, !zlen_le. rewrite zlen_wide_z. change (Z.of_nat 2) with 2. replace (2 + (2 + 2) + (2 * zlen k + 2)) with (6 + 2 * (zlen k + 1)) by lia. rewrite zlen_zeros'; lia.
Qed.
Lemma write_strings_ok total pre e s : zlen pre + 36 + sum_of table_bytes (e :: s) <= total -> total < 65536 -> write_strings (at_ total pre) (e :: s) = Ok (at_ total (pre ++ strings_block (e :: s))).
Proof.
  intros H T. pose proof (zlen_nonneg pre) as Np. pose proof (sum_nonneg table_bytes (e :: s) table_bytes_nonneg) as Nm. unfold write_strings, strings_block.
  assert (Lw : zlen (wide_z string_file_info) = 30) by reflexivity.
  rewrite put_ok by (rewrite ?zlen_head; lia). cbn [bind]. rewrite put_ok by (rewrite ?zlen_app, ?zlen_head, ?Lw; lia). cbn [bind].
  rewrite (fold_put write_table table_block table_bytes total (e :: s) zlen_table_block table_bytes_nonneg); [|intros; apply write_table_ok; assumption|rewrite !zlen_app, zlen_head, Lw; lia]. cbn [bind]. fold (table_blocks (e :: s)).
  cbn [snd at_]. set (tb := table_blocks (e :: s)) in *. assert (Lt : zlen tb = sum_of table_bytes (e :: s)) by apply zlen_table_blocks. set (n := sum_of table_bytes (e :: s)) in *. clearbody tb n.
  assert (Hl : u16 (u32 (zlen (((pre ++ block_head 0 0 1) ++ wide_z string_file_info) ++ tb) - zlen (pre ++ block_head 0 0 1)) + 6) = 36 + n).
  { rewrite !zlen_app, zlen_head, Lw, Lt. unfold u16, u32. rewrite (Z.mod_small _ (2 ^ 32)) by lia. rewrite Z.mod_small by lia. lia. }
  rewrite Hl. unfold key_head, block_head. repeat rewrite <- app_assoc. rewrite (patch_ok total pre (le 2 0) (le 2 (36 + n))) by reflexivity. cbn [bind]. apply at_pair; [|repeat rewrite <- app_assoc; reflexivity].
  rewrite !zlen_app, !zlen_le. lia.
Qed.
Lemma write_pair_ok total pre e : zlen pre + 4 <= total -> total < 65536 -> write_pair (at_ total pre) e = Ok (at_ total (pre ++ pair_bytes e)).
Proof.
  intros H T. pose proof (zlen_nonneg pre) as Np. unfold write_pair, pair_bytes. rewrite put_ok by (rewrite ?zlen_le; lia). cbn [bind]. rewrite put_ok by (rewrite ?zlen_app, ?zlen_le; lia). rewrite <- app_assoc. reflexivity.
Qed.
Lemma sum_pairs (t : list (Z * Z)) : sum_of (fun _ => 4) t = 4 * zlen t.
Proof. induction t as [|x t IH]; [reflexivity|]. cbn [sum_of]. rewrite IH, zlen_cons. lia. Qed.
Lemma write_translations_ok total pre e t : zlen pre + 64 + 4 * zlen (e :: t) <= total -> total < 65536 -> write_translations (at_ total pre) (e :: t) = Ok (at_ total (pre ++ trans_block (e :: t))).
Proof.
  intros H T. pose proof (zlen_nonneg pre) as Np. pose proof (zlen_nonneg (e :: t)) as Nt. unfold write_translations, trans_block. set (l := e :: t) in *. clearbody l.
  set (k1 := wide_z var_file_info ++ [0; 0]). set (k2 := wide_z translation_key ++ [0; 0]). assert (L1 : zlen k1 = 26) by reflexivity. assert (L2 : zlen k2 = 26) by reflexivity.
  assert (E1 : forall a b c, key_head a b c var_file_info ++ [0; 0] = block_head a b c ++ k1) by (intros; unfold key_head, k1; rewrite <- app_assoc; reflexivity).
  assert (E2 : forall a b c, key_head a b c translation_key ++ [0; 0] = block_head a b c ++ k2) by (intros; unfold key_head, k2; rewrite <- app_assoc; reflexivity).
  rewrite (app_assoc (key_head _ _ _ var_file_info)), E1. rewrite (app_assoc (key_head _ _ _ translation_key)), E2. clearbody k1 k2. clear E1 E2.
  rewrite put_ok by (rewrite ?zlen_head; lia). cbn [bind]. rewrite put_ok by (rewrite ?zlen_app, ?zlen_head; lia). cbn [bind]. rewrite put_ok by (rewrite ?zlen_app, ?zlen_head; lia). cbn [bind]. rewrite put_ok by (rewrite ?zlen_app, ?zlen_head; lia). cbn [bind].
  cbn [snd at_]. set (p2 := (pre ++ block_head 0 0 1) ++ k1). assert (Lp2 : zlen p2 = zlen pre + 32) by (unfold p2; rewrite !zlen_app, zlen_head; lia).
  assert (Hv : u16 (4 * zlen l) = 4 * zlen l) by (unfold u16; rewrite Z.mod_small; lia). rewrite Hv.
  assert (Ea : (p2 ++ block_head 0 0 0) ++ k2 = (p2 ++ le 2 0) ++ le 2 0 ++ (le 2 0 ++ k2)) by (unfold block_head; repeat rewrite <- app_assoc; reflexivity). rewrite Ea.
  assert (Eb : zlen p2 + 2 = zlen (p2 ++ le 2 0)) by (rewrite zlen_app; reflexivity). rewrite Eb. rewrite (patch_ok total (p2 ++ le 2 0) (le 2 0) (le 2 (4 * zlen l))) by reflexivity. cbn [bind].
  assert (Ec : (fst (at_ total ((p2 ++ le 2 0) ++ le 2 (4 * zlen l) ++ le 2 0 ++ k2)), zlen ((p2 ++ le 2 0) ++ le 2 0 ++ le 2 0 ++ k2)) = at_ total ((p2 ++ le 2 0) ++ le 2 (4 * zlen l) ++ le 2 0 ++ k2)).
  { unfold at_. cbn [fst]. f_equal. rewrite !zlen_app, !zlen_le. lia. }
  rewrite Ec. rewrite (fold_put write_pair pair_bytes (fun _ => 4) total l ltac:(reflexivity) ltac:(intros; lia)); [|intros; apply write_pair_ok; assumption|rewrite sum_pairs, !zlen_app, !zlen_le, L2, Lp2; lia]. cbn [bind]. fold (pairs_bytes l).
  cbn [snd at_]. set (pb := pairs_bytes l). assert (Lb : zlen pb = 4 * zlen l) by apply zlen_pairs. clearbody pb. set (n := 4 * zlen l) in *.
  assert (H1 : u16 (u32 (zlen (((p2 ++ le 2 0) ++ le 2 n ++ le 2 0 ++ k2) ++ pb) - zlen (p2 ++ block_head 0 0 0)) + 6) = 32 + n).
  { rewrite !zlen_app, !zlen_le, zlen_head, Lb, L2. unfold u16, u32. rewrite (Z.mod_small _ (2 ^ 32)) by lia. rewrite Z.mod_small by lia. lia. }
  assert (H2 : u16 (u32 (zlen (((p2 ++ le 2 0) ++ le 2 n ++ le 2 0 ++ k2) ++ pb) - zlen (pre ++ block_head 0 0 1)) + 6) = 64 + n).
  { rewrite !zlen_app, !zlen_le, zlen_head, Lb, L2, Lp2. unfold u16, u32. rewrite (Z.mod_small _ (2 ^ 32)) by lia. rewrite Z.mod_small by lia. lia. }
  rewrite H1, H2. assert (Ed : ((p2 ++ le 2 0) ++ le 2 n ++ le 2 0 ++ k2) ++ pb = p2 ++ le 2 0 ++ (le 2 n ++ le 2 0 ++ k2 ++ pb)) by (repeat rewrite <- app_assoc; reflexivity). rewrite Ed.
  rewrite (patch_ok total p2 (le 2 0) (le 2 (32 + n))) by reflexivity. cbn [bind].
  assert (Ee : p2 ++ le 2 (32 + n) ++ le 2 n ++ le 2 0 ++ k2 ++ pb = pre ++ le 2 0 ++ (le 2 0 ++ le 2 1 ++ k1 ++ le 2 (32 + n) ++ le 2 n ++ le 2 0 ++ k2 ++ pb)) by (unfold p2, block_head; repeat rewrite <- app_assoc; reflexivity). rewrite Ee.
  rewrite (patch_ok total pre (le 2 0) (le 2 (64 + n))) by reflexivity. cbn [bind].
  assert (Ef : pre ++ le 2 (64 + n) ++ le 2 0 ++ le 2 1 ++ k1 ++ le 2 (32 + n) ++ le 2 n ++ le 2 0 ++ k2 ++ pb = pre ++ (block_head (64 + n) 0 1 ++ k1) ++ (block_head (32 + n) n 0 ++ k2) ++ pb) by (unfold block_head; repeat rewrite <- app_assoc; reflexivity).
  rewrite Ef. apply at_pair; [|reflexivity]. rewrite !zlen_app, !zlen_le, !zlen_head, Lp2, L1, L2. lia.
Qed.
Lemma version_data_ok i s t : block_bytes s t < 65536 -> version_data i s t = Ok (version_bytes i s t).
Proof.
  intros H. unfold version_data. cbv zeta. rewrite version_size_ok by lia. pose proof H as T. unfold block_bytes in H. set (total := block_bytes s t) in *. pose proof (sum_nonneg table_bytes s table_bytes_nonneg) as Ns. pose proof (zlen_nonneg t) as Nt.
  assert (Ht : 92 + match s with [] => 0 | _ => 36 + sum_of table_bytes s end + match t with [] => 0 | _ => 64 + 4 * zlen t end = total) by reflexivity. clearbody total.
  assert (L0 : 92 <= total) by (destruct s, t; lia). assert (Hu : u16 total = total) by (unfold u16; rewrite Z.mod_small; lia). rewrite Hu.
  assert (E0 : (zeros total, 0) = at_ total []) by (unfold at_; change (@zlen Z []) with 0; cbn [app]; rewrite Z.sub_0_r; reflexivity). rewrite E0.
  assert (Lw : zlen (wide_z version_key) = 32) by reflexivity. assert (L2 : zlen [0; 0] = 2) by reflexivity. assert (Ln : @zlen Z [] = 0) by reflexivity.
  rewrite put_ok by (rewrite ?zlen_head; lia). cbn [bind]. rewrite put_ok by (rewrite ?zlen_app, ?zlen_head; lia). cbn [bind]. rewrite put_ok by (rewrite ?zlen_app, ?zlen_head; lia). cbn [bind].
  rewrite put_ok by (rewrite ?zlen_app, ?zlen_head, ?zlen_fixed; lia). cbn [bind]. set (pre := ((([] ++ block_head total 52 0) ++ wide_z version_key) ++ [0; 0]) ++ fixed_bytes i).
  assert (Lp : zlen pre = 92) by (unfold pre; rewrite !zlen_app, zlen_head, zlen_fixed; lia).
  assert (Es : match s with [] => Ok (at_ total pre) | _ => write_strings (at_ total pre) s end = Ok (at_ total (pre ++ strings_block s))).
  { destruct s as [|e s]; [cbn [strings_block]; rewrite app_nil_r; reflexivity|]. apply write_strings_ok; [|exact T]. destruct t; lia. }
  rewrite Es. cbn [bind]. assert (Ls : zlen (pre ++ strings_block s) = 92 + match s with [] => 0 | _ => 36 + sum_of table_bytes s end) by (rewrite zlen_app, zlen_strings_block; lia).
  assert (Et : match t with [] => Ok (at_ total (pre ++ strings_block s)) | _ => write_translations (at_ total (pre ++ strings_block s)) t end = Ok (at_ total ((pre ++ strings_block s) ++ trans_block t))).
  { destruct t as [|e t]; [cbn [trans_block]; rewrite app_nil_r; reflexivity|]. apply write_translations_ok; [|exact T]. rewrite Ls. destruct s; lia. }
  rewrite Et. cbn [bind]. unfold at_. cbn [fst]. assert (Z0' : total - zlen ((pre ++ strings_block s) ++ trans_block t) = 0) by (rewrite zlen_app, Ls, zlen_trans_block; lia). rewrite Z0'. change (zeros 0) with (@nil Z). rewrite app_nil_r.
  unfold version_bytes, block_bytes. rewrite Ht. unfold pre, key_head. cbn [app]. repeat rewrite <- app_assoc. reflexivity.
Qed.
