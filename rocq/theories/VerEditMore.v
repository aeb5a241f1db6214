(** Facts about translation strings, edit histories and file_version_info. *)
From Verif Require Export VerEditFacts.
From Verif Require Import ExportFacts BaseFacts VerRead VerRound.

(** ** Hexadecimal numbers *)
Lemma hex_value_char c d : hex_value c = Some d <-> hex_char c d.
Proof.
  unfold hex_value, hex_char. split.
  - intros H. repeat match type of H with (if ?x then _ else _) = _ => destruct x eqn:? end; try discriminate; injection H as <-; lia.
  - intros H. repeat match goal with |- context [if ?x then _ else _] => destruct x eqn:? end; try (f_equal; lia); lia.
Qed.
Lemma writes_range s n : writes s n -> 0 <= n < 16 ^ zlen s.
Proof.
  induction 1 as [|s n c d W IH C]; [change (16 ^ zlen []) with 1; lia|]. unfold zlen in *. rewrite app_length. cbn [length]. replace (Z.of_nat (length s + 1)) with (Z.of_nat (length s) + 1) by lia. rewrite Z.pow_add_r by lia. unfold hex_char in C. lia.
Qed.
Lemma writes_hex s n : writes s n -> Forall (fun c => exists d, hex_char c d) s.
Proof. induction 1 as [|s n c d W IH C]; [constructor|]. apply Forall_app. split; [exact IH|]. constructor; [eauto|constructor]. Qed.
Lemma hex_number_writes s n : writes s n -> forall acc r, hex_number acc (s ++ r) = hex_number (acc * 16 ^ zlen s + n) r.
Proof.
  induction 1 as [|s n c d W IH C]; intros acc r; [cbn [app]; change (@zlen Z []) with 0; f_equal; lia|].
  rewrite <- app_assoc. rewrite IH. cbn [app hex_number]. rewrite (proj2 (hex_value_char c d) C). f_equal.
  unfold zlen. rewrite app_length. cbn [length]. replace (Z.of_nat (length s + 1)) with (Z.of_nat (length s) + 1) by lia. rewrite Z.pow_add_r by lia. lia.
Qed.
Lemma hex_input_writes s n : writes s n -> zlen s <= 8 -> hex_input s = n.
Proof.
  intros W L. pose proof (writes_range _ _ W) as R. pose proof (hex_number_writes _ _ W 0 []) as N. rewrite app_nil_r in N. cbn [hex_number] in N.
  assert (P : 16 ^ zlen s <= 16 ^ 8) by (apply Z.pow_le_mono_r; lia). change (16 ^ 8) with 4294967296 in P.
  pose proof (writes_hex _ _ W) as F. unfold hex_input.
  assert (E1 : skip_spaces s = s). { destruct s as [|c s]; [reflexivity|]. inversion F as [|? ? [d C] F']; subst. cbn [skip_spaces]. replace (is_space c) with false; [reflexivity|]. unfold is_space, hex_char in *. lia. }
  rewrite E1. assert (E2 : skip_sign s = s /\ match s with c :: _ => c =? 45 | [] => false end = false).
  { destruct s as [|c s]; [split; reflexivity|]. inversion F as [|? ? [d C] F']; subst. unfold hex_char in C. cbn [skip_sign]. replace ((c =? 45) || (c =? 43)) with false by lia. split; [reflexivity|lia]. }
  destruct E2 as [-> ->]. assert (E3 : skip_0x s = s).
  { destruct s as [|c [|x s]]; [reflexivity..|]. inversion F as [|? ? C F']; subst. inversion F' as [|? ? [d D] F'']; subst. unfold hex_char in D. cbn [skip_0x]. replace ((c =? 48) && ((x =? 120) || (x =? 88))) with false by lia. reflexivity. }
  rewrite E3, N. replace (0xFFFFFFFF <? 0 * 16 ^ zlen s + n) with false by lia. lia.
Qed.
Lemma from_string_writes s n : writes s n -> zlen s <= 8 -> translation_from_string s = (n / 65536, n mod 65536).
Proof.
  intros W L. unfold translation_from_string. rewrite (hex_input_writes _ _ W L). pose proof (writes_range _ _ W) as R.
  assert (P : 16 ^ zlen s <= 16 ^ 8) by (apply Z.pow_le_mono_r; lia). change (16 ^ 8) with 4294967296 in P.
  rewrite Z.shiftr_div_pow2 by lia. change 0xFFFF with (Z.ones 16). rewrite Z.land_ones by lia. change (2 ^ 16) with 65536. unfold u16. change (2 ^ 16) with 65536. f_equal; apply Z.mod_small; lia.
Qed.
Lemma hex_digit_char d : 0 <= d < 16 -> hex_char (hex_digit d) d.
Proof. intros H. unfold hex_char, hex_digit. destruct (d <? 10) eqn:?; lia. Qed.
Lemma hex4_writes s n v : writes s n -> is_u16 v -> writes (s ++ hex4 v) (n * 65536 + v).
Proof.
  intros W V. unfold is_u16 in V. unfold hex4. remember (v / 4096 mod 16) as a. remember (v / 256 mod 16) as b. remember (v / 16 mod 16) as c. remember (v mod 16) as d.
  assert (E : n * 65536 + v = 16 * (16 * (16 * (16 * n + a) + b) + c) + d) by lia. rewrite E.
  change [hex_digit a; hex_digit b; hex_digit c; hex_digit d] with ((([hex_digit a] ++ [hex_digit b]) ++ [hex_digit c]) ++ [hex_digit d]). rewrite !app_assoc.
  repeat (apply writes_snoc; [|apply hex_digit_char; lia]). exact W.
Qed.
Lemma string_writes l c : is_u16 l -> is_u16 c -> writes (translation_string l c) (l * 65536 + c).
Proof.
  intros Hl Hc. unfold translation_string. apply hex4_writes; [|exact Hc]. change (hex4 l) with ([] ++ hex4 l). replace l with (0 * 65536 + l) at 2 by lia. apply hex4_writes; [constructor|exact Hl].
Qed.
Lemma from_to_string l c : is_u16 l -> is_u16 c -> translation_from_string (translation_string l c) = (l, c).
Proof. intros Hl Hc. rewrite (from_string_writes _ _ (string_writes l c Hl Hc)) by (change (zlen (translation_string l c)) with 8; lia). unfold is_u16 in *. f_equal; lia. Qed.
Lemma from_string_u16 s : is_u16 (fst (translation_from_string s)) /\ is_u16 (snd (translation_from_string s)).
Proof. unfold translation_from_string, is_u16, u16. cbn [fst snd]. lia. Qed.
Lemma string_lower l c : lower_hex8 (translation_string l c).
Proof.
  split; [reflexivity|]. unfold translation_string, hex4. cbn [app]. repeat (apply Forall_cons; [unfold hex_digit; match goal with |- context [if ?x then _ else _] => destruct x eqn:? end; lia|]). apply Forall_nil.
Qed.
Lemma lower_digit c : 48 <= c <= 57 \/ 97 <= c <= 102 -> exists d, 0 <= d < 16 /\ hex_char c d /\ hex_digit d = c.
Proof.
  intros H. exists (if c <=? 57 then c - 48 else c - 87). unfold hex_char, hex_digit. destruct (c <=? 57) eqn:E.
  - replace (c - 48 <? 10) with true by lia. lia.
  - replace (c - 87 <? 10) with false by lia. lia.
Qed.
Lemma lower_back s : lower_hex8 s -> translation_string (fst (translation_from_string s)) (snd (translation_from_string s)) = s.
Proof.
  intros [L F]. destruct s as [|c1 [|c2 [|c3 [|c4 [|c5 [|c6 [|c7 [|c8 [|]]]]]]]]]; try discriminate.
  repeat match goal with H : Forall _ (_ :: _) |- _ => inversion H as [|? ? ? ?]; subst; clear H end.
  repeat match goal with H : 48 <= ?c <= 57 \/ _ |- _ => apply lower_digit in H as (? & ? & ? & <-) end.
  match goal with |- context [[hex_digit ?a; hex_digit ?b; hex_digit ?c; hex_digit ?d; hex_digit ?e; hex_digit ?f; hex_digit ?g; hex_digit ?h]] =>
    assert (W : writes [hex_digit a; hex_digit b; hex_digit c; hex_digit d; hex_digit e; hex_digit f; hex_digit g; hex_digit h]
                (16 * (16 * (16 * (16 * (16 * (16 * (16 * (16 * 0 + a) + b) + c) + d) + e) + f) + g) + h));
    [change [hex_digit a; hex_digit b; hex_digit c; hex_digit d; hex_digit e; hex_digit f; hex_digit g; hex_digit h] with
      (((((((([] ++ [hex_digit a]) ++ [hex_digit b]) ++ [hex_digit c]) ++ [hex_digit d]) ++ [hex_digit e]) ++ [hex_digit f]) ++ [hex_digit g]) ++ [hex_digit h]);
     repeat (apply writes_snoc; [|apply hex_digit_char; lia]); constructor|] end.
  rewrite (from_string_writes _ _ W) by (unfold zlen; cbn [length]; lia). cbn [fst snd]. unfold translation_string, hex4. cbn [app]. repeat f_equal; lia.
Qed.
Lemma string_canonical s : lower_hex8 s <-> translation_string (fst (translation_from_string s)) (snd (translation_from_string s)) = s.
Proof. split; [apply lower_back|intros <-; apply string_lower]. Qed.
Lemma string_inj l c l' c' : is_u16 l -> is_u16 c -> is_u16 l' -> is_u16 c' -> translation_string l c = translation_string l' c' -> l = l' /\ c = c'.
Proof. intros H1 H2 H3 H4 E. apply (f_equal translation_from_string) in E. rewrite !from_to_string in E by assumption. injection E as -> ->. split; reflexivity. Qed.

(** ** Removal *)
Lemma remove_get s t l c q tr f : keys_ascending s -> tr <> [] ->
  get_property (fst (remove_translation (s, t) l c)) q tr f =
  if str_dec tr (translation_string l c) then (if f then Throw version_info_string_does_not_exist else Ok []) else get_property s q tr f.
Proof.
  intros S N. unfold get_property, remove_translation. cbn [fst]. rewrite !view_named by exact N. rewrite sfind_erase by exact S. destruct (str_dec tr (translation_string l c)); reflexivity.
Qed.
Lemma remove_string_gone s t tr q : keys_ascending s -> lower_hex8 tr -> get_property (fst (remove_translation_string (s, t) tr)) q tr true = Throw version_info_string_does_not_exist.
Proof.
  intros S L. pose proof (lower_back _ L) as E. unfold remove_translation_string. destruct (translation_from_string tr) as [l c]. cbn [fst snd] in E.
  rewrite remove_get; [|exact S|destruct L as [L _]; destruct tr; [discriminate|discriminate]]. destruct (str_dec tr (translation_string l c)); [reflexivity|congruence].
Qed.
Definition upper_translation : list Z := [48; 52; 49; 57; 48; 52; 66; 48].
Lemma upper_stays : get_property (fst (remove_translation_string (set_property ([], []) [65] [66] upper_translation) upper_translation)) [65] upper_translation true = Ok [66].
Proof. vm_compute. reflexivity. Qed.
Lemma upper_pair_gone : snd (remove_translation_string (set_property ([], []) [65] [66] upper_translation) upper_translation) = [].
Proof. vm_compute. reflexivity. Qed.

(** ** Invariants *)
Lemma set_maps_ok s t p v tr : maps_ok s -> maps_ok (fst (set_property (s, t) p v tr)).
Proof.
  intros [S F]. destruct (meant_exists s tr) as [k M]. rewrite (set_form _ _ _ _ _ _ M). cbn [fst]. split; [apply assign_ascending, S|]. apply assign_forall; [|exact F]. cbn [snd]. apply assign_ascending.
  destruct (sfind k s) as [m|] eqn:E; [|constructor]. rewrite Forall_forall in F. exact (F _ (sfind_in _ _ _ E)).
Qed.
Lemma set_tables_ok s t p v tr : key_ok p -> value_ok v -> key_ok tr -> tables_ok s -> tables_ok (fst (set_property (s, t) p v tr)).
Proof.
  intros Hp Hv Ht [S F]. destruct (meant_exists s tr) as [k M]. rewrite (set_form _ _ _ _ _ _ M). cbn [fst]. split; [apply assign_ascending, S|]. apply assign_forall; [|exact F]. cbn [fst snd]. rewrite Forall_forall in F. split.
  - destruct M as [(_ & ->)|[(_ & -> & _)|(_ & _ & m & rest & ->)]]; [exact Ht| |exact (proj1 (F _ (or_introl eq_refl)))].
    split; [repeat constructor; unfold is_u16; lia|]. cbn. intuition lia.
  - assert (Q : strings_ok match sfind k s with Some m => m | None => [] end) by (destruct (sfind k s) as [m|] eqn:E; [exact (proj2 (F _ (sfind_in _ _ _ E)))|split; constructor]).
    destruct Q as [Q1 Q2]. split; [apply assign_ascending, Q1|]. apply assign_forall; [split; assumption|exact Q2].
Qed.
Lemma set_pairs_ok s t p v tr : translations_ok t -> translations_ok (snd (set_property (s, t) p v tr)).
Proof.
  intros T. destruct (meant_exists s tr) as [k M]. rewrite (set_form _ _ _ _ _ _ M). cbn [snd]. destruct (sfind k s); [exact T|]. unfold add_translation_string.
  destruct (from_string_u16 k) as [U1 U2]. destruct (translation_from_string k) as [l c]. apply add_ok_pairs; assumption.
Qed.
Lemma edit_storable_ok s t e : edit_storable e -> tables_ok s -> translations_ok t -> tables_ok (fst (apply_edit (s, t) e)) /\ translations_ok (snd (apply_edit (s, t) e)).
Proof.
  intros E S T. destruct e as [p v tr|l c|l c]; cbn [apply_edit fst snd edit_storable] in *.
  - destruct E as (E1 & E2 & E3). split; [apply set_tables_ok; assumption|apply set_pairs_ok, T].
  - split; [exact S|]. apply add_ok_pairs; tauto.
  - unfold remove_translation. cbn [fst snd]. split; [|apply erase_ok_pairs, T]. destruct S as [S F]. split; [apply erase_ascending, S|]. rewrite Forall_forall in *. intros x Hx. exact (F _ (erase_keys _ _ _ Hx)).
Qed.
Lemma edits_storable es : forall s t, Forall edit_storable es -> tables_ok s -> translations_ok t ->
  tables_ok (fst (fold_left apply_edit es (s, t))) /\ translations_ok (snd (fold_left apply_edit es (s, t))).
Proof.
  induction es as [|e es IH]; cbn [fold_left]; intros s t F S T; [split; assumption|]. inversion F as [|? ? F1 F2]; subst.
  destruct (edit_storable_ok s t e F1 S T) as [S' T']. destruct (apply_edit (s, t) e) as [s' t']. exact (IH s' t' F2 S' T').
Qed.
Lemma edits_round i es : info_ok i -> Forall edit_storable es ->
  let '(s, t) := fold_left apply_edit es ([], []) in block_bytes s t < 65536 -> exists d, version_data i s t = Ok d /\ version_info d = Ok (i, (s, t)).
Proof.
  intros I F. destruct (edits_storable es [] [] F) as [S T]; [split; constructor|split; constructor|]. destruct (fold_left apply_edit es ([], [])) as [s t]. cbn [fst snd] in *. intros B.
  destruct (version_round i s t I S T B) as (d & E & _ & R). eauto.
Qed.

(** ** Histories *)
Lemma edit_one s t e : maps_ok s -> edit_named e -> maps_ok (fst (apply_edit (s, t) e)) /\
  forall tr p, tr <> [] -> value_of (fst (apply_edit (s, t) e)) tr p = edit_values (value_of s) e tr p.
Proof.
  intros S E. destruct e as [p v tr|l c|l c]; cbn [apply_edit fst edit_named edit_values] in *.
  - split; [apply set_maps_ok, S|]. intros tr' q N. assert (M : meant s tr tr) by (left; auto). unfold value_of. destruct (str_dec tr' tr) as [->|D].
    + destruct (str_dec q p) as [->|D]; [rewrite set_get; reflexivity|]. rewrite (set_others s t p v tr tr) by auto. reflexivity.
    + rewrite (set_others s t p v tr tr) by auto. reflexivity.
  - split; [exact S|]. reflexivity.
  - split.
    + destruct S as [S F]. unfold remove_translation. cbn [fst]. split; [apply erase_ascending, S|]. rewrite Forall_forall in *. intros x Hx. exact (F _ (erase_keys _ _ _ Hx)).
    + intros tr q N. unfold value_of. rewrite remove_get by (try exact N; apply S). destruct (str_dec tr (translation_string l c)); reflexivity.
Qed.
Lemma edit_values_ext f g e tr p : f tr p = g tr p -> edit_values f e tr p = edit_values g e tr p.
Proof. intros H. destruct e; cbn [edit_values]; repeat match goal with |- context [if ?x then _ else _] => destruct x end; congruence. Qed.
Lemma edits_values es : forall s t, maps_ok s -> Forall edit_named es -> maps_ok (fst (fold_left apply_edit es (s, t))) /\
  forall tr p, tr <> [] -> value_of (fst (fold_left apply_edit es (s, t))) tr p = fold_left edit_values es (value_of s) tr p.
Proof.
  assert (X : forall es f g tr p, f tr p = g tr p -> fold_left edit_values es f tr p = fold_left edit_values es g tr p).
  { intros l. induction l as [|e l IH]; cbn [fold_left]; intros f g tr p H; [exact H|]. apply IH. apply edit_values_ext, H. }
  induction es as [|e es IH]; cbn [fold_left]; intros s t S F; [split; [exact S|reflexivity]|]. inversion F as [|? ? F1 F2]; subst.
  destruct (edit_one s t e S F1) as [S' V]. destruct (apply_edit (s, t) e) as [s' t']. cbn [fst] in *. destruct (IH s' t' S' F2) as [S'' V']. split; [exact S''|]. intros tr p N. rewrite (V' tr p N). apply X, V, N.
Qed.
Lemma edit_nodup s t e : NoDup t -> NoDup (snd (apply_edit (s, t) e)).
Proof.
  intros N. destruct e as [p v tr|l c|l c]; cbn [apply_edit snd].
  - destruct (meant_exists s tr) as [k M]. rewrite (set_form _ _ _ _ _ _ M). cbn [snd]. destruct (sfind k s); [exact N|]. unfold add_translation_string. destruct (translation_from_string k). apply add_nodup, N.
  - apply add_nodup, N.
  - apply erase_nodup, N.
Qed.
Lemma edits_nodup es : forall s t, NoDup t -> NoDup (snd (fold_left apply_edit es (s, t))).
Proof.
  induction es as [|e es IH]; cbn [fold_left]; intros s t N; [exact N|]. pose proof (edit_nodup s t e N) as N'. destruct (apply_edit (s, t) e) as [s' t']. exact (IH s' t' N').
Qed.

(** ** Named properties *)
Lemma names_same p : setter_name p = getter_name p. Proof. destruct p; reflexivity. Qed.
Lemma names_inj p q : getter_name p = getter_name q -> p = q. Proof. destruct p, q; cbn; intros H; congruence. Qed.
Lemma named_get st p v tr q : get_named (fst (set_named st p v tr)) q tr = if property_dec q p then Ok v else get_named (fst st) q tr.
Proof.
  destruct st as [s t]. unfold get_named, set_named. rewrite names_same. match goal with |- context [if ?x then _ else _] => destruct x as [->|D] end; [apply set_get|].
  apply set_same_table. intros E. exact (D (names_inj _ _ E)).
Qed.

(** ** file_version_info *)
Definition flag_index (f : file_flag) : Z := match f with Debug => 0 | Prerelease => 1 | Patched => 2 | PrivateBuild => 3 | InfoInferred => 4 | SpecialBuild => 5 end.
Lemma flag_bits_pow f : flag_bits f = 2 ^ flag_index f /\ 0 <= flag_index f < 6. Proof. destruct f; cbn; lia. Qed.
Lemma flag_index_inj f g : flag_index f = flag_index g -> f = g. Proof. destruct f, g; cbn; congruence. Qed.
Lemma get_file_flag_bit i f : get_file_flag i f = Z.testbit (fi_flags i) (flag_index f).
Proof.
  unfold get_file_flag. destruct (flag_bits_pow f) as [-> R]. destruct (Z.testbit (fi_flags i) (flag_index f)) eqn:E.
  - destruct (Z.land (fi_flags i) (2 ^ flag_index f) =? 0) eqn:K; [|reflexivity]. assert (K' : Z.land (fi_flags i) (2 ^ flag_index f) = 0) by lia. apply (f_equal (fun x => Z.testbit x (flag_index f))) in K'.
    rewrite Z.land_spec, E, Z.pow2_bits_true in K' by lia. rewrite Z.bits_0 in K'. discriminate.
  - replace (Z.land (fi_flags i) (2 ^ flag_index f)) with 0; [reflexivity|]. apply Z.bits_inj'. intros n Hn. rewrite Z.bits_0, Z.land_spec. destruct (Z.eq_dec n (flag_index f)) as [->|D]; [rewrite E; reflexivity|]. rewrite Z.pow2_bits_false by lia. rewrite andb_false_r. reflexivity.
Qed.
Lemma set_flag_bits i f b n : is_u32 (fi_flags i) -> 0 <= n -> Z.testbit (fi_flags (set_file_flag i f b)) n = if Z.eq_dec n (flag_index f) then b else Z.testbit (fi_flags i) n.
Proof.
  intros U Hn. unfold set_file_flag, with_flags. cbn [fi_flags]. destruct (flag_bits_pow f) as [-> R]. destruct b.
  - rewrite Z.lor_spec. destruct (Z.eq_dec n (flag_index f)) as [->|D]; [rewrite Z.pow2_bits_true by lia; apply orb_true_r|rewrite Z.pow2_bits_false by lia; apply orb_false_r].
  - rewrite Z.land_spec. unfold u32. destruct (Z.ltb_spec n 32) as [L|L].
    + rewrite Z.mod_pow2_bits_low by lia. rewrite Z.lnot_spec by lia. destruct (Z.eq_dec n (flag_index f)) as [->|D]; [rewrite Z.pow2_bits_true by lia; apply andb_false_r|rewrite Z.pow2_bits_false by lia; apply andb_true_r].
    + destruct (Z.eq_dec n (flag_index f)); [lia|]. rewrite Z.mod_pow2_bits_high by lia. rewrite andb_false_r. symmetry. unfold is_u32 in U. destruct (Z.eq_dec (fi_flags i) 0) as [->|]; [apply Z.bits_0|].
      apply Z.bits_above_log2; [lia|]. apply Z.log2_lt_pow2; [lia|]. apply Z.lt_le_trans with (2 ^ 32); [lia|apply Z.pow_le_mono_r; lia].
Qed.
Lemma u32_bits v : 0 <= v -> (forall n, 32 <= n -> Z.testbit v n = false) -> is_u32 v.
Proof.
  intros P H. unfold is_u32. split; [exact P|]. destruct (Z_lt_le_dec v (2 ^ 32)) as [L|L]; [exact L|]. pose proof (Z.bit_log2 v ltac:(lia)) as B. rewrite H in B; [discriminate|]. apply Z.log2_le_pow2; lia.
Qed.
Lemma set_flag_ok i f b : is_u32 (fi_flags i) -> set_file_flag i f b = with_flags i (fi_flags (set_file_flag i f b)) /\ is_u32 (fi_flags (set_file_flag i f b)) /\
  (forall g, get_file_flag (set_file_flag i f b) g = if flag_dec g f then b else get_file_flag i g) /\
  (forall n, 6 <= n -> Z.testbit (fi_flags (set_file_flag i f b)) n = Z.testbit (fi_flags i) n).
Proof.
  intros U. split; [reflexivity|]. destruct (flag_bits_pow f) as [_ R]. split; [|split].
  - apply u32_bits.
    + unfold set_file_flag, with_flags. cbn [fi_flags]. unfold is_u32 in U. destruct b; [apply Z.lor_nonneg; split; [lia|destruct f; cbn; lia]|apply Z.land_nonneg; lia].
    + intros n Hn. rewrite set_flag_bits by (try exact U; lia). destruct (Z.eq_dec n (flag_index f)); [lia|]. unfold is_u32 in U. destruct (Z.eq_dec (fi_flags i) 0) as [->|]; [apply Z.bits_0|].
      apply Z.bits_above_log2; [lia|]. apply Z.log2_lt_pow2; [lia|]. apply Z.lt_le_trans with (2 ^ 32); [lia|apply Z.pow_le_mono_r; lia].
  - intros g. rewrite !get_file_flag_bit. pose proof (flag_bits_pow g) as [_ Rg]. rewrite set_flag_bits by (try exact U; lia).
    destruct (Z.eq_dec (flag_index g) (flag_index f)) as [E|D]; match goal with |- context [if ?x then b else Z.testbit _ _] => destruct x as [->|D'] end; try reflexivity; [destruct D'; apply flag_index_inj, E|congruence].
  - intros n Hn. rewrite set_flag_bits by (try exact U; lia). destruct (Z.eq_dec n (flag_index f)); [lia|reflexivity].
Qed.
Lemma os_set_get i o : o <> os_unknown -> get_file_os (set_file_os i o) = o. Proof. intros H. destruct o; try reflexivity. congruence. Qed.
Lemma os_get_set i : set_file_os i (get_file_os i) = i.
Proof.
  destruct i as [a b c d e o f g h j]. unfold get_file_os. cbn [fi_os].
  repeat match goal with |- context [if ?x =? ?y then _ else _] => destruct (Z.eqb_spec x y) as [->|?] end; reflexivity.
Qed.
Lemma type_set_get i k : k <> type_unknown -> get_file_type (set_file_type i k) = k. Proof. intros H. destruct k; try reflexivity. congruence. Qed.
Lemma type_get_set i : set_file_type i (get_file_type i) = i.
Proof.
  destruct i as [a b c d e o f g h j]. unfold get_file_type. cbn [fi_type].
  repeat match goal with |- context [if ?x =? ?y then _ else _] => destruct (Z.eqb_spec x y) as [->|?] end; reflexivity.
Qed.
Lemma decimal_numeral n : forall v, 0 <= v < 10 ^ Z.of_nat n -> n <> O -> numeral (decimal n v) v.
Proof.
  induction n as [|n IH]; intros v V N; [congruence|]. cbn [decimal]. destruct (v <? 10) eqn:E.
  - cbn [app]. replace (v mod 10) with v by lia. apply numeral_digit. lia.
  - replace v with (10 * (v / 10) + v mod 10) at 3 by lia. assert (R : 0 <= v / 10 < 10 ^ Z.of_nat n).
    { replace (Z.of_nat (S n)) with (Z.of_nat n + 1) in V by lia. rewrite Z.pow_add_r in V by lia. lia. }
    apply numeral_more; [|lia|lia]. apply IH; [exact R|]. intros ->. cbn in R. lia.
Qed.
Lemma numeral_digits s n : numeral s n -> Forall (fun c => 48 <= c <= 57) s.
Proof. induction 1 as [d D|s n d W IH P D]; [repeat constructor; lia|]. apply Forall_app. split; [exact IH|repeat constructor; lia]. Qed.
Lemma numeral_nonempty s n : numeral s n -> s <> []. Proof. intros [d D|s' n' d W P D]; [discriminate|]. destruct s'; discriminate. Qed.
Lemma numeral_cases s n : numeral s n -> (exists d, s = [48 + d] /\ n = d) \/ (exists s' n' d, s = s' ++ [48 + d] /\ n = 10 * n' + d /\ numeral s' n').
Proof. intros [d D|s' n' d W P D]; [left; eauto|right; eauto 7]. Qed.
Lemma numeral_fun s n : numeral s n -> forall m, numeral s m -> n = m.
Proof.
  induction 1 as [d D|s n d W IH P D]; intros m M; apply numeral_cases in M as [(d' & E & ->)|(s' & n' & d' & E & -> & W')].
  - apply (f_equal (fun l => nth 0 l 0)) in E. cbn [nth] in E. lia.
  - destruct s' as [|x s']; [destruct (numeral_nonempty _ _ W' eq_refl)|]. destruct s'; discriminate.
  - destruct s as [|x s]; [destruct (numeral_nonempty _ _ W eq_refl)|]. destruct s; discriminate.
  - apply app_inj_tail in E as [-> E]. rewrite (IH n' W'). lia.
Qed.
Lemma version_string_form ms ls : is_u32 ms -> is_u32 ls -> exists a b c d, version_string ms ls = a ++ [46] ++ b ++ [46] ++ c ++ [46] ++ d /\
  numeral a (ms / 65536) /\ numeral b (ms mod 65536) /\ numeral c (ls / 65536) /\ numeral d (ls mod 65536).
Proof.
  unfold is_u32. intros M L. unfold version_string. rewrite !Z.shiftr_div_pow2 by lia. change 0xFFFF with (Z.ones 16). rewrite !Z.land_ones by lia. change (2 ^ 16) with 65536.
  do 4 eexists. split; [reflexivity|]. change (10 ^ Z.of_nat 10) with 10000000000 in *. repeat split; (apply decimal_numeral; [change (10 ^ Z.of_nat 10) with 10000000000; lia|discriminate]).
Qed.
Lemma split_dot (a b r s : list Z) : Forall (fun c => 48 <= c <= 57) a -> Forall (fun c => 48 <= c <= 57) b -> a ++ [46] ++ r = b ++ [46] ++ s -> a = b /\ r = s.
Proof.
  revert b. induction a as [|x a IH]; intros [|y b] A B E; cbn [app] in E.
  - injection E as ->. split; reflexivity.
  - inversion B; subst. injection E as <- _. lia.
  - inversion A; subst. injection E as -> _. lia.
  - inversion A; subst. inversion B; subst. injection E as -> E. destruct (IH b) as [-> ->]; try assumption. split; reflexivity.
Qed.
Lemma version_strings i : (is_u32 (fi_version_ms i) -> is_u32 (fi_version_ls i) -> exists a b c d, file_version_string i = a ++ [46] ++ b ++ [46] ++ c ++ [46] ++ d /\
    numeral a (fi_version_ms i / 65536) /\ numeral b (fi_version_ms i mod 65536) /\ numeral c (fi_version_ls i / 65536) /\ numeral d (fi_version_ls i mod 65536)) /\
  (is_u32 (fi_product_ms i) -> is_u32 (fi_product_ls i) -> exists a b c d, product_version_string i = a ++ [46] ++ b ++ [46] ++ c ++ [46] ++ d /\
    numeral a (fi_product_ms i / 65536) /\ numeral b (fi_product_ms i mod 65536) /\ numeral c (fi_product_ls i / 65536) /\ numeral d (fi_product_ls i mod 65536)).
Proof. split; intros M L; [exact (version_string_form _ _ M L)|exact (version_string_form _ _ M L)]. Qed.
Lemma version_string_inj ms ls ms' ls' : is_u32 ms -> is_u32 ls -> is_u32 ms' -> is_u32 ls' -> version_string ms ls = version_string ms' ls' -> ms = ms' /\ ls = ls'.
Proof.
  intros H1 H2 H3 H4 E. destruct (version_string_form ms ls H1 H2) as (a & b & c & d & F & A & B & C & D). destruct (version_string_form ms' ls' H3 H4) as (a' & b' & c' & d' & F' & A' & B' & C' & D').
  rewrite F, F' in E. apply split_dot in E as [-> E]; [|eapply numeral_digits; eassumption..]. apply split_dot in E as [-> E]; [|eapply numeral_digits; eassumption..]. apply split_dot in E as [-> ->]; [|eapply numeral_digits; eassumption..].
  pose proof (numeral_fun _ _ A _ A') as X1. pose proof (numeral_fun _ _ B _ B') as X2. pose proof (numeral_fun _ _ C _ C') as X3. pose proof (numeral_fun _ _ D _ D') as X4. lia.
Qed.
