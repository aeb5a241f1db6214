(** Step-by-step execution of stream computations on a stream without error flags. *)
From Verif Require Export LoadFacts.

Definition st (data : list Z) (strict : bool) (pos : Z) : istream := mk_is data strict pos false false.

Lemma zdrop_zeros n m : 0 <= n <= m -> zdrop (0 + n) (zeros m) = zeros (m - n).
Proof.
  intros H. assert (zeros m = zeros n ++ zeros (m - n)) as ->.
  { unfold zeros. rewrite <- repeat_app. f_equal. lia. }
  replace (0 + n) with (zlen (zeros n)) by (rewrite zlen_zeros; lia). apply zdrop_exact.
Qed.
Section Exec.
  Variable data : list Z.
  Variable strict : bool.
  Notation st := (st data strict).

  Lemma x_bind {A B} (m : sm A) (k : A -> sm B) s a s' : m s = (s', Ok a) -> (x <~ m ; k x) s = k a s'.
  Proof. intros E. unfold sbind. rewrite E. reflexivity. Qed.
  Lemma x_ret {A B} (a : A) (k : A -> sm B) s : (x <~ sret a ; k x) s = k a s.
  Proof. reflexivity. Qed.
  Lemma x_seek {A} (k : sm A) pos p : 0 <= pos <= zlen data -> (s_seek pos ~; k) (st p) = k (st pos).
  Proof.
    intros H. eapply (x_bind _ (fun _ => k)). unfold s_seek, seekg, st. cbn [i_fail i_strict i_data].
    replace ((pos <? 0) || (strict && (zlen data <? pos))) with false by (destruct strict; cbn [andb]; lia).
    reflexivity.
  Qed.
  Lemma x_tell {A} (k : Z -> sm A) p : (v <~ s_tell ; k v) (st p) = k p (st p).
  Proof. reflexivity. Qed.
  Lemma x_eof {A} e (k : sm A) p : (s_check_eof e ~; k) (st p) = k (st p).
  Proof. reflexivity. Qed.
  Lemma x_fail {A} e (k : sm A) p : (s_check_fail e ~; k) (st p) = k (st p).
  Proof. reflexivity. Qed.
  Lemma x_throw {A} c e (k : sm A) s : c = false -> (sthrow_if c e ~; k) s = k s.
  Proof. intros ->. reflexivity. Qed.
  Lemma x_readz {A} (k : list Z -> sm A) m n p : 0 <= n <= m -> 0 <= p -> p + n <= zlen data ->
    (b <~ s_read_into (zeros m) 0 n ; k b) (st p) = k (slice data p n ++ zeros (m - n)) (st (p + n)).
  Proof.
    intros Hn Hp Hr. eapply (x_bind _ k). unfold s_read_into.
    rewrite zlen_zeros by lia. replace ((0 <=? 0) && (0 <=? n) && (0 + n <=? m)) with true by lia.
    unfold is_read, st. cbn [i_good i_fail i_eof negb andb i_data i_pos].
    assert (zlen (slice data p n) = n) as El by (apply zlen_slice; lia).
    rewrite El. replace (n <? n) with false by lia. do 2 f_equal. unfold splice. rewrite ztake_0 by lia. cbn [app]. f_equal.
    rewrite El. apply zdrop_zeros. lia.
  Qed.
  Lemma x_read {A} (k : list Z -> sm A) n p : 0 <= n -> 0 <= p -> p + n <= zlen data ->
    (b <~ s_read_into (zeros n) 0 n ; k b) (st p) = k (slice data p n) (st (p + n)).
  Proof.
    intros Hn Hp Hr. rewrite x_readz by lia. rewrite Z.sub_diag.
    change (zeros 0) with (@nil Z). rewrite app_nil_r. reflexivity.
  Qed.
  Lemma x_size {A} (k : Z -> sm A) p : 0 <= p <= zlen data ->
    (n <~ get_file_size ; k n) (st p) = k (zlen data) (st p).
  Proof.
    intros Hp. pose proof (zlen_nonneg data). eapply (x_bind _ k). unfold get_file_size. rewrite x_tell.
    rewrite (x_bind _ _ _ tt (st (zlen data))).
    - rewrite x_tell. rewrite x_seek by assumption. reflexivity.
    - unfold seekg_end, seekg, st. cbn [i_fail i_strict i_data].
      replace ((zlen data <? 0) || (strict && (zlen data <? zlen data))) with false by (destruct strict; cbn [andb]; lia).
      reflexivity.
  Qed.
  Lemma x_dos {A} (k : list Z -> sm A) p : 0 <= p -> p + 64 <= zlen data -> le_at data p 2 = 0x5a4d ->
    (dos <~ read_dos_header ; k dos) (st p) = k (slice data p 64) (st (p + 64)).
  Proof.
    intros Hp Hl Hm. eapply (x_bind _ k). unfold read_dos_header. rewrite x_eof.
    unfold sizeof_dos. rewrite x_read by lia. rewrite x_eof. rewrite x_throw; [reflexivity|].
    rewrite slice_slice by lia. rewrite Z.add_0_r. fold (le_at data p 2). rewrite Hm. reflexivity.
  Qed.
  Lemma x_restore {A} (m : sm A) p s' r : 0 <= p -> (strict = true -> p <= zlen data) ->
    m (st p) = (s', r) -> i_data s' = data -> i_strict s' = strict -> i_fail s' = false ->
    with_restore m (st p) = (st p, r).
  Proof.
    intros Hp Hs E Hd Ht Hf. unfold with_restore, tellg, st at 1, i_good. cbn [i_fail i_eof negb andb i_pos].
    fold (st p). rewrite E. f_equal.
    assert ((p <? 0) || (strict && (zlen data <? p)) = false) as C.
    { clear - Hp Hs. destruct strict; cbn [andb]; [specialize (Hs eq_refl)|]; lia. }
    destruct s' as [d t q f e]. cbn [i_data i_strict i_fail] in *. subst d t f.
    unfold seekg, LoadExec.st. cbn [i_fail i_data i_strict i_pos]. rewrite C. reflexivity.
  Qed.
End Exec.
