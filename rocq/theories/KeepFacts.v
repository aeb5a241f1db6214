(** Readers of an image without header bytes give the same on every image with the same sections and directories. *)
From Verif Require Export LoadedRead ResFacts DotnetModel.

(** What one run gives, the other gives too. *)
Definition sub {A} (x y : res A) : Prop := forall v, x = Ok v -> y = Ok v.
Lemma sub_refl {A} (x : res A) : sub x x. Proof. intros v H. exact H. Qed.
Lemma sub_eq {A} (x y : res A) : x = y -> sub x y. Proof. intros ->. apply sub_refl. Qed.
Lemma sub_throw {A} e (y : res A) : sub (Throw e) y. Proof. intros v [=]. Qed.
Lemma sub_bind {A B} (x y : res A) (f g : A -> res B) : sub x y -> (forall a, sub (f a) (g a)) -> sub (bind x f) (bind y g).
Proof. intros H K v E. destruct x as [a| | |]; cbn [bind] in E; try discriminate. rewrite (H a eq_refl). cbn [bind]. apply K, E. Qed.
Lemma sub_then {A B} (x y : res A) (f g : A -> res B) : sub x y -> (forall a, x = Ok a -> sub (f a) (g a)) -> sub (bind x f) (bind y g).
Proof. intros H K v E. destruct x as [a| | |]; cbn [bind] in E; try discriminate. rewrite (H a eq_refl). cbn [bind]. exact (K a eq_refl v E). Qed.
Lemma sub_mfold {A B} (f g : B -> A -> res B) : (forall b a, sub (f b a) (g b a)) -> forall l b, sub (mfold f l b) (mfold g l b).
Proof. intros H. induction l as [|a l IH]; intros b; cbn [mfold]; [apply sub_refl|]. apply sub_bind; [apply H|intros b'; apply IH]. Qed.
Lemma sub_ploop {St A} (I : St -> Prop) (f g : St -> res (St + A)) : (forall s, I s -> sub (f s) (g s)) -> (forall s s', I s -> f s = Ok (inl s') -> I s') ->
  forall n s, I s -> sub (ploop n f s) (ploop n g s) /\ forall s', ploop n f s = Ok (inl s') -> I s'.
Proof.
  intros H K. induction n as [n IH|n IH|]; intros s J; cbn [ploop].
  - destruct (f s) as [[s1|a]| | |] eqn:F; try (split; [intros v E0; discriminate E0|intros s' E0; discriminate E0]).
    + rewrite (H s J _ F). pose proof (K s s1 J F) as J1. destruct (IH s1 J1) as [I1 I2]. destruct (ploop n f s1) as [[s2|a]| | |] eqn:P; try (split; [intros v E0; discriminate E0|intros s' E0; discriminate E0]).
      * rewrite (I1 _ eq_refl). apply IH, I2. reflexivity.
      * rewrite (I1 _ eq_refl). split; [apply sub_refl|intros s' E0; discriminate E0].
    + rewrite (H s J _ F). split; [apply sub_refl|intros s' E0; discriminate E0].
  - destruct (IH s J) as [I1 I2]. destruct (ploop n f s) as [[s2|a]| | |] eqn:P; try (split; [intros v E0; discriminate E0|intros s' E0; discriminate E0]).
    + rewrite (I1 _ eq_refl). apply IH, I2. reflexivity.
    + rewrite (I1 _ eq_refl). split; [apply sub_refl|intros s' E0; discriminate E0].
  - split; [apply H, J|]. intros s' E. exact (K s s' J E).
Qed.
Lemma sub_mloop_inv {St A} (I : St -> Prop) n (f g : St -> res (St + A)) s : (forall s, I s -> sub (f s) (g s)) -> (forall s s', I s -> f s = Ok (inl s') -> I s') -> I s -> sub (mloop n f s) (mloop n g s).
Proof. intros H K J v. unfold mloop. intros E. destruct (sub_ploop I f g H K n s J) as [S _]. destruct (ploop n f s) as [[s2|a]| | |] eqn:P; try discriminate. rewrite (S _ eq_refl). exact E. Qed.
Lemma sub_mloop {St A} n (f g : St -> res (St + A)) s : (forall s, sub (f s) (g s)) -> sub (mloop n f s) (mloop n g s).
Proof. intros H. apply (sub_mloop_inv (fun _ => True)); auto. Qed.
Lemma sub_pfun {A B} (F G : (A -> res B) -> A -> res B) : (forall f g, (forall a, sub (f a) (g a)) -> forall a, sub (F f a) (G g a)) ->
  forall n f g, (forall a, sub (f a) (g a)) -> forall a, sub (pfun n F f a) (pfun n G g a).
Proof.
  intros H. induction n as [n IH|n IH|]; intros f g K a; cbn [pfun].
  - apply H. intros b. apply IH. intros c. apply IH, K.
  - apply IH. intros c. apply IH, K.
  - apply H, K.
Qed.

(** [r] has the sections of [p], seen alike: in memory, and also in the file if [raw] is set. Either [p] has no header bytes and those of [r]
    end before the sections, or both have the same. *)
Definition seen_alike (raw : bool) (sa : Z) (s t : section) : Prop :=
  s_va t = s_va s /\ aligned_vsize sa t = aligned_vsize sa s /\ (raw = true -> raw_view t = raw_view s) /\ virt_view sa t = virt_view sa s.
Record alike (raw : bool) (p r : pe) : Prop := mk_alike {
  al_plus : p_plus r = p_plus p; al_base : imagebase r = imagebase p; al_sa : salign r = salign p; al_chars : chars r = chars p; al_n : nrva r = nrva p;
  al_sec : Forall2 (seen_alike raw (salign p)) (p_sections p) (p_sections r);
  al_full : p_full p = [] /\ Forall (fun s => zlen (p_full r) <= s_va s) (p_sections p) \/ p_full r = p_full p;
  al_bytes : Forall wf_section (p_sections p) /\ bytes (p_full p) }.
Definition shown (raw : bool) (ty : datatype) : bool := match ty with RawData => raw | VirtData => true end.
(** ... and the directory [id]. *)
Definition same_dir (p r : pe) (id : Z) : Prop :=
  directory_exists r id = directory_exists p id /\ get_directory_rva r id = get_directory_rva p id /\ get_directory_size r id = get_directory_size p id.

Section Alike.
Context (raw : bool) (p r : pe) (A : alike raw p r).
Lemma al_vs s t : seen_alike raw (salign p) s t -> aligned_vsize (salign r) t = aligned_vsize (salign p) s.
Proof. intros (_ & E & _). rewrite (al_sa raw p r A). exact E. Qed.
Lemma al_in a s t : seen_alike raw (salign p) s t -> in_section (salign r) a t = in_section (salign p) a s.
Proof. intros H. unfold in_section. rewrite (al_vs s t H). destruct H as (-> & _). reflexivity. Qed.
Lemma al_find a l m : Forall2 (seen_alike raw (salign p)) l m -> find_index (in_section (salign r) a) m = find_index (in_section (salign p) a) l.
Proof. induction 1 as [|s t l m H _ IH]; [reflexivity|]. cbn [find_index]. rewrite (al_in a s t H), IH. reflexivity. Qed.
Lemma al_from a : section_from_rva r a = section_from_rva p a.
Proof. unfold section_from_rva. rewrite (al_find a (p_sections p) (p_sections r) (al_sec raw p r A)). reflexivity. Qed.
Lemma find_index_ok {B} (f : B -> bool) l i : find_index f l = Some i -> exists x, nth_error l i = Some x /\ f x = true.
Proof.
  revert i. induction l as [|x l IH]; intros i H; [discriminate|]. cbn [find_index] in H. destruct (f x) eqn:E; [injection H as <-; exists x; split; [reflexivity|exact E]|].
  destruct (find_index f l) as [j|]; [|discriminate]. injection H as <-. exact (IH j eq_refl).
Qed.
Lemma al_nth i s : nth_error (p_sections p) i = Some s -> exists t, nth_error (p_sections r) i = Some t /\ seen_alike raw (salign p) s t.
Proof.
  pose proof (al_sec raw p r A) as F. revert i. induction F as [|x y l m H _ IH]; intros [|i] E; try discriminate; [injection E as <-; exists y; split; [reflexivity|exact H]|].
  exact (IH i E).
Qed.
(** What the two images have at an address of a section of [p]. *)
Lemma al_at a i : section_from_rva p a = Ok i -> exists s t, get_section p i = Ok s /\ get_section r i = Ok t /\ seen_alike raw (salign p) s t /\ (p_full p = [] /\ zlen (p_full r) <= a \/ p_full r = p_full p) /\ s_va s <= a.
Proof.
  unfold section_from_rva, get_section. destruct (find_index _ _) as [j|] eqn:E; [|discriminate]. intros [= <-]. destruct (find_index_ok _ _ _ E) as (s & N & I).
  destruct (al_nth j s N) as (t & Nt & H). exists s, t. rewrite N, Nt. split; [reflexivity|]. split; [reflexivity|]. split; [exact H|]. unfold in_section in I.
  split; [|lia]. destruct (al_full raw p r A) as [(E0 & L)|E0]; [|right; exact E0]. rewrite Forall_forall in L. specialize (L s (nth_error_In _ _ N)). left. split; [exact E0|lia].
Qed.
Lemma al_view s t ty : shown raw ty = true -> seen_alike raw (salign p) s t -> view r t ty = view p s ty.
Proof. intros S (_ & _ & E1 & E2). unfold view. rewrite (al_sa raw p r A). destruct ty; [apply E1, S|assumption]. Qed.
Lemma rd_ok_range l o n v : rd l o n = Ok v -> 0 <= o /\ 0 <= n /\ o + n <= zlen l.
Proof. unfold rd. destruct ((0 <=? o) && (0 <=? n) && (o + n <=? zlen l)) eqn:E; [|discriminate]. lia. Qed.
Lemma sub_read a n ty h : shown raw ty = true -> sub (read_rva p a n ty h) (read_rva r a n ty h).
Proof.
  intros S v E. unfold read_rva in *. rewrite al_from. destruct (al_full raw p r A) as [(E0 & _)|E0].
  - rewrite E0 in E. change (@zlen Z []) with 0 in E. destruct (h && is_sum_safe a n && (a + n <? 0)) eqn:C.
    { apply rd_ok_range in E. change (@zlen Z []) with 0 in E. lia. }
    destruct (section_from_rva p a) as [i| | |] eqn:F; try discriminate E. destruct (al_at a i F) as (s & t & G1 & G2 & H & L & Lv). cbn [bind] in *. rewrite G1 in E. rewrite G2. cbn [bind] in *.
    rewrite (al_view s t ty S H). destruct H as (-> & _). destruct (zlen (view p s ty) <? u32 (a - s_va s) + n) eqn:W; cbn [throw_if bind] in *; [discriminate|].
    destruct (rd_ok_range _ _ _ _ E) as (_ & N & _). assert (zlen (p_full r) <= a \/ zlen (p_full r) = 0) as L' by (destruct L as [L|L]; [tauto|right; rewrite L, E0; reflexivity]).
    destruct (h && is_sum_safe a n && (a + n <? zlen (p_full r))) eqn:C2; [|exact E]. destruct h, (is_sum_safe a n); cbn [andb] in C, C2; try discriminate; lia.
  - rewrite E0. destruct (h && is_sum_safe a n && (a + n <? zlen (p_full p))); [exact E|].
    destruct (section_from_rva p a) as [i| | |] eqn:F; try discriminate E. destruct (al_at a i F) as (s & t & G1 & G2 & H & L & Lv). cbn [bind] in *. rewrite G1 in E. rewrite G2. cbn [bind] in *.
    rewrite (al_view s t ty S H). destruct H as (-> & _). exact E.
Qed.
Lemma low_full a i : 0 <= a -> section_from_rva p a = Ok i -> (a <? zlen (p_full r)) = (a <? zlen (p_full p)).
Proof. intros N F. destruct (al_at a i F) as (s & t & _ & _ & _ & L & _). destruct L as [(L1 & L2)| ->]; [|reflexivity]. rewrite L1. change (@zlen Z []) with 0. lia. Qed.
Lemma sub_ptr a ty h : shown raw ty = true -> 0 <= a -> sub (ptr_rva p a ty h) (ptr_rva r a ty h).
Proof.
  intros S N v E. unfold ptr_rva in *. rewrite al_from. destruct (al_full raw p r A) as [(E0 & _)|E0].
  - rewrite E0 in E. change (@zlen Z []) with 0 in E. replace (h && (a <? 0)) with false in E by (destruct h; lia). destruct (section_from_rva p a) as [i| | |] eqn:F; try discriminate E.
    rewrite (low_full a i N F), E0. change (@zlen Z []) with 0. replace (h && (a <? 0)) with false by (destruct h; lia).
    destruct (al_at a i F) as (s & t & G1 & G2 & H & L & Lv). cbn [bind] in *. rewrite G1 in E. rewrite G2. cbn [bind] in *.
    rewrite (al_view s t ty S H). destruct H as (-> & _). exact E.
  - rewrite E0. destruct (h && (a <? zlen (p_full p))); [exact E|]. destruct (section_from_rva p a) as [i| | |] eqn:F; try discriminate E.
    destruct (al_at a i F) as (s & t & G1 & G2 & H & L & Lv). cbn [bind] in *. rewrite G1 in E. rewrite G2. cbn [bind] in *.
    rewrite (al_view s t ty S H). destruct H as (-> & _). exact E.
Qed.
Lemma sub_length a b ty h : shown raw ty = true -> 0 <= a -> sub (length_rva p a b ty h) (length_rva r a b ty h).
Proof.
  intros S N v E. unfold length_rva in *. rewrite al_from.
  assert (D : forall s t, seen_alike raw (salign p) s t -> data_length r t ty = data_length p s ty). { intros s t H. unfold data_length. rewrite (al_vs s t H). destruct ty; [|reflexivity]. destruct H as (_ & _ & Hr & _). rewrite (Hr S). reflexivity. }
  destruct (al_full raw p r A) as [(E0 & _)|E0].
  - rewrite E0 in E. change (@zlen Z []) with 0 in E. replace (h && (a <? 0)) with false in E by (destruct h; lia). cbn [andb] in E. destruct (section_from_rva p a) as [i| | |] eqn:F; try discriminate E.
    rewrite (low_full a i N F), E0. change (@zlen Z []) with 0. replace (h && (a <? 0)) with false by (destruct h; lia). cbn [andb].
    destruct (al_at a i F) as (s & t & G1 & G2 & H & L & Lv). cbn [bind] in *. rewrite G1 in E. rewrite G2. cbn [bind] in *.
    rewrite (D s t H). destruct H as (-> & _). exact E.
  - rewrite E0. destruct (h && (a <? zlen (p_full p)) && (b <? zlen (p_full p))); [exact E|]. destruct (section_from_rva p a) as [i| | |] eqn:F; try discriminate E.
    destruct (al_at a i F) as (s & t & G1 & G2 & H & L & Lv). cbn [bind] in *. rewrite G1 in E. rewrite G2. cbn [bind] in *.
    rewrite (D s t H). destruct H as (-> & _). exact E.
Qed.
Lemma read_bytes a n ty h v : read_rva p a n ty h = Ok v -> bytes v.
Proof.
  assert (R : forall l o m w, bytes l -> rd l o m = Ok w -> bytes w). { intros l o m w B. unfold rd. destruct (_ && _); [|intros E0; discriminate E0]. intros [= <-]. apply bytes_slice, B. }
  destruct (al_bytes raw p r A) as [W Bf]. unfold read_rva. destruct (h && is_sum_safe a n && (a + n <? zlen (p_full p))); [apply R, Bf|].
  destruct (section_from_rva p a) as [i| | |] eqn:F; try (intros E0; discriminate E0). destruct (al_at a i F) as (s & t & G1 & _ & _). cbn [bind]. rewrite G1. cbn [bind].
  destruct (zlen (view p s ty) <? u32 (a - s_va s) + n); cbn [throw_if bind]; [intros E0; discriminate E0|]. apply R.
  unfold get_section in G1. destruct (nth_error _ _) as [x|] eqn:E; [|discriminate]. injection G1 as <-. rewrite Forall_forall in W. specialize (W x (nth_error_In _ _ E)).
  unfold view. destruct ty; [apply bytes_raw_view|apply bytes_virt_view]; exact W.
Qed.
End Alike.

Lemma fits_nonneg ws vs : fits ws vs -> Forall (fun v => 0 <= v) vs.
Proof. revert vs. induction ws as [|w ws IH]; intros [|v vs] H; cbn [fits] in H; try contradiction; [constructor|]. destruct H as [H1 H2]. constructor; [lia|apply IH, H2]. Qed.
Lemma dec_nonneg ws e l : bytes e -> dec_fields ws e = l -> Forall (fun v => 0 <= v) l.
Proof. intros B <-. apply (fits_nonneg ws), dec_fields_fits, B. Qed.
