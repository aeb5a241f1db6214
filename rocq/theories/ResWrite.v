(** Proofs: writing a tree of resources (C39, C40). *)
From Verif Require Import StoreFacts.
From Verif Require Export ResTree.

(** ** Bytes that stay *)
Definition same_out (d d' : list Z) (T : Z -> Prop) : Prop :=
  zlen d' = zlen d /\ forall k, 0 <= k -> ~ T k -> nth (Z.to_nat k) d' 0 = nth (Z.to_nat k) d 0.
Definition held (d : list Z) (R : Z -> Prop) (off : Z) (bs : list Z) : Prop :=
  holds d off bs /\ forall k, off <= k < off + zlen bs -> R k.
Lemma same_out_refl d (T : Z -> Prop) : same_out d d T. Proof. split; reflexivity. Qed.
Lemma same_out_trans d1 d2 d3 (T1 T2 T : Z -> Prop) : same_out d1 d2 T1 -> same_out d2 d3 T2 -> (forall k, T1 k -> T k) -> (forall k, T2 k -> T k) -> same_out d1 d3 T.
Proof. intros [A1 A2] [B1 B2] H1 H2. split; [congruence|]. intros k Hk N. rewrite B2 by auto. apply A2; auto. Qed.
Lemma same_out_wr d off bs : 0 <= off -> off + zlen bs <= zlen d -> exists d', wr d off bs = Ok d' /\ same_out d d' (fun k => off <= k < off + zlen bs) /\ holds d' off bs /\ (bytes d -> bytes bs -> bytes d').
Proof.
  intros H1 H2. pose proof (zlen_nonneg bs). destruct (wr_step d off bs H1 H2) as (d' & E & L & H3 & _ & Hb). exists d'. split; [exact E|]. split; [|split; assumption].
  split; [exact L|]. intros k Hk N. apply wr_inv in E as (_ & _ & ->). rewrite nth_splice_out by lia. reflexivity.
Qed.
Lemma holds_nth d off bs k : holds d off bs -> 0 <= k < zlen bs -> nth (Z.to_nat (off + k)) d 0 = nth (Z.to_nat k) bs 0.
Proof. intros (A & B & C) H. rewrite <- (nth_slice d off (zlen bs)) by lia. rewrite C. reflexivity. Qed.
Lemma held_move d d' (T R R' : Z -> Prop) off bs : held d R off bs -> same_out d d' T -> (forall k, R k -> ~ T k /\ R' k) -> held d' R' off bs.
Proof.
  intros [H Hr] [L S] K. pose proof (holds_range _ _ _ H) as [O1 O2]. split; [|intros k Hk; apply K, Hr, Hk].
  apply nth_holds; [exact O1|lia|]. intros k Hk. rewrite S; [apply holds_nth; assumption|lia|]. apply K, Hr. lia.
Qed.

(** ** A written tree *)
Definition kept_name (d : list Z) (R : Z -> Prop) (base : Z) (name : rname) (w : Z) : Prop :=
  match name with
  | Named s => exists q, w = 2^31 + q /\ 0 <= q < 2^31 /\ held d R (base + q) (le 2 (zlen s) ++ name_bytes (s ++ [0]))
  | Ided id => w = id
  end.
Fixpoint kept (d : list Z) (R : Z -> Prop) (va base : Z) (n : rnode) (o e : Z) : Prop :=
  match n with
  | RDir h l =>
      held d R (base + o) (enc_fields rdir_widths [r_chars h; r_time h; r_major h; r_minor h; count_named l; count_ids l]) /\
      (fix go (l : list rentry) (this e0 : Z) : Prop :=
         match l with
         | [] => e = e0
         | (name, c) :: t =>
             exists w1 w2 e1, is_u32 w1 /\ is_u32 w2 /\ held d R (base + this) (le 4 w1 ++ le 4 w2) /\ kept_name d R base name w1 /\
               match c with
               | RData data cp => e1 = e0 /\ w2 < 2^31 /\ exists q, 0 <= q /\ held d R (base + w2) (enc_fields [4; 4; 4; 4]%nat [va + q; zlen data; cp; 0]) /\ held d R q data
               | _ => w2 = 2^31 + e0 /\ 0 <= e0 < 2^31 /\ kept d R va base c e0 e1
               end /\ go t (this + 8) e1
         end) l (o + 16) (o + 16 + 8 * zlen l)
  | _ => False
  end.
Definition kept_list (d : list Z) (R : Z -> Prop) (va base e : Z) := fix go (l : list rentry) (this e0 : Z) : Prop :=
  match l with
  | [] => e = e0
  | (name, c) :: t =>
      exists w1 w2 e1, is_u32 w1 /\ is_u32 w2 /\ held d R (base + this) (le 4 w1 ++ le 4 w2) /\ kept_name d R base name w1 /\
        match c with
        | RData data cp => e1 = e0 /\ w2 < 2^31 /\ exists q, 0 <= q /\ held d R (base + w2) (enc_fields [4; 4; 4; 4]%nat [va + q; zlen data; cp; 0]) /\ held d R q data
        | _ => w2 = 2^31 + e0 /\ 0 <= e0 < 2^31 /\ kept d R va base c e0 e1
        end /\ go t (this + 8) e1
  end.
Lemma kept_dir d R va base h l o e : kept d R va base (RDir h l) o e <->
  held d R (base + o) (enc_fields rdir_widths [r_chars h; r_time h; r_major h; r_minor h; count_named l; count_ids l]) /\ kept_list d R va base e l (o + 16) (o + 16 + 8 * zlen l).
Proof. reflexivity. Qed.
Lemma kept_name_move d d' (T R R' : Z -> Prop) base name w : kept_name d R base name w -> same_out d d' T -> (forall k, R k -> ~ T k /\ R' k) -> kept_name d' R' base name w.
Proof. destruct name as [s|id]; cbn [kept_name]; [|tauto]. intros (q & H1 & H2 & H3) S K. exists q. split; [exact H1|]. split; [exact H2|]. apply (held_move _ _ _ _ _ _ _ H3 S K). Qed.
Lemma kept_move d d' (T R R' : Z -> Prop) va base : same_out d d' T -> (forall k, R k -> ~ T k /\ R' k) -> forall n o e, kept d R va base n o e -> kept d' R' va base n o e.
Proof.
  intros S K. induction n as [|x c|h l F] using rnode_ind2; intros o e; try (cbn [kept]; tauto). rewrite !kept_dir. intros [H1 H2]. split; [apply (held_move _ _ _ _ _ _ _ H1 S K)|].
  revert H2. clear H1. generalize (o + 16 + 8 * zlen l) as e0. generalize (o + 16) as this. induction l as [|[nm c] l IH]; intros this e0; cbn [kept_list]; [tauto|].
  apply Forall_cons_iff in F as [Fc F]. cbn [snd] in Fc. intros (w1 & w2 & e1 & U1 & U2 & H1 & H2 & H3 & H4). exists w1, w2, e1. split; [exact U1|]. split; [exact U2|].
  split; [apply (held_move _ _ _ _ _ _ _ H1 S K)|]. split; [apply (kept_name_move _ _ _ _ _ _ _ _ H2 S K)|]. split; [|apply IH; assumption].
  destruct c as [|data cp|h2 l2].
  - destruct H3 as (_ & _ & []).
  - destruct H3 as (A & B & q & Q0 & Q1 & Q2). split; [exact A|]. split; [exact B|]. exists q. split; [exact Q0|]. split; [apply (held_move _ _ _ _ _ _ _ Q1 S K)|apply (held_move _ _ _ _ _ _ _ Q2 S K)].
  - destruct H3 as (A & B & Q). split; [exact A|]. split; [exact B|]. apply Fc. exact Q.
Qed.
Lemma kept_list_move d d' (T R R' : Z -> Prop) va base e : same_out d d' T -> (forall k, R k -> ~ T k /\ R' k) -> forall l this e0, kept_list d R va base e l this e0 -> kept_list d' R' va base e l this e0.
Proof.
  intros S K. induction l as [|[nm c] l IH]; intros this e0; cbn [kept_list]; [tauto|].
  intros (w1 & w2 & e1 & U1 & U2 & H1 & H2 & H3 & H4). exists w1, w2, e1. split; [exact U1|]. split; [exact U2|].
  split; [apply (held_move _ _ _ _ _ _ _ H1 S K)|]. split; [apply (kept_name_move _ _ _ _ _ _ _ _ H2 S K)|]. split; [|apply IH; assumption].
  destruct c as [|data cp|h2 l2].
  - destruct H3 as (_ & _ & []).
  - destruct H3 as (A & B & q & Q0 & Q1 & Q2). split; [exact A|]. split; [exact B|]. exists q. split; [exact Q0|]. split; [apply (held_move _ _ _ _ _ _ _ Q1 S K)|apply (held_move _ _ _ _ _ _ _ Q2 S K)].
  - destruct H3 as (A & B & Q). split; [exact A|]. split; [exact B|]. apply (kept_move _ _ _ _ _ _ _ S K). exact Q.
Qed.

(** ** The pieces *)
Lemma zlen_name_bytes s : zlen (name_bytes s) = 2 * zlen s.
Proof. unfold name_bytes. induction s as [|x s IH]; [reflexivity|]. cbn [flat_map]. rewrite zlen_app, zlen_le, zlen_cons, IH. lia. Qed.
Lemma bytes_name_bytes s : bytes (name_bytes s).
Proof. unfold name_bytes. induction s as [|x s IH]; [constructor|]. cbn [flat_map]. apply bytes_app. split; [apply bytes_le|exact IH]. Qed.
Lemma lor31 x : 0 <= x < 2^31 -> Z.lor (2^31) x = 2^31 + x.
Proof.
  intros H. assert (L : Z.land (2^31) x = 0); [|rewrite <- Z.lxor_lor, <- Z.add_nocarry_lxor by exact L; reflexivity]. apply Z.bits_inj'. intros k Hk. rewrite Z.land_spec, Z.bits_0.
  rewrite Z.pow2_bits_eqb by lia. destruct (Z.eqb_spec 31 k) as [<-|N]; [|reflexivity]. cbn [andb]. rewrite Z.testbit_odd, Z.shiftr_div_pow2 by lia. rewrite Z.div_small by lia. reflexivity.
Qed.
Section Write.
  Variables (s1 : section) (base A B N : Z).
  Hypothesis Hb : 0 <= base.
  Hypothesis Hn : N <= 2^31.
  Hypothesis Hv : 0 <= s_va s1 /\ s_va s1 + N < 2^32.
  Lemma write_rname_ok name w : valid_rname name -> zlen (w_data w) = N -> base <= w_text w -> w_text w + rname_size name <= N ->
    exists w1 d', write_rname base name w = Ok (w1, mk_rout d' (w_struct w) (w_pos w) (w_text w + rname_size name)) /\ is_u32 w1 /\
      let T := fun k => w_text w <= k < w_text w + rname_size name in
      same_out (w_data w) d' T /\ (bytes (w_data w) -> bytes d') /\ (storable_rname name -> kept_name d' T base name w1).
  Proof.
    intros V L Ht Hl. destruct name as [s|id]; cbn [rname_size write_rname] in *.
    - pose proof (zlen_nonneg s) as Zs.
      destruct (same_out_wr (w_data w) (w_text w) (le 2 (u16 (zlen s))) ltac:(lia) ltac:(rewrite zlen_le; lia)) as (d1 & -> & S1 & H1 & B1). rewrite zlen_le in S1. cbn [bind].
      assert (Ln : zlen (name_bytes (s ++ [0])) = 2 * zlen s + 2) by (rewrite zlen_name_bytes, zlen_app; change (zlen [0]) with 1; lia).
      rewrite (u32_small (w_text w + 2)) by lia.
      destruct (same_out_wr d1 (w_text w + 2) (name_bytes (s ++ [0])) ltac:(lia) ltac:(rewrite (proj1 S1), Ln; lia)) as (d2 & -> & S2 & H2 & B2). rewrite Ln in S2. cbn [bind].
      rewrite (u32_small (w_text w - base)) by lia. rewrite lor31 by lia. rewrite (u32_small (zlen s * 2 + 2)) by lia. rewrite u32_small by lia.
      exists (2^31 + (w_text w - base)), d2. split; [do 3 f_equal; lia|]. split; [unfold is_u32; lia|]. cbv zeta.
      split; [apply (same_out_trans _ _ _ _ _ _ S1 S2); cbv beta; lia|]. split; [intros Bd; apply B2; [apply B1; [exact Bd|apply bytes_le]|apply bytes_name_bytes]|].
      cbn [storable_rname]. intros Sn. exists (w_text w - base). split; [reflexivity|]. split; [lia|]. replace (base + (w_text w - base)) with (w_text w) by lia.
      split; [|intros k Hk; rewrite zlen_app, zlen_le, Ln in Hk; lia]. apply holds_app. rewrite zlen_le. split; [|exact H2].
      replace (u16 (zlen s)) with (zlen s) in H1 by (unfold u16; rewrite Z.mod_small; lia). 
      assert (K : held d1 (fun k => w_text w <= k < w_text w + 2) (w_text w) (le 2 (zlen s))) by (split; [exact H1|intros k Hk; rewrite zlen_le in Hk; lia]).
      apply (held_move _ _ _ _ (fun _ => True) _ _ K S2). cbv beta. lia.
    - exists id, (w_data w). replace (w_text w + 0) with (w_text w) by lia. destruct w as [wd ws wp wt]; cbn [w_data w_struct w_pos w_text]. split; [reflexivity|]. split; [exact V|]. cbv zeta. split; [apply same_out_refl|]. split; [tauto|]. reflexivity.
  Qed.
  Lemma write_rdata_ok data cp w : bytes data -> is_u32 cp -> zlen (w_data w) = N -> base <= w_pos w -> ceil_mult (w_pos w) 4 + 16 + zlen data <= N ->
    let pos := ceil_mult (w_pos w) 4 in
    exists d', write_rdata s1 base data cp w = Ok (pos - base, mk_rout d' (w_struct w) (pos + 16 + zlen data) (w_text w)) /\
      let T := fun k => w_pos w <= k < pos + 16 + zlen data in
      same_out (w_data w) d' T /\ (bytes (w_data w) -> bytes d') /\ 0 <= pos - base < 2^31 /\
      held d' T pos (enc_fields [4; 4; 4; 4]%nat [s_va s1 + (pos + 16); zlen data; cp; 0]) /\ held d' T (pos + 16) data.
  Proof.
    intros Bd Hc L Ht Hl pos. pose proof (zlen_nonneg data) as Zd. pose proof (ceil_mult_least (w_pos w) 4 ltac:(lia)) as Cm. fold pos in Cm, Hl.
    unfold write_rdata. rewrite align4 by (fold pos; lia). fold pos. rewrite (u32_small (pos + 16)) by lia. rewrite (u32_small (zlen data)) by lia.
    unfold rva_from_section_offset. rewrite (u32_small (s_va s1 + (pos + 16))) by lia.
    set (e := enc_fields [4; 4; 4; 4]%nat [s_va s1 + (pos + 16); zlen data; cp; 0]). assert (Le : zlen e = 16) by (unfold e; apply enc_fields_length; reflexivity).
    destruct (same_out_wr (w_data w) pos e ltac:(lia) ltac:(lia)) as (d1 & -> & S1 & H1 & B1). rewrite Le in S1. cbn [bind].
    assert (ztake (zlen data) data = data) as -> by (apply ztake_full; lia).
    destruct (same_out_wr d1 (pos + 16) data ltac:(lia) ltac:(rewrite (proj1 S1); lia)) as (d2 & -> & S2 & H2 & B2). cbn [bind].
    rewrite (u32_small (pos - base)) by lia. rewrite u32_small by lia. exists d2. split; [reflexivity|]. cbv zeta.
    split; [apply (same_out_trans _ _ _ _ _ _ S1 S2); cbv beta; lia|]. split; [intros Bw; apply B2; [apply B1; [exact Bw|apply bytes_enc_fields]|exact Bd]|]. split; [lia|]. split.
    - assert (K : held d1 (fun k => pos <= k < pos + 16) pos e) by (split; [exact H1|intros k Hk; lia]). apply (held_move _ _ _ _ _ _ _ K S2). cbv beta. lia.
    - split; [exact H2|]. lia.
  Qed.
  Definition write_list := fix go (l : list rentry) (this : Z) (w : rout) : res rout :=
    match l with
    | [] => Ok w
    | (name, c) :: t =>
        ' (w1, wa) <- write_rname base name w ;;
        match c with
        | RData data codepage =>
            ' (w2, wb) <- write_rdata s1 base data codepage wa ;;
            d <- wr (w_data wb) this (le 4 w1 ++ le 4 w2) ;;
            go t (u32 (this + 8)) (mk_rout d (w_struct wb) (w_pos wb) (w_text wb))
        | _ =>
            d <- wr (w_data wa) this (le 4 w1 ++ le 4 (Z.lor (2^31) (u32 (w_struct wa - base)))) ;;
            wb <- write_rdir s1 base c (mk_rout d (w_struct wa) (w_pos wa) (w_text wa)) ;;
            go t (u32 (this + 8)) wb
        end
    end.
  Lemma write_dir h l w : write_rdir s1 base (RDir h l) w =
    (d1 <- wr (w_data w) (w_struct w) (enc_fields rdir_widths [r_chars h; r_time h; r_major h; r_minor h; u16 (count_named l); u16 (count_ids l)]) ;;
     let this := u32 (w_struct w + 16) in
     write_list l this (mk_rout d1 (u32 (this + 8 * (u16 (count_named l) + u16 (count_ids l)))) (w_pos w) (w_text w))).
  Proof. reflexivity. Qed.
  (** The bytes that writing changes. *)
  Definition ranges (tables texts data_ : Z) (w : rout) (k : Z) : Prop :=
    w_struct w <= k < w_struct w + tables \/ w_text w <= k < w_text w + texts \/ w_pos w <= k < data_.
  Definition fits_in (tables texts data_ : Z) (w : rout) : Prop :=
    zlen (w_data w) = N /\ base <= w_struct w /\ w_struct w + tables <= A /\ A <= w_text w /\ w_text w + texts <= B /\ B <= w_pos w /\ data_ <= N.
  Definition node_ok (n : rnode) : Prop := forall w, fits_in (table_size n) (text_size n) (data_end n (w_pos w)) w ->
    exists w', write_rdir s1 base n w = Ok w' /\ let T := ranges (table_size n) (text_size n) (data_end n (w_pos w)) w in
      same_out (w_data w) (w_data w') T /\ (bytes (w_data w) -> bytes (w_data w')) /\
      w_struct w <= w_struct w' <= w_struct w + table_size n /\ w_text w' = w_text w + text_size n /\ w_pos w' = data_end n (w_pos w) /\
      (storable_tree n -> w_struct w' = w_struct w + table_size n /\ kept (w_data w') T (s_va s1) base n (w_struct w - base) (w_struct w' - base)).
  Definition tables_of (l : list rentry) : Z := total (fun e => table_size (snd e)) l.
  Definition texts_of (l : list rentry) : Z := total (fun e => rname_size (fst e) + text_size (snd e)) l.
  Definition data_of (l : list rentry) (pos : Z) : Z := fold_left (fun q (e : rentry) => data_end (snd e) q) l pos.
  Lemma tables_of_nonneg l : 0 <= tables_of l.
  Proof. apply total_nonneg, Forall_forall. intros x _. apply table_size_nonneg. Qed.
  Lemma texts_of_nonneg l : 0 <= texts_of l.
  Proof. apply total_nonneg, Forall_forall. intros x _. pose proof (text_size_nonneg (snd x)). pose proof (rname_size_nonneg (fst x)). lia. Qed.
  Lemma list_ok l : Forall (fun e => valid_rname (fst e) /\ valid_tree (snd e)) l -> Forall (fun e => is_dir (snd e) -> node_ok (snd e)) l ->
    forall this w, base <= this -> this + 8 * zlen l <= A -> fits_in (tables_of l) (texts_of l) (data_of l (w_pos w)) w ->
    exists w', write_list l this w = Ok w' /\ let T := fun k => this <= k < this + 8 * zlen l \/ ranges (tables_of l) (texts_of l) (data_of l (w_pos w)) w k in
      same_out (w_data w) (w_data w') T /\ (bytes (w_data w) -> bytes (w_data w')) /\
      w_struct w <= w_struct w' <= w_struct w + tables_of l /\ w_text w' = w_text w + texts_of l /\ w_pos w' = data_of l (w_pos w) /\
      (Forall (fun e => storable_rname (fst e) /\ storable_tree (snd e)) l -> this + 8 * zlen l <= w_struct w ->
       w_struct w' = w_struct w + tables_of l /\ kept_list (w_data w') T (s_va s1) base (w_struct w' - base) l (this - base) (w_struct w - base)).
  Proof.
    induction l as [|[nm c] l IH]; intros V F this w Hthis Hend Hf.
    - exists w. split; [reflexivity|]. cbv zeta. split; [apply same_out_refl|]. split; [tauto|]. change (tables_of []) with 0. change (texts_of []) with 0. cbn [data_of fold_left]. split; [lia|]. split; [lia|]. split; [reflexivity|]. intros _ _. split; [lia|]. reflexivity.
    - apply Forall_cons_iff in V as [[Vn Vc] V]. apply Forall_cons_iff in F as [Fc F]. cbn [fst snd] in *. specialize (IH V F).
      change (data_of ((nm, c) :: l) (w_pos w)) with (data_of l (data_end c (w_pos w))) in *.
      change (tables_of ((nm, c) :: l)) with (table_size c + tables_of l) in *. change (texts_of ((nm, c) :: l)) with (rname_size nm + text_size c + texts_of l) in *.
      pose proof (tables_of_nonneg l) as Z1. pose proof (texts_of_nonneg l) as Z2. pose proof (table_size_nonneg c) as Z3. pose proof (text_size_nonneg c) as Z4. pose proof (rname_size_nonneg nm) as Z5.
      pose proof (fold_data_ge l (data_end c (w_pos w))) as Z6. fold (data_of l (data_end c (w_pos w))) in Z6. pose proof (data_end_ge c (w_pos w)) as Z7. rewrite zlen_cons in *. pose proof (zlen_nonneg l) as Z8.
      destruct Hf as (Ld & F1 & F2 & F3 & F4 & F5 & F6). cbn [write_list].
      destruct (write_rname_ok nm w Vn Ld ltac:(lia) ltac:(lia)) as (w1 & d1 & -> & U1 & S1 & B1 & K1). cbn [bind].
      destruct c as [|data cp|h2 l2]; [destruct Vc| |].
      + cbn [data_end table_size text_size] in *. set (wa := mk_rout d1 (w_struct w) (w_pos w) (w_text w + rname_size nm)).
        destruct Vc as [Bd Cd]. set (pos := ceil_mult (w_pos w) 4) in *. pose proof (zlen_nonneg data) as Z9. pose proof (ceil_mult_least (w_pos w) 4 ltac:(lia)) as Cm. fold pos in Cm.
        destruct (write_rdata_ok data cp wa Bd Cd ltac:(cbn [wa w_data]; rewrite (proj1 S1); exact Ld) ltac:(cbn [wa w_pos]; lia) ltac:(cbn [wa w_pos]; fold pos; lia)) as (d2 & E2 & S2 & B2 & P2 & H2a & H2b).
        cbn [wa w_pos w_struct w_text w_data] in E2, S2, B2, P2, H2a, H2b. fold pos in E2, S2, B2, P2, H2a, H2b. rewrite E2. cbn [bind w_data w_struct w_pos w_text]. clear E2.
        assert (L2 : zlen d2 = N) by (rewrite (proj1 S2), (proj1 S1); exact Ld).
        assert (Le : zlen (le 4 w1 ++ le 4 (pos - base)) = 8) by (rewrite zlen_app, !zlen_le; reflexivity).
        destruct (same_out_wr d2 this (le 4 w1 ++ le 4 (pos - base)) ltac:(lia) ltac:(lia)) as (d3 & -> & S3 & H3 & B3). rewrite Le in S3. cbn [bind]. rewrite (u32_small (this + 8)) by lia.
        set (w3 := mk_rout d3 (w_struct w) (pos + 16 + zlen data) (w_text w + rname_size nm)).
        destruct (IH (this + 8) w3 ltac:(lia) ltac:(lia)) as (w' & E' & S' & B' & R1 & R2 & R3 & K').
        { unfold fits_in, w3; cbn [w_data w_struct w_pos w_text]. split; [rewrite (proj1 S3); exact L2|]. lia. }
        cbn [w3 w_data w_struct w_pos w_text] in *. exists w'. split; [exact E'|]. cbv zeta.
        assert (S03 : same_out (w_data w) d3 (fun k => this <= k < this + 8 \/ w_text w <= k < w_text w + rname_size nm \/ w_pos w <= k < pos + 16 + zlen data)).
        { apply (same_out_trans _ _ _ _ _ _ S1 (same_out_trans _ _ _ _ _ (fun k => this <= k < this + 8 \/ w_text w <= k < w_text w + rname_size nm \/ w_pos w <= k < pos + 16 + zlen data) S2 S3 ltac:(cbv beta; lia) ltac:(cbv beta; lia))); cbv beta; lia. }
        split; [apply (same_out_trans _ _ _ _ _ _ S03 S'); cbv beta; unfold ranges, w3; cbn [w_data w_struct w_pos w_text]; lia|].
        split; [intros Bw; apply B', B3; [apply B2, B1, Bw|apply bytes_app; split; apply bytes_le]|]. split; [lia|]. split; [lia|]. split; [exact R3|].
        intros St Hsep. apply Forall_cons_iff in St as [[Sn Sc] St]. cbn [fst snd] in *. destruct (K' St ltac:(lia)) as [R4 K4]. split; [lia|]. cbn [kept_list].
        exists w1, (pos - base), (w_struct w - base). split; [exact U1|]. split; [unfold is_u32; lia|]. replace (base + (this - base)) with this by lia. replace (base + (pos - base)) with pos by lia.
        split; [|split; [|split; [split; [lia|split; [lia|]]|]]].
        * assert (Hh : held d3 (fun k => this <= k < this + 8) this (le 4 w1 ++ le 4 (pos - base))) by (split; [exact H3|rewrite Le; tauto]).
          apply (held_move _ _ _ _ _ _ _ Hh S'). unfold ranges, w3; cbn [w_data w_struct w_pos w_text]. cbv beta. lia.
        * apply (kept_name_move d3 _ _ (fun k => w_text w <= k < w_text w + rname_size nm) _ _ _ _) with (2 := S'); [|unfold ranges, w3; cbn [w_data w_struct w_pos w_text]; cbv beta; lia].
          apply (kept_name_move d2 _ _ (fun k => w_text w <= k < w_text w + rname_size nm) _ _ _ _) with (2 := S3); [|cbv beta; lia].
          apply (kept_name_move d1 _ _ _ _ _ _ _ (K1 Sn) S2). cbv beta. lia.
        * exists (pos + 16). split; [lia|]. split.
          -- apply (held_move d3 _ _ (fun k => w_pos w <= k < pos + 16 + zlen data) _ _ _) with (2 := S'); [|unfold ranges, w3; cbn [w_data w_struct w_pos w_text]; cbv beta; lia].
             apply (held_move d2 _ _ _ _ _ _ H2a S3). cbv beta. lia.
          -- apply (held_move d3 _ _ (fun k => w_pos w <= k < pos + 16 + zlen data) _ _ _) with (2 := S'); [|unfold ranges, w3; cbn [w_data w_struct w_pos w_text]; cbv beta; lia].
             apply (held_move d2 _ _ _ _ _ _ H2b S3). cbv beta. lia.
        * replace (this - base + 8) with (this + 8 - base) by lia. apply (kept_list_move _ _ _ _ _ _ _ _ (same_out_refl _ (fun _ => False))) with (2 := K4). unfold ranges, w3; cbn [w_data w_struct w_pos w_text]; cbv beta; lia.
      + specialize (Fc I). cbn [w_data w_struct w_pos w_text].
        assert (T16 : 16 <= table_size (RDir h2 l2)).
        { cbn [table_size]. assert (0 <= total (fun e : rname * rnode => 8 + table_size (snd e)) l2); [|lia]. apply total_nonneg, Forall_forall. intros x _. pose proof (table_size_nonneg (snd x)). lia. }
        set (c := RDir h2 l2) in *. clearbody c. rewrite (u32_small (w_struct w - base)) by lia. rewrite lor31 by lia. set (w2 := 2^31 + (w_struct w - base)).
        assert (Le : zlen (le 4 w1 ++ le 4 w2) = 8) by (rewrite zlen_app, !zlen_le; reflexivity). assert (L1 : zlen d1 = N) by (rewrite (proj1 S1); exact Ld).
        destruct (same_out_wr d1 this (le 4 w1 ++ le 4 w2) ltac:(lia) ltac:(lia)) as (d2 & -> & S2 & H2 & B2). rewrite Le in S2. cbn [bind].
        assert (L2 : zlen d2 = N) by (rewrite (proj1 S2); exact L1).
        set (wb0 := mk_rout d2 (w_struct w) (w_pos w) (w_text w + rname_size nm)).
        destruct (Fc wb0) as (wb & Eb & Sb & Bb & P1 & P2 & P3 & Kb); [unfold fits_in, wb0; cbn [w_data w_struct w_pos w_text]; lia|].
        rewrite Eb. cbn [bind wb0 w_data w_struct w_pos w_text] in *. rewrite (u32_small (this + 8)) by lia.
        destruct (IH (this + 8) wb ltac:(lia) ltac:(lia)) as (w' & E' & S' & B' & R1 & R2 & R3 & K').
        { unfold fits_in. split; [rewrite (proj1 Sb); exact L2|]. rewrite P2, P3. lia. }
        rewrite P3 in *. exists w'. split; [exact E'|]. cbv zeta.
        assert (Sb0 : same_out (w_data w) (w_data wb) (fun k => this <= k < this + 8 \/ ranges (table_size c) (rname_size nm + text_size c) (data_end c (w_pos w)) w k)).
        { refine (same_out_trans _ _ _ _ _ _ S1 (same_out_trans _ _ _ _ _ (fun k => this <= k < this + 8 \/ ranges (table_size c) (rname_size nm + text_size c) (data_end c (w_pos w)) w k) S2 Sb _ _) _ _); cbv beta; unfold ranges, wb0; cbn [w_data w_struct w_pos w_text]; lia. }
        split; [apply (same_out_trans _ _ _ _ _ _ Sb0 S'); cbv beta; unfold ranges; rewrite ?P2, ?P3; lia|].
        split; [intros Bw; apply B', Bb, B2; [apply B1, Bw|apply bytes_app; split; apply bytes_le]|]. split; [lia|]. split; [lia|]. split; [exact R3|].
        intros St Hsep. apply Forall_cons_iff in St as [[Sn Sc] St]. cbn [fst snd] in *. destruct (Kb Sc) as [P4 K5]. destruct (K' St ltac:(lia)) as [R4 K4]. split; [lia|]. cbn [kept_list].
        exists w1, w2, (w_struct wb - base). split; [exact U1|]. split; [unfold is_u32, w2; lia|]. replace (base + (this - base)) with this by lia.
        split; [|split; [|split]].
        * apply (held_move (w_data wb) _ _ (fun k => this <= k < this + 8) _ _ _) with (2 := S'); [|unfold ranges; rewrite ?P2, ?P3, ?P4; cbv beta; lia].
          assert (Hh : held d2 (fun k => this <= k < this + 8) this (le 4 w1 ++ le 4 w2)) by (split; [exact H2|rewrite Le; tauto]).
          apply (held_move _ _ _ _ _ _ _ Hh Sb). unfold ranges, wb0; cbn [w_data w_struct w_pos w_text]; cbv beta; lia.
        * apply (kept_name_move (w_data wb) _ _ (fun k => w_text w <= k < w_text w + rname_size nm) _ _ _ _) with (2 := S'); [|unfold ranges; rewrite ?P2, ?P3, ?P4; cbv beta; lia].
          apply (kept_name_move d2 _ _ (fun k => w_text w <= k < w_text w + rname_size nm) _ _ _ _) with (2 := Sb); [|unfold ranges, wb0; cbn [w_data w_struct w_pos w_text]; cbv beta; lia].
          apply (kept_name_move d1 _ _ _ _ _ _ _ (K1 Sn) S2). cbv beta. lia.
        * assert (Kc : kept (w_data w') (fun k => this <= k < this + 8 * (1 + zlen l) \/ ranges (table_size c + tables_of l) (rname_size nm + text_size c + texts_of l) (data_of l (data_end c (w_pos w))) w k) (s_va s1) base c (w_struct w - base) (w_struct wb - base)).
          { apply (kept_move _ _ _ _ _ _ _ S') with (2 := K5). unfold ranges, wb0; cbn [w_data w_struct w_pos w_text]; rewrite ?P2, ?P3, ?P4; cbv beta; lia. }
          destruct c; [destruct Kc|destruct Kc|]. split; [reflexivity|]. split; [lia|]. exact Kc.
        * replace (this - base + 8) with (this + 8 - base) by lia. apply (kept_list_move _ _ _ _ _ _ _ _ (same_out_refl _ (fun _ => False))) with (2 := K4). unfold ranges; rewrite ?P2, ?P3, ?P4; cbv beta; lia.
  Qed.
  Lemma counts l : count_named l + count_ids l = zlen l.
  Proof.
    unfold count_named, count_ids. induction l as [|x l IH]; [reflexivity|]. cbn [filter]. destruct (is_named x); cbn [negb]; rewrite !zlen_cons; lia.
  Qed.
  Lemma table_dir h l : table_size (RDir h l) = 16 + 8 * zlen l + tables_of l.
  Proof.
    cbn [table_size]. enough (total (fun e : rname * rnode => 8 + table_size (snd e)) l = 8 * zlen l + tables_of l) by lia.
    induction l as [|x l IH]; [reflexivity|]. change (8 + table_size (snd x) + total (fun e : rname * rnode => 8 + table_size (snd e)) l = 8 * zlen (x :: l) + (table_size (snd x) + tables_of l)).
    rewrite zlen_cons, IH. lia.
  Qed.
  Lemma nodes_ok n : valid_tree n -> is_dir n -> node_ok n.
  Proof.
    induction n as [|x c|h l F] using rnode_ind2; intros V D; try contradiction D. apply valid_dir in V as (V1 & V2 & V3 & V4 & V).
    assert (Fo : Forall (fun e => is_dir (snd e) -> node_ok (snd e)) l).
    { rewrite Forall_forall in *. intros e He De. apply F; [exact He|apply V; exact He|exact De]. }
    intros w Hf. rewrite table_dir in *. change (text_size (RDir h l)) with (texts_of l) in *. change (data_end (RDir h l) (w_pos w)) with (data_of l (w_pos w)) in *.
    destruct Hf as (Ld & F1 & F2 & F3 & F4 & F5 & F6). pose proof (tables_of_nonneg l) as Z1. pose proof (texts_of_nonneg l) as Z2. pose proof (zlen_nonneg l) as Z3. pose proof (counts l) as Cn.
    pose proof (zlen_nonneg (filter is_named l)) as N1. fold (count_named l) in N1. pose proof (zlen_nonneg (filter (fun e => negb (is_named e)) l)) as N2. fold (count_ids l) in N2.
    assert (U1 : 0 <= u16 (count_named l) <= count_named l) by (unfold u16; lia). assert (U2 : 0 <= u16 (count_ids l) <= count_ids l) by (unfold u16; lia).
    pose proof (fold_data_ge l (w_pos w)) as Z6. fold (data_of l (w_pos w)) in Z6.
    rewrite write_dir. set (e := enc_fields rdir_widths [r_chars h; r_time h; r_major h; r_minor h; u16 (count_named l); u16 (count_ids l)]).
    assert (Le : zlen e = 16) by (unfold e; apply enc_fields_length; reflexivity).
    destruct (same_out_wr (w_data w) (w_struct w) e ltac:(lia) ltac:(lia)) as (d1 & -> & S1 & H1 & B1). rewrite Le in S1. cbn [bind]. cbv zeta.
    rewrite (u32_small (w_struct w + 16)) by lia. set (st := u16 (count_named l) + u16 (count_ids l)) in *. rewrite (u32_small (w_struct w + 16 + 8 * st)) by (subst st; lia).
    set (w1 := mk_rout d1 (w_struct w + 16 + 8 * st) (w_pos w) (w_text w)).
    destruct (list_ok l V Fo (w_struct w + 16) w1 ltac:(lia) ltac:(lia)) as (w' & -> & S' & B' & R1 & R2 & R3 & K').
    { unfold fits_in, w1; cbn [w_data w_struct w_pos w_text]. split; [rewrite (proj1 S1); exact Ld|]. subst st. lia. }
    cbn [w1 w_data w_struct w_pos w_text] in *. exists w'. split; [reflexivity|].
    split; [apply (same_out_trans _ _ _ _ _ _ S1 S'); cbv beta; unfold ranges, w1; cbn [w_data w_struct w_pos w_text]; subst st; lia|].
    split; [intros Bd; apply B', B1; [exact Bd|apply bytes_enc_fields]|]. split; [subst st; lia|]. split; [exact R2|]. split; [exact R3|].
    intros St. apply storable_dir in St as (C1 & C2 & _ & St). assert (Est : st = zlen l) by (subst st; unfold u16; rewrite !Z.mod_small; lia).
    destruct (K' St ltac:(lia)) as [R4 K4]. split; [lia|]. apply kept_dir. split.
    - replace (base + (w_struct w - base)) with (w_struct w) by lia.
      assert (Ee : e = enc_fields rdir_widths [r_chars h; r_time h; r_major h; r_minor h; count_named l; count_ids l]) by (unfold e, u16; rewrite !Z.mod_small by lia; reflexivity).
      rewrite <- Ee. assert (Hh : held d1 (fun k => w_struct w <= k < w_struct w + 16) (w_struct w) e) by (split; [exact H1|rewrite Le; tauto]).
      apply (held_move _ _ _ _ _ _ _ Hh S'). unfold ranges, w1; cbn [w_data w_struct w_pos w_text]; cbv beta. lia.
    - replace (w_struct w - base + 16 + 8 * zlen l) with (w_struct w + 16 + 8 * st - base) by lia. replace (w_struct w - base + 16) with (w_struct w + 16 - base) by lia.
      apply (kept_list_move _ _ _ _ _ _ _ _ (same_out_refl _ (fun _ => False))) with (2 := K4). unfold ranges, w1; cbn [w_data w_struct w_pos w_text]; cbv beta; lia.
  Qed.
End Write.
