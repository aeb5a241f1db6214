(** Images used by the Example of PropHistory: the sample image after each edit. *)
From Verif Require Export HistoryFacts SamplesKeep.

Definition roomy (p : pe) (i : nat) (n : Z) : bool :=
  match nth_error (p_sections p) i with
  | Some s => (0 <=? n) && (n <=? 2^31) && (0 <? s_va s) && (zlen (p_full p) <=? s_va s) && (zlen (raw_view s) <=? 2^31) &&
      if Nat.eqb (S i) (length (p_sections p)) then s_va s + ceil_mult n (salign p) <? 2^32
      else (0 <? zlen (raw_view s)) && (n <=? ceil_mult (s_rawsize s) (falign p)) && (ceil_mult (s_rawsize s) (falign p) <=? 2^31) && (ceil_mult (s_rawsize s) (falign p) <=? span (salign p) s)
  | None => false
  end.
Lemma roomy_room a p i n : editable a p -> roomy p i n = true -> exists start, room p start i n.
Proof.
  intros Ed H. destruct (editable_image a p Ed) as (start & IO). exists start. unfold roomy in H. destruct (nth_error (p_sections p) i) as [s|] eqn:Hs; [|discriminate H].
  pose proof Ed as (_ & _ & R & _). destruct (R i s Hs) as (_ & V & _ & Z & _). apply andb_true_iff in H as [H1 H2]. split; [exact IO|]. split; [lia|]. exists s. split; [exact Hs|]. do 4 (split; [lia|]).
  destruct (Nat.eqb (S i) (length (p_sections p))); [lia|]. split; [|lia]. intros X. rewrite X in H2. discriminate H2.
Qed.
Definition history_edits : list edit := [Exports C32_info C32_l 1 2 false; Imports C36_libs 1 (mk_settings 128 true false false true true false false); Resources res_tree 1 0x101 false; Relocations C28_tables 0 5 false].
Definition edited (p : pe) (n : nat) : pe := match nth_error history_edits n with Some e => result p (apply_edit p e) | None => p end.
Definition history1 : pe := edited sample_pe 0.
Definition history2 : pe := edited history1 1.
Definition history3 : pe := edited history2 2.
Lemma next_is p n e q : nth_error history_edits n = Some e -> apply_edit p e = Ok q -> q = edited p n.
Proof. intros H E. unfold edited. rewrite H, E. reflexivity. Qed.
Lemma next_editable a p n e : nth_error history_edits n = Some e -> editable a p -> admissible p e -> editable a (edited p n).
Proof. intros H Ed Ad. destruct (one_edit a p e Ed Ad) as (q & E & Eq & _). rewrite <- (next_is p n e q H E). exact Eq. Qed.
Lemma history_first : admissible sample_pe (Exports C32_info C32_l 1 2 false).
Proof.
  destruct C32_case as (A & B & C & D & E & F & _ & H & Hs & J & K & M). cbn [admissible]. do 5 (split; [assumption|]). split; [exists 0x1000; exact F|]. split; [exact H|].
  split; [exists sample_data; split; assumption|]. split; [exact K|left; exact M].
Qed.
Lemma editable1 : editable 0x200 history1.
Proof. exact (next_editable _ _ 0 _ eq_refl sample_editable history_first). Qed.
Lemma history_second : admissible history1 (Imports C36_libs 1 (mk_settings 128 true false false true true false false)).
Proof.
  cbn [admissible]. split; [cbn; lia|]. split; [repeat constructor|]. split; [exact C36_valid|]. split; [apply (roomy_room 0x200); [exact editable1|vm_compute; reflexivity]|].
  split; [split; vm_compute; congruence|]. split; [intros _; vm_compute; reflexivity|]. split; [reflexivity|].
  split.
  - assert (X : match nth_error (p_sections history1) 1 with Some s => s_va s + (128 + total library_text_size C36_libs) <? 2^31 | None => false end = true) by (vm_compute; reflexivity).
    destruct (nth_error (p_sections history1) 1) as [s|]; [|discriminate X]. exists s. split; [reflexivity|]. cbn [o_offset]. lia.
  - assert (Wz : word_size history1 = 4%nat) by (vm_compute; reflexivity). assert (Rc : Forall (recoverable sample_pe 1 (C36_set true)) C36_libs) by apply C36_case.
    revert Rc. apply Forall_impl. intros l [R1 R2]. split; [exact R1|]. change (stays (C36_set true) l) with false in R2. change (stays _ l) with false. cbv iota in *. rewrite Wz. exact R2.
Qed.
Lemma editable2 : editable 0x200 history2.
Proof. exact (next_editable _ _ 1 _ eq_refl editable1 history_second). Qed.
Lemma history_third : admissible history2 (Resources res_tree 1 0x101 false).
Proof.
  cbn [admissible]. split; [lia|]. split; [exact res_tree_valid|]. split; [exact res_tree_storable|]. split; [exact Logic.I|]. split; [right; exact res_tree_even|].
  split; [apply (roomy_room 0x200); [exact editable2|vm_compute; reflexivity]|split; vm_compute; congruence].
Qed.
Lemma editable3 : editable 0x200 history3.
Proof. exact (next_editable _ _ 2 _ eq_refl editable2 history_third). Qed.
Lemma history_fourth : admissible history3 (Relocations C28_tables 0 5 false).
Proof.
  destruct C28_case as (A & B & C & _). cbn [admissible]. do 3 (split; [assumption|]). split; [apply (roomy_room 0x200); [exact editable3|vm_compute; reflexivity]|split; vm_compute; congruence].
Qed.
Ltac spare := split; [intros id X Y; vm_compute in X; vm_compute in Y; repeat match goal with H : _ \/ _ |- _ => destruct H | H : False |- _ => contradiction H end; subst id; congruence|].
Lemma history_allowed : allowed sample_pe history_edits.
Proof.
  split; [exact history_first|]. split.
  { repeat apply Forall_cons; [..|apply Forall_nil].
    - spare. right. intros k. cbn [first_byte table_stop overwrites o_offset]. assert (ceil_mult 2 4 + export_size (xi_name C32_info) C32_l = 102) as -> by (vm_compute; reflexivity). lia.
    - spare. right. intros k. cbn [first_byte table_stop overwrites]. assert (ceil_mult 2 4 + export_size (xi_name C32_info) C32_l = 102) as -> by (vm_compute; reflexivity). change (ceil_mult 0x101 4) with 260. lia.
    - spare. left. discriminate. }
  intros q E. assert (Q : q = history1) by exact (next_is sample_pe 0 _ q eq_refl E). rewrite Q. clear q E Q.
  split; [exact history_second|]. split.
  { repeat apply Forall_cons; [..|apply Forall_nil].
    - spare. right. intros k. cbn [first_byte table_stop overwrites o_offset]. assert (import_size history1 C36_libs (mk_settings 128 true false false true true false false) = 119) as -> by (vm_compute; reflexivity). change (ceil_mult 0x101 4) with 260. lia.
    - spare. left. discriminate. }
  intros q E. assert (Q : q = history2) by exact (next_is history1 1 _ q eq_refl E). rewrite Q. clear q E Q.
  split; [exact history_third|]. split.
  { repeat apply Forall_cons; [..|apply Forall_nil]. spare. left. discriminate. }
  intros q E. assert (Q : q = history3) by exact (next_is history2 2 _ q eq_refl E). rewrite Q. clear q E Q.
  split; [exact history_fourth|]. split; [apply Forall_nil|]. intros q _. exact Logic.I.
Qed.

(** ** Exports that the imports cut off *)
Definition cut_exports : edit := Exports C32_info C32_l 1 0x200 false.
Definition cut_imports : edit := Imports C36_libs 1 (C36_set true).
Definition cut1 : pe := result sample_pe (apply_edit sample_pe cut_exports).
Lemma cut_plain : Forall (plain_export (0x2000 + 0x200) (export_size [97; 46; 100] C32_l)) C32_l.
Proof.
  set (n := export_size _ _). vm_compute in n. subst n.
  repeat constructor; cbn [e_name e_fwd e_ordinal e_rva In]; try (intros; intuition congruence); try (intros; lia); match goal with H : e_fwd _ = [] |- _ => discriminate H end.
Qed.
Lemma cut_first : admissible sample_pe cut_exports.
Proof.
  destruct C32_case as (_ & B & C & D & E & _ & _ & H & Hs & _ & K & M). unfold cut_exports. cbn [admissible]. split; [lia|]. do 4 (split; [assumption|]).
  split; [apply (roomy_room 0x200); [exact sample_editable|vm_compute; reflexivity]|]. split; [exact H|].
  split; [|split; [exact K|left; exact M]]. exists sample_data. split; [exact Hs|exact cut_plain].
Qed.
Lemma single n p e : editable n p -> 0 < nrva p -> admissible p e -> exists q, apply_edit p e = Ok q /\ editable n q /\ (headers_below q -> reads_back p q e).
Proof.
  intros A B Ad. assert (Al : allowed p [e]) by (cbn [allowed]; split; [exact Ad|split; [apply Forall_nil|intros; exact Logic.I]]).
  destruct (history n p [e] A B Al) as (q & E & Eq & Rd & _). exists q.
  split; [|split; [exact Eq|intros Hb; exact (Forall_inv (Rd Hb))]]. cbn [apply_edits] in E. destruct (apply_edit p e); [exact E|discriminate E..].
Qed.
Lemma cut_made : exists q, apply_edit sample_pe cut_exports = Ok q /\ editable 0x200 q /\ (headers_below q -> reads_back sample_pe q cut_exports).
Proof. apply single; [exact sample_editable|vm_compute; reflexivity|exact cut_first]. Qed.
Lemma cut1_is : apply_edit sample_pe cut_exports = Ok cut1 /\ editable 0x200 cut1 /\ (headers_below cut1 -> reads_back sample_pe cut1 cut_exports).
Proof. destruct cut_made as (q & E & F & G). unfold cut1. rewrite E. cbn [result]. split; [reflexivity|]. split; assumption. Qed.
Lemma cut_second : admissible cut1 cut_imports.
Proof.
  unfold cut_imports. cbn [admissible]. split; [cbn; lia|]. split; [repeat constructor|]. split; [exact C36_valid|]. split; [apply (roomy_room 0x200); [apply cut1_is|vm_compute; reflexivity]|].
  split; [split; vm_compute; congruence|]. split; [intros _; vm_compute; reflexivity|]. split; [reflexivity|]. split.
  - assert (X : match nth_error (p_sections cut1) 1 with Some s => s_va s + (3 + total library_text_size C36_libs) <? 2^31 | None => false end = true) by (vm_compute; reflexivity).
    destruct (nth_error (p_sections cut1) 1) as [s|]; [|discriminate X]. exists s. split; [reflexivity|]. cbn [o_offset C36_set]. lia.
  - assert (Wz : word_size cut1 = 4%nat) by (vm_compute; reflexivity). assert (Rc : Forall (recoverable sample_pe 1 (C36_set true)) C36_libs) by apply C36_case.
    revert Rc. apply Forall_impl. intros l [R1 R2]. split; [exact R1|]. change (stays (C36_set true) l) with false in *. cbv iota in *. rewrite Wz. exact R2.
Qed.
Lemma cut_below : headers_below cut1.
Proof.
  unfold headers_below. apply Forall_forall. intros s Hs. assert (X : forallb (fun s => zlen (p_full cut1) <=? s_va s) (p_sections cut1) = true) by (vm_compute; reflexivity).
  rewrite forallb_forall in X. specialize (X s Hs). lia.
Qed.
Lemma cut_lost : exists r x, apply_edit cut1 cut_imports = Ok r /\ get_exports r true = Ok (x, []).
Proof.
  assert (M : match apply_edit cut1 cut_imports with Ok r => match get_exports r true with Ok (_, []) => True | _ => False end | _ => False end) by (vm_compute; exact Logic.I).
  destruct (apply_edit cut1 cut_imports) as [r| | |]; try contradiction M. destruct (get_exports r true) as [[x [|y l]]| | |] eqn:Er; try contradiction M. exists r, x. split; [reflexivity|exact Er].
Qed.
Lemma imports_cut : exists p e f q r, editable 0x200 p /\ admissible p e /\ apply_edit p e = Ok q /\ admissible q f /\ apply_edit q f = Ok r /\ reads_back p q e /\
  (forall id, In id (entries e) -> ~ In id (entries f)) /\ table_stop q f <= first_byte e /\ exists x, get_exports r true = Ok (x, []).
Proof.
  destruct cut1_is as (A & B & C). destruct cut_lost as (r & x & D & E). exists sample_pe, cut_exports, cut_imports, cut1, r.
  split; [exact sample_editable|]. split; [exact cut_first|]. split; [exact A|]. split; [exact cut_second|]. split; [exact D|]. split; [exact (C cut_below)|]. split; [|split; [|exists x; exact E]].
  - intros id X Y. vm_compute in X. vm_compute in Y. lia.
  - vm_compute. congruence.
Qed.

(** ** Tables in new sections *)
(** Raw data that begin four bytes in front of the end of the fourth section's addresses, and two callbacks. *)
Definition new_tls : tls := mk_tls 0x6FFC 0x7004 0x1100 0x5440 5 0x300000 [1; 2; 3; 4; 5; 6; 7; 8] [0x1234; 0x1100].
Definition new_edits : list edit := [NewSection sample_code true; Relocations C28_tables 2 5 false; NewSection sample_data false; Resources res_tree 3 0x101 false; Tls new_tls 3 0x400 0x1FFC 0x440 false].
Definition next (p : pe) (n : nat) : pe := match nth_error new_edits n with Some e => result p (apply_edit p e) | None => p end.
Definition new1 : pe := next sample_pe 0.
Definition new2 : pe := next new1 1.
Definition new3 : pe := next new2 2.
Definition new4 : pe := next new3 3.
Lemma new_is p n e q : nth_error new_edits n = Some e -> apply_edit p e = Ok q -> q = next p n.
Proof. intros H E. unfold next. rewrite H, E. reflexivity. Qed.
Lemma new_editable a p n e : nth_error new_edits n = Some e -> editable a p -> admissible p e -> editable a (next p n).
Proof. intros H Ed Ad. destruct (one_edit a p e Ed Ad) as (q & E & Eq & _). rewrite <- (new_is p n e q H E). exact Eq. Qed.
Definition fitting (p : pe) (s : section) : bool :=
  match p_sections p with
  | x :: _ => (zlen (raw_view s) <=? 2^31) && (s_vsize s <=? 2^31) && negb (zlen (raw_view s) =? 0) && (zlen (p_sections p) <? 0x60) &&
      (chain_end (salign p) (s_va x) (p_sections p) + ceil_mult (Z.max (zlen (raw_view s)) (s_vsize s)) (salign p) <? 2^32) &&
      match nth_error (p_sections p) (length (p_sections p) - 1) with Some t => zlen (raw_view t) <=? s_rawsize t | None => false end
  | [] => false
  end.
Lemma fitting_new a p s auto : editable a p -> wf_section s -> fitting p s = true -> admissible p (NewSection s auto).
Proof.
  intros Ed W H. destruct (editable_image a p Ed) as (start & IO). unfold fitting in H. destruct (p_sections p) as [|x l] eqn:Ep; [discriminate H|]. rewrite <- Ep in *. apply andb_true_iff in H as [H H2].
  assert (Ex : s_va x = start) by (pose proof IO as (_ & _ & _ & _ & Ch & _); rewrite Ep in Ch; exact (proj1 Ch)). rewrite Ex in H.
  cbn [admissible]. split; [exact W|]. split; [lia|]. split; [lia|]. split; [left; intros K; rewrite K in H; change (zlen (@nil Z)) with 0 in H; lia|]. split; [lia|].
  split; [intros _ t Ht; rewrite Ht in H2; lia|]. exists start. split; [exact IO|lia].
Qed.
Lemma new_first : admissible sample_pe (NewSection sample_code true).
Proof. apply (fitting_new 0x200); [exact sample_editable|exact sample_code_wf|vm_compute; reflexivity]. Qed.
Lemma new_editable1 : editable 0x200 new1.
Proof. exact (new_editable _ _ 0 _ eq_refl sample_editable new_first). Qed.
Lemma new_second : admissible new1 (Relocations C28_tables 2 5 false).
Proof.
  destruct C28_case as (A & B & C & _). cbn [admissible]. do 3 (split; [assumption|]). split; [apply (roomy_room 0x200); [exact new_editable1|vm_compute; reflexivity]|split; vm_compute; congruence].
Qed.
Lemma new_editable2 : editable 0x200 new2.
Proof. exact (new_editable _ _ 1 _ eq_refl new_editable1 new_second). Qed.
Lemma new_third : admissible new2 (NewSection sample_data false).
Proof. apply (fitting_new 0x200); [exact new_editable2|exact sample_data_wf|vm_compute; reflexivity]. Qed.
Lemma new_editable3 : editable 0x200 new3.
Proof. exact (new_editable _ _ 2 _ eq_refl new_editable2 new_third). Qed.
Lemma new_fourth : admissible new3 (Resources res_tree 3 0x101 false).
Proof.
  cbn [admissible]. split; [lia|]. split; [exact res_tree_valid|]. split; [exact res_tree_storable|]. split; [exact Logic.I|]. split; [right; exact res_tree_even|].
  split; [apply (roomy_room 0x200); [exact new_editable3|vm_compute; reflexivity]|split; vm_compute; congruence].
Qed.
Lemma new_editable4 : editable 0x200 new4.
Proof. exact (new_editable _ _ 3 _ eq_refl new_editable3 new_fourth). Qed.
Lemma new_fifth : admissible new4 (Tls new_tls 3 0x400 0x1FFC 0x440 false).
Proof.
  assert (Ep : p_plus new4 = false) by (vm_compute; reflexivity). assert (Ei : imagebase new4 = 0x400000) by (vm_compute; reflexivity). assert (Es : salign new4 = 0x1000) by (vm_compute; reflexivity).
  assert (El : length (p_sections new4) = 4%nat) by (vm_compute; reflexivity). assert (En : nrva new4 = 16) by (vm_compute; reflexivity).
  assert (M : match nth_error (p_sections new4) 3 with Some s => (s_va s =? 0x5000) && (span 0x1000 s =? 0x2000) && (zlen (raw_view s) <? 2^31) | None => false end = true) by (vm_compute; reflexivity).
  assert (R : roomy new4 3 (0x400 + 24) = true) by (vm_compute; reflexivity).
  assert (Bm : base_mod new4 = 2^32) by (unfold base_mod; rewrite Ep; reflexivity). assert (Tb : tls_bytes new4 = 24) by (unfold tls_bytes; rewrite Ep; reflexivity).
  assert (Ct : zlen (callback_table new4 new_tls) = 12).
  { unfold callback_table, word_size. rewrite Ep, Ei. vm_compute. reflexivity. }
  assert (Rm : exists start, room new4 start 3 (0x400 + 24)) by (apply (roomy_room 0x200); [exact new_editable4|exact R]).
  generalize dependent new4. intros p. intros. destruct (nth_error (p_sections p) 3) as [s|] eqn:Hs; [|discriminate M].
  cbn [admissible]. unfold valid_tls, has_va, base_ok, tls_grows, occupies, send, apart. rewrite Tb, Ei, Bm, Ct, Es, En, El. cbn [new_tls t_list t_data t_start t_end t_index t_callbacks t_zero t_chars].
  split; [lia|]. split; [exists 128; reflexivity|].
  split. { split; [repeat constructor; vm_compute; congruence|]. split; [repeat constructor; vm_compute; congruence|]. do 3 (split; [split; vm_compute; congruence|]).
    split; [repeat split; vm_compute; congruence|]. split; [reflexivity|]. split; [repeat split; vm_compute; congruence|]. split; [vm_compute; congruence|]. split; [repeat split; vm_compute; congruence|].
    split; [discriminate|]. split; [intros _; reflexivity|discriminate]. }
  split; [discriminate|]. split; [exact Rm|]. split; [reflexivity|]. split; [split; vm_compute; congruence|]. split; [split; vm_compute; congruence|]. split; [reflexivity|]. split; [vm_compute; congruence|].
  exists s. split; [exact Hs|]. split; [lia|]. assert (Va : s_va s = 0x5000) by lia. assert (Sp : span 0x1000 s = 0x2000) by lia. rewrite Va, Sp. split; [|split; [intros _; split; [reflexivity|discriminate]|reflexivity]].
  split; [lia|]. split; [|split].
  - intros _. split; [lia|]. split; [left; vm_compute; congruence|]. split; vm_compute; reflexivity.
  - intros _. split; [lia|]. split; [left; lia|]. split; vm_compute; reflexivity.
  - intros _ _. right. lia.
Qed.
Lemma new_allowed : allowed sample_pe new_edits.
Proof.
  assert (Nn : forall p s auto e, spares p (NewSection s auto) e) by (intros p s auto e; split; [intros id []|right; intros k; cbn [first_byte table_stop]; lia]).
  split; [exact new_first|]. split; [repeat apply Forall_cons; try apply Forall_nil; apply Nn|].
  intros q E. assert (Q : q = new1) by exact (new_is sample_pe 0 _ q eq_refl E). rewrite Q. clear q E Q.
  split; [exact new_second|]. split; [repeat apply Forall_cons; [..|apply Forall_nil]; spare; left; discriminate|].
  intros q E. assert (Q : q = new2) by exact (new_is new1 1 _ q eq_refl E). rewrite Q. clear q E Q.
  split; [exact new_third|]. split; [repeat apply Forall_cons; try apply Forall_nil; apply Nn|].
  intros q E. assert (Q : q = new3) by exact (new_is new2 2 _ q eq_refl E). rewrite Q. clear q E Q.
  split; [exact new_fourth|]. split; [apply Forall_cons; [|apply Forall_nil]; spare; right; intros k Hk; change (table_stop new3 (Resources res_tree 3 0x101 false)) with (resource_end 0x101 res_tree) in Hk; assert (Er : resource_end 0x101 res_tree = 560) by (vm_compute; reflexivity); rewrite Er in Hk; clear Er; cbn [overwrites first_byte]; change (Z.min 0x400 (Z.min (if t_start new_tls =? 0 then 0x400 else 0x1FFC) (if t_callbacks new_tls =? 0 then 0x400 else 0x440))) with 0x400; lia|].
  intros q E. assert (Q : q = new4) by exact (new_is new3 3 _ q eq_refl E). rewrite Q. clear q E Q.
  split; [exact new_fifth|]. split; [apply Forall_nil|]. intros q _. exact Logic.I.
Qed.
