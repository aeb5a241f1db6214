(** Proofs about the .NET header (C75). *)
From Verif Require Export SpecDotnet ExactFacts ExactExports LoadedRead.

Lemma land_bit x k : 0 <= k -> negb (Z.land x (2 ^ k) =? 0) = Z.testbit x k.
Proof.
  intros Hk. replace (Z.land x (2 ^ k)) with (if Z.testbit x k then 2 ^ k else 0).
  - destruct (Z.testbit x k); [|reflexivity]. pose proof (Z.pow_pos_nonneg 2 k ltac:(lia) Hk). replace (2 ^ k =? 0) with false by lia. reflexivity.
  - apply Z.bits_inj'. intros i Hi. rewrite Z.land_spec, Z.pow2_bits_eqb by assumption. destruct (Z.eqb_spec k i) as [->|N].
    + destruct (Z.testbit x i); [apply Z.pow2_bits_true; assumption|rewrite Z.bits_0; reflexivity].
    + rewrite Bool.andb_false_r. destruct (Z.testbit x k); [apply Z.pow2_bits_false; assumption|apply Z.bits_0].
Qed.
Lemma skip2 {A} (l : list A) a b : skipn a (skipn b l) = skipn (b + a) l.
Proof. revert l. induction b as [|b IH]; intros l; [reflexivity|]. destruct l as [|x l]; [destruct a; reflexivity|]. cbn [skipn Nat.add]. apply IH. Qed.
Lemma cor20_decodes bs : exists h,
  match dec_fields cor20_widths bs with
  | [cb; major; minor; a0; b0; flags; entry; a1; b1; a2; b2; a3; b3; a4; b4; a5; b5; a6; b6] =>
      Ok (mk_cor20 cb major minor (a0, b0) flags entry (a1, b1) (a2, b2) (a3, b3) (a4, b4) (a5, b5) (a6, b6))
  | _ => Throw incorrect_address_conversion
  end = Ok h /\ dotnet_says bs h.
Proof.
  unfold cor20_widths. cbn [dec_fields]. rewrite !skip2. eexists. split; [reflexivity|].
  unfold dotnet_says, net_major, net_minor, net_metadata, net_flags, net_entry, net_resources, net_strong_name, net_code_manager, net_vtable, net_jumps, net_native_header,
    net_il_only, net_32bit, net_il_library, net_native_entry, com_il_only, com_32bit, com_il_library, com_native.
  cbn [n_major n_minor n_metadata n_flags n_entry n_resources n_strong_name n_code_manager n_vtable n_jumps n_native].
  do 11 (split; [reflexivity|]). 
  split; [apply (land_bit _ 0); lia|]. split; [apply (land_bit _ 1); lia|]. split; [apply (land_bit _ 2); lia|]. apply (land_bit _ 4); lia.
Qed.
Lemma dotnet_exact p : readable p -> forall rva size, dir_is p dir_com (rva, size) -> dir_com < nrva p -> rva <> 0 ->
  (forall h, get_basic_dotnet_info p = Ok h -> exists bs, zlen bs = 72 /\ shows p rva bs /\ dotnet_says bs h) /\
  (forall bs, zlen bs = 72 -> shows p rva bs -> exists h, get_basic_dotnet_info p = Ok h /\ dotnet_says bs h).
Proof.
  intros R rva size D N Hr. destruct (dir_get p dir_com R ltac:(unfold dir_com; lia)) as (rva' & size' & Ur & _ & D' & Er & _ & Ex).
  assert (rva' = rva) by (unfold dir_is in *; destruct D as [_ D], D' as [_ D']; congruence). subst rva'.
  unfold get_basic_dotnet_info, is_dotnet. rewrite (Ex N), Er. replace (nrva p <=? dir_com) with false by lia. cbn [bind]. replace (rva =? 0) with false by lia. cbn [negb throw_if bind].
  change (widths cor20_widths) with 72. split.
  - intros h H. bnd H e Ee. pose proof (read_rva_len _ _ _ _ _ _ Ee) as Le. exists e. split; [exact Le|]. split; [unfold shows; rewrite Le; exact Ee|].
    destruct (cor20_decodes e) as (h' & E & S). rewrite E in H. injection H as <-. exact S.
  - intros bs L S. unfold shows in S. rewrite L in S. rewrite S. cbn [bind]. apply cor20_decodes.
Qed.
Lemma dotnet_absent p : readable p -> 1 <= nrva p -> forall size, dir_is p dir_com (0, size) \/ nrva p <= dir_com -> get_basic_dotnet_info p = Throw image_does_not_have_managed_code.
Proof.
  intros R N size H. unfold get_basic_dotnet_info, is_dotnet. rewrite (dir_gone p dir_com size R ltac:(unfold dir_com; lia) N H). reflexivity.
Qed.
Lemma dotnet_safe p : readable p -> safe (get_basic_dotnet_info p).
Proof.
  intros R. destruct (dir_get p dir_com R ltac:(unfold dir_com; lia)) as (rva & size & Ur & _ & _ & Er & _ & _).
  unfold get_basic_dotnet_info, is_dotnet. pose proof (directory_exists_safe p dir_com R ltac:(unfold dir_com; lia)) as [ex Sx]. rewrite Sx. cbn [bind].
  destruct ex; cbn [negb throw_if bind]; [|exact I]. rewrite Er. destruct (nrva p <=? dir_com); cbn [bind]; [exact I|].
  assert (W : Forall wf_section (p_sections p)) by apply R.
  pose proof (read_rva_safe p rva (widths cor20_widths) VirtData true W Ur ltac:(vm_compute; congruence)) as S. destruct (read_rva p rva (widths cor20_widths) VirtData true) as [e| | |]; cbn [bind] in *; try exact S.
Qed.
Lemma dotnet_loaded plus from_mem read_debug f f' p : wf_stream f -> load plus from_mem read_debug f = (f', Ok p) -> safe (get_basic_dotnet_info p).
Proof. intros W E. destruct (loaded_facts _ _ _ _ _ _ W E) as (R & _). apply dotnet_safe, R. Qed.
