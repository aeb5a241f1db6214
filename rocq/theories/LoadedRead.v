(** Everything that can be read from a loaded image is read safely (C74). *)
From Verif Require Export DebugLoad TlsFacts ExportFacts BoundFacts RelocFacts ReadersFacts ImportFacts ConfigFacts.

(** A section as it is after loading. *)
Lemma fresh_view sa s : s_old s = None -> aligned_vsize sa s <= zlen (virt_view sa s) /\ (zlen (s_data s) <= aligned_vsize sa s -> zlen (virt_view sa s) = aligned_vsize sa s).
Proof.
  intros O. unfold virt_view, map_virtual. rewrite O. cbv zeta. destruct (Z.eqb_spec (aligned_vsize sa s) 0) as [E|E]; cbn [negb andb].
  - unfold zlen in *. lia.
  - destruct (Z.ltb_spec (zlen (s_data s)) (aligned_vsize sa s)) as [L|L]; [|lia]. cbn. rewrite zlen_resize by (unfold zlen in *; lia). lia.
Qed.
Lemma loaded_facts plus from_mem read_debug f f' p : wf_stream f -> load plus from_mem read_debug f = (f', Ok p) ->
  readable p /\ raw_ok p /\ base_ok p /\ viewable p /\ (Forall (fun s => send (salign p) s < 2^32) (p_sections p) -> addressable p /\ raw_addressable p).
Proof.
  intros W E. destruct (loaded_readable _ _ _ _ _ _ W E) as [R Ro]. destruct (load_ok _ _ _ _ _ _ W E) as (_ & HW & HF & HC).
  split; [exact R|]. split; [exact Ro|]. split; [|split].
  - destruct HW as (_ & _ & _ & _ & _ & F & _). unfold base_ok, imagebase, base_mod. unfold nt_fields, nt_widths in F. destruct (p_plus p); cbn [fits] in F.
    + do 16 (destruct F as [_ F]). destruct F as [F _]. exact F.
    + do 17 (destruct F as [_ F]). destruct F as [F _]. exact F.
  - apply Forall_forall. intros s Hs. apply In_nth_error in Hs as [i Hi]. destruct HF as (_ & _ & _ & _ & _ & _ & _ & HS & _). destruct (HS i s Hi) as (_ & _ & _ & _ & _ & _ & _ & _ & _ & _ & O & _).
    apply fresh_view, O.
  - intros HE. assert (K : forall s, In s (p_sections p) -> s_va s + zlen (virt_view (salign p) s) < 2^32 /\ s_old s = None).
    { intros s Hs. destruct R as (_ & _ & Ws & _). rewrite Forall_forall in Ws, HE. destruct (wf_ranges s (Ws s Hs)) as (R1 & R2 & R3 & _). specialize (HE s Hs).
      destruct HC as (_ & _ & _ & _ & _ & _ & (PS & PF & LS & LF & _) & _ & HL & _). rewrite Forall_forall in HL. destruct (HL s Hs) as (_ & L1 & L2 & L3 & _).
      apply In_nth_error in Hs as [i Hi]. destruct HF as (_ & _ & _ & _ & _ & _ & _ & HS & _). destruct (HS i s Hi) as (_ & _ & _ & _ & _ & _ & _ & _ & _ & _ & O & _ & Ld & _). split; [|exact O].
      fold (salign p) (falign p) in *. pose proof (pow2_pos _ PS) as P0. pose proof (pow2_pos _ PF) as P1. unfold is_u32 in *.
      assert (Sp : span (salign p) s < 2^32) by (unfold send in HE; lia). assert (A : aligned_vsize (salign p) s = span (salign p) s).
      { unfold aligned_vsize, span in *. destruct (Z.eqb_spec (s_vsize s) 0) as [Ev|Ev]; cbn [andb].
        - rewrite andb_true_r. destruct (Z.eqb_spec (s_rawsize s) 0) as [Er|Er]; cbn [negb]; [rewrite Er, Ev in *|]; apply align_up_small; try assumption; lia.
        - rewrite andb_false_r. apply align_up_small; try assumption; lia. }
      destruct (fresh_view (salign p) s O) as [_ FV]. rewrite FV, A; [exact HE|]. rewrite A, Ld. unfold span.
      destruct (ceil_mult_least (s_rawsize s) (falign p) P1) as (_ & C1 & _). destruct (ceil_mult_least (s_rawsize s) (salign p) P0) as (_ & C2 & _). destruct (s_vsize s =? 0); lia. }
    split; apply Forall_forall; intros s Hs; destruct (K s Hs) as [K1 O]; [exact K1|].
    destruct (virt_view_prefix (salign p) s) as [t Et]; [unfold old_ok; rewrite O; exact I|]. rewrite Et, zlen_app in K1. unfold zlen in *. lia.
Qed.
Lemma loaded_reads plus from_mem read_debug f f' p : wf_stream f -> load plus from_mem read_debug f = (f', Ok p) ->
  (forall want, safe (get_exports p want)) /\ (forall abs, safe (get_relocations p abs)) /\ safe (get_bound_imports p) /\ safe (get_debug_information p).
Proof.
  intros W E. destruct (loaded_facts _ _ _ _ _ _ W E) as (R & Ro & _ & V & _). split; [intros want|].
  - pose proof (exports_safe p want R V) as K. destruct (get_exports p want) as [[x l]| | |]; cbn; try exact I; contradiction.
  - split; [intros abs; apply get_relocations_safe, R|]. split; [apply bound_safe, R|apply debug_safe; assumption].
Qed.
Lemma loaded_reads_all plus from_mem read_debug f f' p : wf_stream f -> load plus from_mem read_debug f = (f', Ok p) ->
  Forall (fun s => send (salign p) s < 2^32) (p_sections p) ->
  safe (get_imports p) /\ safe (get_tls p) /\ safe (get_config p) /\ safe (get_exception_directory_data p).
Proof.
  intros W E H. destruct (loaded_facts _ _ _ _ _ _ W E) as (R & _ & B & V & K). destruct (K H) as [A A'].
  split; [apply imports_safe; assumption|]. split; [apply tls_safe; assumption|]. split; [apply config_safe; assumption|apply exception_data_safe; assumption].
Qed.
