(** Properties C03-C05: one section object. *)
From Verif Require Import SectionModel SpecSection SectionFacts.

Theorem C03_section_name : forall n s,
  cut_at_nul (ztake 8 n) (get_name (set_name n s)) /\ same_but_name (set_name n s) s.
Proof. exact set_get_name_cut. Qed.
Print Assumptions C03_section_name.
Example C03_section_name_case :
  get_name (set_name [46;100;97;116;97] (set_name [1;2;3;4;5;6;7;8;9] new_section)) = [46;100;97;116;97] /\
  get_name (set_name [1;2;3;4;5;6;7;8;9] new_section) = [1;2;3;4;5;6;7;8].
Proof. split; reflexivity. Qed.

Theorem C04_section_flags : forall a b s,
  is_u32 (s_chars s) ->
  get_attr a (set_attr a b s) = b /\
  (forall a', a' <> a -> get_attr a' (set_attr a b s) = get_attr a' s) /\
  (forall n, 0 <= n -> 2^n <> attr_flag a ->
     Z.testbit (s_chars (set_attr a b s)) n = Z.testbit (s_chars s) n) /\
  same_but_chars (set_attr a b s) s.
Proof. exact set_attr_all. Qed.
Print Assumptions C04_section_flags.
Example C04_section_flags_case :
  is_u32 (s_chars (set_s_chars 0xE0000020 new_section)) /\
  get_attr Writeable (set_attr Writeable false (set_s_chars 0xE0000020 new_section)) = false /\
  s_chars (set_attr Writeable false (set_s_chars 0xE0000020 new_section)) = 0x60000020.
Proof. unfold is_u32; cbn [set_s_chars s_chars]. split; [lia|split; reflexivity]. Qed.

(** The bit of the characteristics that each attribute is, by the numbers of the PE format. *)
Definition attr_bit (a : attr) : Z :=
  match a with
  | Readable => 30 | Writeable => 31 | Executable => 29 | Shared => 28 | Discardable => 25
  end.
Lemma get_attr_bit a s : get_attr a s = Z.testbit (s_chars s) (attr_bit a).
Proof.
  unfold get_attr. generalize (s_chars s). intros v. replace (attr_flag a) with (2 ^ attr_bit a) by (destruct a; reflexivity).
  assert (H : 0 <= attr_bit a) by (destruct a; cbn; lia). revert H. generalize (attr_bit a). intros n H. destruct (Z.testbit v n) eqn:E.
  - destruct (Z.eqb_spec (Z.land v (2 ^ n)) 0) as [Q|Q]; [|reflexivity]. apply (f_equal (fun x => Z.testbit x n)) in Q. rewrite Z.land_spec, Z.pow2_bits_true, E, Z.bits_0 in Q by exact H. discriminate Q.
  - replace (Z.land v (2 ^ n)) with 0; [reflexivity|]. symmetry. apply Z.bits_inj'. intros j Hj. rewrite Z.land_spec, Z.bits_0, Z.pow2_bits_eqb by exact H. destruct (Z.eqb_spec n j) as [->|]; [rewrite E; reflexivity|apply Bool.andb_false_r].
Qed.
Lemma attr_bits a b s :
  get_attr a s = Z.testbit (s_chars s) (attr_bit a) /\
  (is_u32 (s_chars s) -> forall n, 0 <= n ->
     Z.testbit (s_chars (set_attr a b s)) n = if n =? attr_bit a then b else Z.testbit (s_chars s) n).
Proof.
  split; [apply get_attr_bit|]. intros U n Hn. destruct (set_attr_all a b s U) as (G & _ & O & _). destruct (Z.eqb_spec n (attr_bit a)) as [->|N].
  - rewrite get_attr_bit in G. exact G.
  - apply O; [exact Hn|]. replace (attr_flag a) with (2 ^ attr_bit a) by (destruct a; reflexivity). intros Q. apply N. revert Q. apply Z.pow_inj_r; [lia|exact Hn|destruct a; cbn; lia].
Qed.
Theorem C04_flag_bits : forall a b s,
  get_attr a s = Z.testbit (s_chars s) (attr_bit a) /\
  (is_u32 (s_chars s) -> forall n, 0 <= n ->
     Z.testbit (s_chars (set_attr a b s)) n = if n =? attr_bit a then b else Z.testbit (s_chars s) n).
Proof. exact attr_bits. Qed.
Print Assumptions C04_flag_bits.
Example C04_flag_bits_case :
  is_u32 (s_chars (set_s_chars 0x60000020 new_section)) /\
  s_chars (set_attr Discardable true (set_s_chars 0x60000020 new_section)) = 0x62000020.
Proof. unfold is_u32; cbn [set_s_chars s_chars]. split; [lia|reflexivity]. Qed.

(** Any history of accesses: the raw bytes are what an abstract byte string gives. *)
Theorem C05_raw_history : forall ops s s',
  wf_section s -> mfold view_step ops s = Ok s' ->
  raw_view s' = fold_left spec_view_step ops (raw_view s) /\ same_header s' s.
Proof. exact view_history. Qed.
Print Assumptions C05_raw_history.

(** The virtual view starts with the raw bytes, and for a section that is not already
    mapped the rest is zero fill up to the aligned virtual size. *)
Theorem C05_virtual_view : forall sa s,
  wf_section s ->
  (exists t, virt_view sa s = raw_view s ++ t) /\
  virt_view sa (unmap_virtual s) = raw_view s ++ zeros (aligned_vsize sa s - zlen (raw_view s)).
Proof. exact virt_view_spec. Qed.
Print Assumptions C05_virtual_view.

(** What [overwrite] means inside and beyond the raw range. *)
Theorem C05_overwrite_inside : forall r off bs,
  0 <= off -> off + zlen bs <= zlen r -> overwrite r off bs = ztake off r ++ bs ++ zdrop (off + zlen bs) r.
Proof. exact overwrite_inside. Qed.
Print Assumptions C05_overwrite_inside.
Theorem C05_overwrite_beyond : forall r off bs, zlen r <= off -> overwrite r off bs = r.
Proof. exact overwrite_beyond. Qed.
Print Assumptions C05_overwrite_beyond.

Definition C05_sample : section := set_s_vsize 20 (set_raw_data [1;2;3;4] new_section).
Example C05_raw_history_case :
  wf_section C05_sample /\
  exists s', mfold view_step [GetVirt 16; WriteVirt 16 2 [7;8;9]; WriteVirt 16 30 [5]; GetRaw] C05_sample = Ok s' /\
  raw_view s' = [1;2;7;8] /\ zlen (virt_view 16 s') = 32.
Proof.
  split.
  - unfold wf_section; cbn. unfold is_u32, is_u16. repeat split; try lia; repeat constructor; lia.
  - eexists. split; [vm_compute; reflexivity|]. split; vm_compute; reflexivity.
Qed.
