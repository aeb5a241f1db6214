(** C48, C49: the exception directory and rich data readers. *)
From Verif Require Import ReadersFacts SamplesRead.

(** C48: whatever the image contains, reading its exception directory ends with entries or an
    exception and reads no byte outside the image's buffers. [addressable]: no section reaches
    the end of the 32-bit address space. *)
Theorem C48_reading_is_safe : forall p, readable p -> addressable p -> safe (get_exception_directory_data p).
Proof. exact exception_data_safe. Qed.
Print Assumptions C48_reading_is_safe.
(** The result is the table of runtime functions up to the first zero begin address, and there
    is a result only if such a table is in the image. *)
Theorem C48_exact_table : forall p, readable p -> addressable p -> forall rva size n l,
  dir_is p dir_exception (rva, size) -> dir_exception < nrva p -> rva <> 0 -> rva mod 4 = 0 ->
  length_rva p rva rva VirtData true = Ok n -> 12 <= n ->
  (get_exception_directory_data p = Ok l <-> function_table p rva l).
Proof. exact exception_data_table. Qed.
Print Assumptions C48_exact_table.
Definition C48_pe : pe := sample_read 3 (0x2000, 24)
  (le 4 0x1000 ++ le 4 0x1010 ++ le 4 0x2018 ++ zeros 12 ++ [0x21; 6; 2; 0x35; 0; 0]).
Example C48_case : readable C48_pe /\ addressable C48_pe /\ dir_is C48_pe dir_exception (0x2000, 24) /\ dir_exception < nrva C48_pe /\
  length_rva C48_pe 0x2000 0x2000 VirtData true = Ok 0x2000 /\
  get_exception_directory_data C48_pe = Ok [mk_exc 0x1000 0x1010 0x2018 1 4 6 2 5 3].
Proof.
  split; [apply sample_read_readable; try small; vm_compute; repeat constructor; intuition congruence|].
  split; [constructor; [vm_compute; reflexivity|constructor; [vm_compute; reflexivity|constructor]]|].
  split; [split; [unfold dir_exception; lia|reflexivity]|]. split; [reflexivity|]. split; vm_compute; reflexivity.
Qed.

(** C49 (part): the records between "DanS" and "Rich" come back decoded. Missing: safety for
    stubs that contain no well-formed block, refuted below. *)
Theorem C49_records_partial : forall a key l b, let stub := a ++ rich_header key l ++ b in
  bytes a -> bytes b -> is_u32 key -> Forall valid_record l -> zlen stub < 2^32 ->
  first_dword stub (Z.lxor 0x536E6144 key) (zlen a) -> first_dword stub 0x68636952 (zlen a + 16 + 8 * zlen l) ->
  get_rich_data stub = Ok l.
Proof. exact rich_ok. Qed.
Print Assumptions C49_records_partial.
Definition C49_a : list Z := repeat 0x11 16.
Definition C49_l : list rich_record := [(0x5d, 0x2306, 7); (1, 0, 0xffffffff)].
Lemma first_dword_check d v pos : 0 <= pos -> slice d pos 4 = le 4 v ->
  forallb (fun j => negb (if list_eq_dec Z.eq_dec (slice d (Z.of_nat j) 4) (le 4 v) then true else false)) (seq 0 (Z.to_nat pos)) = true -> first_dword d v pos.
Proof.
  intros Hp H F. split; [exact H|]. intros j Hj E. rewrite forallb_forall in F.
  specialize (F (Z.to_nat j) ltac:(apply in_seq; lia)). rewrite Z2Nat.id in F by lia. destruct (list_eq_dec _ _ _); [discriminate|contradiction].
Qed.
Example C49_case : let stub := C49_a ++ rich_header 0xdeadbeef C49_l ++ [0;0] in
  bytes C49_a /\ Forall valid_record C49_l /\ first_dword stub (Z.lxor 0x536E6144 0xdeadbeef) (zlen C49_a) /\
  first_dword stub 0x68636952 (zlen C49_a + 16 + 8 * zlen C49_l) /\ get_rich_data stub = Ok C49_l.
Proof.
  intros stub. split; [repeat constructor; lia|]. split; [repeat constructor; small|].
  split; [apply first_dword_check; [vm_compute; congruence|vm_compute; reflexivity|vm_compute; reflexivity]|].
  split; [apply first_dword_check; [vm_compute; congruence|vm_compute; reflexivity|vm_compute; reflexivity]|vm_compute; reflexivity].
Qed.
(** C49 fails for stubs without the mark: the search reads a dword at every offset, also at the
    last three, which lie past the end of the stub. *)
Theorem C49_reads_inside_refuted : exists stub, bytes stub /\ 4 <= zlen stub /\ get_rich_data stub = Ub OobRead.
Proof. exists [1;2;3;4]. split; [repeat constructor; lia|]. split; [vm_compute; congruence|vm_compute; reflexivity]. Qed.
Print Assumptions C49_reads_inside_refuted.
