(** Properties of the checksum: C27 and the checksum's part of C17. *)
From Verif Require Import SpecChecksum ChecksumFacts SamplesLoad.

(** C27: for every file whose CheckSum field is DWORD aligned, calculate_checksum returns
    the file length plus the end-around-carry sum of the 16-bit words with that field taken
    as zero. *)
Theorem C27_checksum : forall strict file,
  bytes file -> checksum_field_ok file ->
  snd (calculate_checksum (open_stream strict file)) = Ok (pe_checksum file (checksum_field file)).
Proof. intros strict file B H. destruct (checksum_of_file file strict B H) as (s & E & _). rewrite E. reflexivity. Qed.
Print Assumptions C27_checksum.
(** ... whatever is stored in the field, so storing the checksum and recomputing gives the
    same value. *)
Theorem C27_store : forall strict strict' file v,
  bytes file -> checksum_field_ok file ->
  snd (calculate_checksum (open_stream strict (with_field file (checksum_field file) v))) =
  snd (calculate_checksum (open_stream strict' file)).
Proof. intros strict strict' file v. exact (checksum_store file v strict strict'). Qed.
Print Assumptions C27_store.
(** ... and on any stream at all it ends with a value or an exception. *)
Theorem C27_safe : forall f, wf_stream f -> safe (snd (calculate_checksum f)).
Proof. exact checksum_safe. Qed.
Print Assumptions C27_safe.
Example C27_nonvacuous : checksum_field_ok sample_file /\
  snd (calculate_checksum (open_stream true sample_file)) = Ok 53790 /\
  snd (calculate_checksum (open_stream true (sample_file ++ [200]))) = Ok 53991 /\
  pe_checksum (sample_file ++ [200]) 152 = 53991.
Proof. repeat split; vm_compute; try reflexivity; discriminate. Qed.

(** C17 for the checksum: the stream is left as it was when the file length is a multiple
    of four ... *)
Theorem C17_checksum_partial : forall strict file,
  bytes file -> checksum_field_ok file -> zlen file mod 4 = 0 ->
  fst (calculate_checksum (open_stream strict file)) = open_stream strict file.
Proof.
  intros strict file B H M. destruct (checksum_of_file file strict B H) as (s & E & _ & _ & _ & _ & P).
  rewrite E. exact (P M).
Qed.
Print Assumptions C17_checksum_partial.
Example C17_checksum_nonvacuous : bytes sample_file /\ checksum_field_ok sample_file /\ zlen sample_file mod 4 = 0.
Proof. split; [apply bytes_check; reflexivity|]. repeat split; vm_compute; try reflexivity; discriminate. Qed.
(** ... and not otherwise: the last, short read sets failbit, so the seek back is ignored. *)
Theorem C17_checksum_refuted : exists file v,
  bytes file /\ checksum_field_ok file /\ snd (calculate_checksum (open_stream true file)) = Ok v /\
  i_pos (fst (calculate_checksum (open_stream true file))) <> 0.
Proof.
  exists (sample_file ++ [200]), 53991. split; [apply bytes_check; reflexivity|]. split; [repeat split; vm_compute; try reflexivity; discriminate|].
  split; [vm_compute; reflexivity|vm_compute; discriminate].
Qed.
Print Assumptions C17_checksum_refuted.
