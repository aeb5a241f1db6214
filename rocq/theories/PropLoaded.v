(** Theorems about reading the directories of a loaded image (C74). *)
From Verif Require Import LoadedRead SamplesLoad.

(** C74: whatever the file contains, once it has been loaded its exports, relocations, bound imports and debug information can
    be asked for: the call ends with a result or an exception and reads nothing outside the image. *)
Theorem C74_directories_are_safe : forall plus from_mem read_debug f f' p, wf_stream f -> load plus from_mem read_debug f = (f', Ok p) ->
  (forall want, safe (get_exports p want)) /\ (forall abs, safe (get_relocations p abs)) /\ safe (get_bound_imports p) /\ safe (get_debug_information p).
Proof. exact loaded_reads. Qed.
Print Assumptions C74_directories_are_safe.
(** The same for imports, thread-local storage, load configuration and exception data when every section ends below the
    address 2^32. Missing: files with a section that ends at or beyond 2^32, and resources (see C41). *)
Theorem C74_other_directories_partial : forall plus from_mem read_debug f f' p, wf_stream f -> load plus from_mem read_debug f = (f', Ok p) ->
  Forall (fun s => send (salign p) s < 2^32) (p_sections p) ->
  safe (get_imports p) /\ safe (get_tls p) /\ safe (get_config p) /\ safe (get_exception_directory_data p).
Proof. exact loaded_reads_all. Qed.
Print Assumptions C74_other_directories_partial.
Example C74_case : exists f' p, wf_stream (open_stream true sample_file) /\ load false false true (open_stream true sample_file) = (f', Ok p) /\
  zlen (p_sections p) = 2 /\ Forall (fun s => send (salign p) s < 2^32) (p_sections p) /\ get_imports p = Ok [].
Proof.
  do 2 eexists. split; [|split; [vm_compute; reflexivity|]].
  - split; vm_compute; repeat constructor; intuition congruence.
  - split; [reflexivity|]. split; [|vm_compute; reflexivity]. repeat constructor; vm_compute; reflexivity.
Qed.
