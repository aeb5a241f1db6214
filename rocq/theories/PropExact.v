(** C73: the directory readers return exactly what the directories say. *)
From Verif Require Import ExactExports SamplesDir SamplesRead PropTls PropConfig PropBound PropExport.

(** Thread-local storage. *)
Theorem C73_tls : forall p, readable p -> base_ok p -> addressable p -> viewable p -> forall rva size t,
  dir_is p dir_tls (rva, size) -> dir_tls < nrva p -> rva <> 0 -> (get_tls p = Ok t <-> tls_shown p rva t).
Proof. exact tls_exact. Qed.
Print Assumptions C73_tls.
Example C73_tls_case : dir_is C64_tls_pe dir_tls (0x2000, 24) /\ dir_tls < nrva C64_tls_pe /\
  tls_shown C64_tls_pe 0x2000 (mk_tls 0x2018 0x201b 0x2100 0x201c 5 0x300000 [1; 2; 3] [0x1234]).
Proof.
  pose proof C64_tls_case as (A & B & C & D & E & _). assert (F : dir_is C64_tls_pe dir_tls (0x2000, 24)) by (split; [vm_compute; congruence|reflexivity]).
  split; [exact F|]. split; [vm_compute; reflexivity|]. apply (tls_exact _ A B C D 0x2000 24 _ F ltac:(vm_compute; reflexivity) ltac:(lia)). exact E.
Qed.
(** Load configuration. *)
Theorem C73_config : forall p, readable p -> base_ok p -> raw_addressable p -> forall rva size c,
  dir_is p dir_load_config (rva, size) -> dir_load_config < nrva p -> rva <> 0 -> (get_config p = Ok c <-> config_shown p rva c).
Proof. exact config_exact. Qed.
Print Assumptions C73_config.
Example C73_config_case : dir_is C64_pe dir_load_config (0x2000, 72) /\ dir_load_config < nrva C64_pe /\ config_shown C64_pe 0x2000 C64_config.
Proof.
  pose proof C64_config_case as (A & B & C & E & _). assert (F : dir_is C64_pe dir_load_config (0x2000, 72)) by (split; [vm_compute; congruence|reflexivity]).
  split; [exact F|]. split; [vm_compute; reflexivity|]. apply (config_exact _ A B C 0x2000 72 _ F ltac:(vm_compute; reflexivity) ltac:(lia)). exact E.
Qed.
(** Relocations, with or without the padding items, of an image that is not marked as having none. *)
Theorem C73_relocations : forall p, readable p -> forall rva size abs l,
  dir_is p dir_basereloc (rva, size) -> dir_basereloc < nrva p -> rva <> 0 -> Z.land (chars p) 1 = 0 ->
  (get_relocations p abs = Ok l <-> relocations_shown p rva size abs l).
Proof. exact relocations_exact. Qed.
Print Assumptions C73_relocations.
Definition C73_reloc_src : pe := sample_read 5 (0x2000, 24) (le 4 0x1000 ++ le 4 12 ++ le 2 0x3010 ++ le 2 0 ++ le 4 0x2000 ++ le 4 12 ++ le 2 0xA008 ++ le 2 0).
Definition C73_reloc_pe : pe := with_nt (set_h_chars 0x102) C73_reloc_src.
Example C73_relocations_case : readable C73_reloc_pe /\ dir_is C73_reloc_pe dir_basereloc (0x2000, 24) /\ dir_basereloc < nrva C73_reloc_pe /\ Z.land (chars C73_reloc_pe) 1 = 0 /\
  relocations_shown C73_reloc_pe 0x2000 24 false [(0x1000, [(0x10, 3)]); (0x2000, [(8, 10)])] /\
  relocations_shown C73_reloc_pe 0x2000 24 true [(0x1000, [(0x10, 3); (0, 0)]); (0x2000, [(8, 10); (0, 0)])].
Proof.
  assert (A0 : readable C73_reloc_src) by (apply sample_read_readable; try small; vm_compute; repeat constructor; intuition congruence).
  assert (A : readable C73_reloc_pe) by (apply readable_chars, A0).
  assert (F : dir_is C73_reloc_pe dir_basereloc (0x2000, 24)) by (split; [vm_compute; congruence|reflexivity]). split; [exact A|]. split; [exact F|]. split; [vm_compute; reflexivity|]. split; [vm_compute; reflexivity|].
  split; apply (relocations_exact _ A 0x2000 24 _ _ F ltac:(vm_compute; reflexivity) ltac:(lia) ltac:(vm_compute; reflexivity)); vm_compute; reflexivity.
Qed.
(** Bound imports. *)
Theorem C73_bound_imports : forall p, readable p -> forall rva size l,
  dir_is p dir_bound_import (rva, size) -> dir_bound_import < nrva p -> rva <> 0 -> (get_bound_imports p = Ok l <-> bound_shown p rva size l).
Proof. exact bound_exact. Qed.
Print Assumptions C73_bound_imports.
Definition C73_bound_pe : pe := C46_pe (le 4 5 ++ le 2 24 ++ le 2 1 ++ le 4 6 ++ le 2 25 ++ le 2 0 ++ zeros 8 ++ [65; 66; 0]).
Example C73_bound_imports_case : readable C73_bound_pe /\ dir_is C73_bound_pe dir_bound_import (0x2000, 16) /\ dir_bound_import < nrva C73_bound_pe /\
  bound_shown C73_bound_pe 0x2000 16 [([65; 66], 5, [([66], 6)])].
Proof.
  assert (A : readable C73_bound_pe) by (apply sample_read_readable; try small; vm_compute; repeat constructor; intuition congruence).
  assert (F : dir_is C73_bound_pe dir_bound_import (0x2000, 16)) by (split; [vm_compute; congruence|reflexivity]). split; [exact A|]. split; [exact F|]. split; [vm_compute; reflexivity|].
  apply (bound_exact _ A 0x2000 16 _ F ltac:(vm_compute; reflexivity) ltac:(lia)). vm_compute. reflexivity.
Qed.
(** Exports, with or without the information on the directory. *)
Theorem C73_exports : forall p, readable p -> viewable p -> forall rva size want r,
  dir_is p dir_export (rva, size) -> dir_export < nrva p -> rva <> 0 -> (get_exports p want = Ok r <-> exports_shown p rva size want r).
Proof. exact exports_exact. Qed.
Print Assumptions C73_exports.
Definition C73_export_pe : pe := C35_pe (zeros 12 ++ le 4 0x2038 ++ le 4 3 ++ le 4 2 ++ le 4 1 ++ le 4 0x2028 ++ le 4 0x2030 ++ le 4 0x2034 ++ le 4 0x1000 ++ le 4 0x1800 ++ le 4 0x2038 ++ le 4 1 ++ [97; 0]).
Example C73_exports_case : readable C73_export_pe /\ viewable C73_export_pe /\ dir_is C73_export_pe dir_export (0x2000, 40) /\ dir_export < nrva C73_export_pe /\
  exports_shown C73_export_pe 0x2000 40 false (None, [mk_exported 3 0x1000 [] 0 []; mk_exported 4 0x1800 [97] 1 []]).
Proof.
  assert (A : readable C73_export_pe) by (apply sample_read_readable; try small; vm_compute; repeat constructor; intuition congruence).
  assert (B : viewable C73_export_pe) by (apply unmapped_viewable; repeat constructor).
  assert (F : dir_is C73_export_pe dir_export (0x2000, 40)) by (split; [vm_compute; congruence|reflexivity]). split; [exact A|]. split; [exact B|]. split; [exact F|]. split; [vm_compute; reflexivity|].
  apply (exports_exact _ A B 0x2000 40 _ _ F ltac:(vm_compute; reflexivity) ltac:(lia)). vm_compute. reflexivity.
Qed.
(** A directory at address 0, or beyond the number of directories, is none: there is nothing to read or an exception. *)
Theorem C73_absent : forall p, readable p -> 1 <= nrva p -> forall size,
  (dir_is p dir_tls (0, size) \/ nrva p <= dir_tls -> get_tls p = Throw directory_does_not_exist) /\
  (dir_is p dir_load_config (0, size) \/ nrva p <= dir_load_config -> get_config p = Throw directory_does_not_exist) /\
  (dir_is p dir_basereloc (0, size) \/ nrva p <= dir_basereloc -> forall abs, get_relocations p abs = Ok []) /\
  (dir_is p dir_bound_import (0, size) \/ nrva p <= dir_bound_import -> get_bound_imports p = Ok []) /\
  (dir_is p dir_export (0, size) \/ nrva p <= dir_export -> forall want, get_exports p want = Ok (None, [])).
Proof. exact absent_all. Qed.
Print Assumptions C73_absent.
Example C73_absent_case : readable C64_pe /\ 1 <= nrva C64_pe /\ dir_is C64_pe dir_tls (0, 0).
Proof. split; [apply C64_config_case|]. split; [vm_compute; congruence|]. split; [vm_compute; congruence|reflexivity]. Qed.
