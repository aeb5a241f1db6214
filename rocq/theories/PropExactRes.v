(** Property C73 for resources: the reader of resources returns exactly what the directory says. The vocabulary is in SpecExactRes.v. *)
From Verif Require Import PropRes ExactRes.

(** Resources. A result is returned exactly when the bytes describe that tree of resources. *)
Theorem C73_resources : forall p, readable p -> viewable p -> forall rva size t,
  dir_is p dir_resource (rva, size) -> dir_resource < nrva p -> rva <> 0 -> (get_resources p = Ok t <-> resources_shown p rva t).
Proof. exact resources_exact. Qed.
Print Assumptions C73_resources.
Definition C73_res_bytes : list Z :=
  enc_fields rdir_widths [0; 0; 0; 0; 1; 0] ++ le 4 (2^31 + 68) ++ le 4 (2^31 + 24) ++ enc_fields rdir_widths [7; 8; 1; 2; 0; 1] ++ le 4 1033 ++ le 4 48 ++
  enc_fields [4; 4; 4; 4]%nat [0x2040; 3; 1252; 0] ++ [1; 2; 3; 0] ++ [2; 0; 65; 0; 66; 0].
Definition C73_res_tree : rnode := RDir (mk_rhead 0 0 0 0 1 0) [(Named [65; 66], RDir (mk_rhead 7 8 1 2 0 1) [(Ided 1033, RData [1; 2; 3] 1252)])].
Example C73_resources_case : let p := C41_pe C73_res_bytes in readable p /\ viewable p /\ dir_is p dir_resource (0x2000, 0x100) /\ dir_resource < nrva p /\ resources_shown p 0x2000 C73_res_tree.
Proof.
  cbv zeta. pose proof (C41_ready C73_res_bytes ltac:(vm_compute; repeat constructor; intuition congruence) ltac:(vm_compute; reflexivity)) as (A & B & C).
  split; [exact A|]. split; [exact B|]. split; [exact C|]. assert (N : dir_resource < nrva (C41_pe C73_res_bytes)) by (vm_compute; reflexivity). split; [exact N|].
  apply (resources_exact _ A B 0x2000 0x100 _ C N ltac:(lia)). vm_compute. reflexivity.
Qed.
(** A directory at address 0, or beyond the number of directories: no resources, no imports. *)
Theorem C73_absent_trees : forall p, readable p -> 1 <= nrva p -> forall size,
  (dir_is p dir_resource (0, size) \/ nrva p <= dir_resource -> get_resources p = Ok (RDir (mk_rhead 0 0 0 0 0 0) [])) /\
  (dir_is p dir_import (0, size) \/ nrva p <= dir_import -> get_imports p = Ok []).
Proof. exact absent_rest. Qed.
Print Assumptions C73_absent_trees.
Example C73_absent_trees_case : let p := C41_pe C73_res_bytes in readable p /\ 1 <= nrva p /\ dir_is p dir_import (0, 0).
Proof. cbv zeta. split; [apply C73_resources_case|]. split; [vm_compute; congruence|]. split; [vm_compute; congruence|reflexivity]. Qed.
