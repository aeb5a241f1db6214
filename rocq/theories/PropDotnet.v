(** Theorems about the .NET header (C75). *)
From Verif Require Import DotnetFacts SamplesRead SamplesLoad.

(** C75: the information on managed code is that of the CLR header: the header can be read if and only if its 72 bytes are in the
    image, and every version, flag, address and size returned is the one that these bytes have at the offset of that field. *)
Theorem C75_exact : forall p, readable p -> forall rva size, dir_is p dir_com (rva, size) -> dir_com < nrva p -> rva <> 0 ->
  (forall h, get_basic_dotnet_info p = Ok h -> exists bs, zlen bs = 72 /\ shows p rva bs /\ dotnet_says bs h) /\
  (forall bs, zlen bs = 72 -> shows p rva bs -> exists h, get_basic_dotnet_info p = Ok h /\ dotnet_says bs h).
Proof. exact dotnet_exact. Qed.
Print Assumptions C75_exact.
Definition C75_header : list Z := le 4 72 ++ le 2 2 ++ le 2 5 ++ le 4 0x2100 ++ le 4 0x80 ++ le 4 0x15 ++ le 4 0x06000001 ++ le 4 0x2200 ++ le 4 0x30 ++ zeros 40.
Definition C75_pe : pe := sample_read 14 (0x2000, 72) C75_header.
Example C75_case : readable C75_pe /\ dir_is C75_pe dir_com (0x2000, 72) /\ dir_com < nrva C75_pe /\ zlen C75_header = 72 /\ shows C75_pe 0x2000 C75_header /\
  exists h, get_basic_dotnet_info C75_pe = Ok h /\ net_metadata h = (0x2100, 0x80) /\ net_il_only h = true /\ net_32bit h = false /\ net_il_library h = true /\ net_native_entry h = true.
Proof.
  split; [apply sample_read_readable; try small; vm_compute; repeat constructor; intuition congruence|]. split; [split; [vm_compute; congruence|reflexivity]|]. split; [vm_compute; reflexivity|].
  split; [reflexivity|]. split; [vm_compute; reflexivity|]. eexists. split; [vm_compute; reflexivity|]. vm_compute. repeat split.
Qed.
(** An image without the directory has no managed code: the call throws that exception. *)
Theorem C75_absent : forall p, readable p -> 1 <= nrva p -> forall size,
  dir_is p dir_com (0, size) \/ nrva p <= dir_com -> get_basic_dotnet_info p = Throw image_does_not_have_managed_code.
Proof. exact dotnet_absent. Qed.
Print Assumptions C75_absent.
(** Whatever the file contains, once it has been loaded the call ends with a result or an exception and reads nothing outside the
    image. *)
Theorem C75_safe : forall plus from_mem read_debug f f' p, wf_stream f -> load plus from_mem read_debug f = (f', Ok p) -> safe (get_basic_dotnet_info p).
Proof. exact dotnet_loaded. Qed.
Print Assumptions C75_safe.
Example C75_absent_case : exists f' p, wf_stream (open_stream true sample_file) /\ load false false true (open_stream true sample_file) = (f', Ok p) /\
  1 <= nrva p /\ dir_is p dir_com (0, 0) /\ get_basic_dotnet_info p = Throw image_does_not_have_managed_code.
Proof.
  do 2 eexists. split; [|split; [vm_compute; reflexivity|]].
  - split; vm_compute; repeat constructor; intuition congruence.
  - split; [vm_compute; congruence|]. split; [split; [vm_compute; congruence|reflexivity]|vm_compute; reflexivity].
Qed.
