(** Theorems about the memory owned by debug_info objects and images (C69, C72). *)
From Verif Require Import OwnImage.

(** C69. Whatever a program does with debug_info objects, and whether or not there is memory: nothing is freed twice or used after it
    was freed, there is one block of memory for each object with details, and none when all objects are destroyed. *)
Theorem C69_memory : forall ops, drun ops ([], []) <> Bug /\
  forall objs h os, drun ops ([], []) = Done (objs, h) os -> zlen h = owners objs /\ (objs = [] -> h = []).
Proof. exact debug_memory. Qed.
Print Assumptions C69_memory.
(** C69. A program sees what it would see with plain values, and each object has its own value. Partial: without assignments of an
    object to itself and without setting a type that has no structure (see below). *)
Theorem C69_values_partial : forall ops objs h os, Forall plain ops -> drun ops ([], []) = Done (objs, h) os ->
  snd (vrun ops []) = os /\ Forall2 (fun b v => fst b = fst v /\ holds_value h (snd b) (snd v)) objs (fst (vrun ops [])).
Proof. exact debug_values. Qed.
Print Assumptions C69_values_partial.
Definition C69_program : list dop :=
  [DNew 1 [2; 30]; DSet 1 (AdvPdb2 7 8 [0x61]) (Some 64); DCopy 2 1 (Some 96); DSet 1 (AdvMisc 1 false [0x62]) (Some 128); DGet 2 2; DGet 2 3; DNew 3 [0; 0]; DAssign 3 1 (Some 64); DDestroy 1; DGet 3 3; DAssign 2 3 None; DType 2].
Example C69_case : Forall plain C69_program /\ exists objs h, drun C69_program ([], []) =
  Done (objs, h) [SNothing; SNothing; SNothing; SNothing; SDetails (AdvPdb2 7 8 [0x61]); SThrow; SNothing; SNothing; SNothing; SDetails (AdvMisc 1 false [0x62]); SNoMemory; SType 0] /\ zlen h = 1.
Proof. split; [unfold C69_program; repeat (apply Forall_cons; [cbn [plain]; try exact I; lia|]); apply Forall_nil|]. do 2 eexists. split; vm_compute; reflexivity. Qed.
(** C69. An object assigned to itself loses its details. *)
Theorem C69_self_assignment_refuted : exists f a p, exists s os, drun [DNew 1 f; DSet 1 a (Some p); DAssign 1 1 None; DType 1; DGet 1 (advanced_type a)] ([], []) = Done s os /\
  os = [SNothing; SNothing; SNothing; SType 0; SThrow] /\ advanced_type a <> 0.
Proof. exists [], (AdvPdb2 7 8 [0x61]), 64. do 2 eexists. split; [vm_compute; reflexivity|]. split; [reflexivity|discriminate]. Qed.
Print Assumptions C69_self_assignment_refuted.
(** C69. Setting a type that has no structure does not set it. *)
Theorem C69_type_refuted : forall f t, 5 <= t -> exists s, drun [DNew 1 f; DSetType 1 t; DType 1] ([], []) = Done s [SNothing; SNothing; SType 0].
Proof. intros f t _. eexists. reflexivity. Qed.
Print Assumptions C69_type_refuted.

(** C72. Whatever a program does with images other than assigning one to itself: their headers are never used after they were freed
    nor freed twice, it sees what it would see with plain values, and besides one block for the headers of each image there is one for
    each construction that failed. *)
Theorem C72_values_partial : forall (V P : Type) (ops : list (iop V P)), Forall other ops ->
  irun ops ([], []) <> Bug /\ forall objs h os, irun ops ([], []) = Done (objs, h) os -> zlen h = zlen objs + failures ops /\ snd (ivrun ops []) = os.
Proof. intros V P ops. exact (image_memory ops). Qed.
Print Assumptions C72_values_partial.
Definition C72_program : list (iop Z Z) := [INew 1 10 20 64; ICopy 2 1 96; ISet 1 11 21; IGet 2; INew 3 12 22 128; IAssign 2 3 160; IDestroy 3; IGet 2; IGet 1].
Example C72_case : Forall other C72_program /\ exists objs h, irun C72_program ([], []) = Done (objs, h) [None; None; None; Some (10, 20); None; None; None; Some (12, 22); Some (11, 21)].
Proof. split; [unfold C72_program; repeat (apply Forall_cons; [cbn [other]; try exact I; lia|]); apply Forall_nil|]. do 2 eexists. vm_compute. reflexivity. Qed.
(** C72. An image assigned to itself uses its headers after it has freed them. *)
Theorem C72_self_assignment_refuted : forall (V P : Type) (v : V) (p : P) a new, a <> 0 -> irun [INew 1 v p a; IAssign 1 1 new] ([], []) = Bug.
Proof. exact self_assignment. Qed.
Print Assumptions C72_self_assignment_refuted.
(** C72. A construction that fails loses memory. *)
Theorem C72_failure_refuted : forall (V P : Type) (p : P) a, a <> 0 -> irun (V := V) [IFail p a] ([], []) = Done ([], [(a, p)]) [None].
Proof. exact failed_image. Qed.
Print Assumptions C72_failure_refuted.
