(** Theorems about the memory owned by resource directory entries (C71). *)
From Verif Require Import OwnTreeRun.

(** C71. Whatever a program does with resource directory entries, and whether or not there is memory, as long as it does not copy
    from an entry into one that it is inside of or that is inside of it: no memory is used after it was freed nor freed twice, ... *)
Theorem C71_safe_partial : forall ops, Forall rplain ops -> rrun rstart ops <> Bug.
Proof. intros ops F E. pose proof (program_correct ops F) as C. rewrite E in C. exact C. Qed.
Print Assumptions C71_safe_partial.
(** ... it sees what it would see with plain values, each entry having its own, and a step that runs out of memory leaves the objects
    as the specification says ... *)
Theorem C71_values_partial : forall ops h os, Forall rplain ops -> rrun rstart ops = Done h os -> exists vs, rvrun [] ops vs os /\ zlen h <= 1 + total_blocks vs.
Proof. intros ops h os F E. pose proof (program_correct ops F) as C. rewrite E in C. destruct C as (vs & R & M & _). exists vs. split; assumption. Qed.
Print Assumptions C71_values_partial.
(** ... and no memory is left when all objects are destroyed. *)
Theorem C71_no_leak_partial : forall ops h os, Forall rplain ops -> rrun rstart ops = Done h os -> exists vs, rvrun [] ops vs os /\ (vs = [] -> h = rstart).
Proof. intros ops h os F E. pose proof (program_correct ops F) as C. rewrite E in C. destruct C as (vs & R & _ & M). exists vs. split; assumption. Qed.
Print Assumptions C71_no_leak_partial.
(** A directory with an entry with data gets a copy of its own entry; one of them is changed, copied and outlives the others. *)
Definition C71_build : list rop :=
  [ONew; OSetId (0%nat, []) 5; OAddDir (0%nat, []) [7] [Some 64]; ONew; OSetName (1%nat, []) [0x61]; OAddData (1%nat, []) 1252 [1; 2; 3] [Some 96];
   OPush (0%nat, []) (1%nat, []) true [Some 128; Some 160]; OPush (0%nat, []) (0%nat, []) true [Some 192; Some 224; Some 256; Some 288; Some 320];
   OAddData (0%nat, [1%nat; 0%nat]) 0 [9] [None]; OAddData (0%nat, [1%nat; 0%nat]) 0 [9] [Some 352]; OCopy (0%nat, [1%nat]) [Some 384; Some 416; Some 448]].
Definition C71_use : list rop := [OGet (0%nat, []); OGet (0%nat, [0%nat]); ODestroy 0%nat; OGet (1%nat, [0%nat]); OAssign (0%nat, []) (1%nat, [0%nat]) [Some 64]; OPop (1%nat, []); OGet (0%nat, []); OGet (0%nat, [0%nat])].
Ltac C71_plain := repeat (apply Forall_cons; [cbn [rplain]; first [exact I|split; [discriminate|split; intros (i & q & E1 & E2); discriminate]|intros _ (i & q & E1 & E2); discriminate]|]); apply Forall_nil.
Example C71_case : Forall rplain (C71_build ++ C71_use) /\ exists h, rrun rstart (C71_build ++ C71_use) =
  Done h [RNothing; RNothing; RNothing; RNothing; RNothing; RNothing; RNothing; RNothing; RNoMemory; RNothing; RNothing;
          RShown 5 [] false false (InDir [7] 1 1 2); RShown 0 [0x61] true true (InData 1252 [1; 2; 3]); RNothing; RShown 0 [0x61] true true (InData 0 [9]); RNothing; RNothing; RShown 0 [0x61] true true (InData 0 [9]); RThrow] /\ zlen h = 4.
Proof. split; [unfold C71_build, C71_use; cbn [app]; C71_plain|]. eexists. split; vm_compute; reflexivity. Qed.
Example C71_case_end : Forall rplain (C71_build ++ C71_use ++ [ODestroy 1%nat; ODestroy 0%nat]) /\ exists os, rrun rstart (C71_build ++ C71_use ++ [ODestroy 1%nat; ODestroy 0%nat]) = Done rstart os.
Proof. split; [unfold C71_build, C71_use; cbn [app]; C71_plain|]. eexists. vm_compute. reflexivity. Qed.

(** C71. What the restriction excludes: an entry assigned to itself loses its contents; *)
Theorem C71_self_assignment_refuted : exists ops h h' os, rrun rstart ops = Done h os /\
  rrun rstart (ops ++ [OGet (0%nat, []); OAssign (0%nat, []) (0%nat, []) [Some 256]; OGet (0%nat, [])]) = Done h' (os ++ [RShown 0 [] true false (InData 0 [1]); RNothing; RShown 0 [] true false InNothing]).
Proof. exists [ONew; OAddData (0%nat, []) 0 [1] [Some 64]]. do 3 eexists. split; vm_compute; reflexivity. Qed.
Print Assumptions C71_self_assignment_refuted.
(** the data of an entry, and its directory, added to the entry itself are used after they were freed; *)
Theorem C71_own_data_refuted : exists ops, rrun rstart (ops ++ [OAddDataOf (0%nat, []) (0%nat, []) [Some 256]]) = Bug /\ exists h os, rrun rstart ops = Done h os.
Proof. exists [ONew; OAddData (0%nat, []) 0 [1] [Some 64]]. split; [vm_compute; reflexivity|]. do 2 eexists. vm_compute. reflexivity. Qed.
Print Assumptions C71_own_data_refuted.
Theorem C71_own_directory_refuted : exists ops, rrun rstart (ops ++ [OAddDirOf (0%nat, []) (0%nat, []) [Some 256]]) = Bug /\ exists h os, rrun rstart ops = Done h os.
Proof. exists [ONew; OAddDir (0%nat, []) [] [Some 64]]. split; [vm_compute; reflexivity|]. do 2 eexists. vm_compute. reflexivity. Qed.
Print Assumptions C71_own_directory_refuted.
(** an entry replaced with one of the entries inside it reads memory it has freed; *)
Theorem C71_assign_inner_refuted : exists ops, rrun rstart (ops ++ [OAssign (0%nat, []) (0%nat, [0%nat]) [Some 256]]) = Bug /\ exists h os, rrun rstart ops = Done h os.
Proof. exists [ONew; OAddDir (0%nat, []) [] [Some 64]; ONew; OPush (0%nat, []) (1%nat, []) true [Some 128]]. split; [vm_compute; reflexivity|]. do 2 eexists. vm_compute. reflexivity. Qed.
Print Assumptions C71_assign_inner_refuted.
(** an entry of a directory added to it once more is looked at after the old storage was freed; *)
Theorem C71_push_inner_refuted : exists ops, rrun rstart (ops ++ [OPush (0%nat, []) (0%nat, [0%nat]) true [Some 256]]) = Bug /\ exists h os, rrun rstart ops = Done h os.
Proof. exists [ONew; OAddDir (0%nat, []) [] [Some 64]; ONew; OPush (0%nat, []) (1%nat, []) true [Some 128]]. split; [vm_compute; reflexivity|]. do 2 eexists. vm_compute. reflexivity. Qed.
Print Assumptions C71_push_inner_refuted.
(** and an entry assigned to one inside it is copied without what that one contained. *)
Theorem C71_assign_outer_refuted : exists ops, Forall rplain ops /\ exists h os, rrun rstart ops = Done h os /\
  exists h' o, rrun rstart (ops ++ [OAssign (0%nat, [0%nat]) (0%nat, []) [Some 320; Some 352; Some 384]; OGet (0%nat, [0%nat; 0%nat])]) = Done h' (os ++ [RNothing; o]) /\
  forall vs, rvrun [] ops vs os -> rvstep vs (OGet (0%nat, [0%nat])) false <> Some (vs, o).
Proof. exact assigned_inside. Qed.
Print Assumptions C71_assign_outer_refuted.
