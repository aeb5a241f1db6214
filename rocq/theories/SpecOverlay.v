(** What a file has behind its sections (C77). *)
From Verif Require Export LoadModel SpecLoad SpecRebuild.

(** Size and end of the data of section [i] in the file, as its section header gives them: SizeOfRawData at offset 16, PointerToRawData at offset 20. *)
Definition raw_size_at (file : list Z) (p : pe) (i : nat) : Z := le_at file (section_header_at p i + 16) 4.
Definition raw_end_at (file : list Z) (p : pe) (i : nat) : Z := le_at file (section_header_at p i + 20) 4 + raw_size_at file p i.
(** The file goes on behind the data of every section that has data. *)
Definition goes_on (file : list Z) (p : pe) : Prop :=
  forall i, (i < length (p_sections p))%nat -> raw_size_at file p i <> 0 -> raw_end_at file p i < zlen file.
(** The last section of the table has data, and none has data behind it. *)
Definition last_is_last (file : list Z) (p : pe) : Prop :=
  let n := (length (p_sections p) - 1)%nat in
  p_sections p <> [] /\ raw_size_at file p n <> 0 /\ forall i, (i <= n)%nat -> raw_size_at file p i <> 0 -> raw_end_at file p i <= raw_end_at file p n.
