(** Vocabulary of C85. *)
From Verif Require Export SpecKeep SpecConfig.

(** The data of the last section do not end with a zero byte: realigning the image has nothing to strip there. *)
Definition tight_end (p : pe) : Prop :=
  forall before s d b, p_sections p = before ++ [s] -> raw_view s = d ++ [b] -> b <> 0.
(** As [saved], by a writer that was not asked to keep bound imports in the headers. *)
Definition saved_in_place (p : pe) (a : Z) (r : pe) : Prop :=
  exists p1 strip change_headers q out, realign_file p a = Ok p1 /\
    data_start strip false p1 + data_total (falign p1) (p_sections p1) < 2^32 /\ no_stale_pointers (data_start strip false p1) p1 /\
    rebuild_pe p1 strip change_headers false = Ok (q, out) /\ loaded_from out r.
