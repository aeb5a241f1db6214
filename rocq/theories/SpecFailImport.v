(** Vocabulary of C83 for imports. *)
From Verif Require Export SpecFail SpecImport SpecSection FailImportModel.

(** The images differ at most in the data of sections and in the cached header bytes. *)
Definition same_heads (p q : pe) : Prop :=
  set_p_full [] (set_p_sections [] q) = set_p_full [] (set_p_sections [] p) /\ Forall2 same_header (p_sections p) (p_sections q).
