(** Vocabulary for what a failed edit leaves behind (C83). *)
From Verif Require Export SpecPe FailModel.

(** Section [i], if there is one, has a virtual size, and its sizes are at most 2 GiB. *)
Definition sized (p : pe) (i : nat) : Prop := forall s, nth_error (p_sections p) i = Some s ->
  0 < s_vsize s <= 2^31 /\ 0 <= s_rawsize s <= 2^31 /\ zlen (raw_view s) <= 2^31.
(** Section [i] has at most 2 GiB of data. *)
Definition at_most_2g (q : pe) (i : nat) : Prop := forall s, nth_error (p_sections q) i = Some s -> zlen (raw_view s) <= 2^31.
(** The headers have an entry for directory [id], if it is to be stored. *)
Definition entry_for (p : pe) (save : bool) (id : Z) : Prop := save = true -> id < nrva p.
(** The images differ at most in section [i]. *)
Definition same_but (i : nat) (p q : pe) : Prop :=
  q = set_p_sections (p_sections q) p /\ length (p_sections q) = length (p_sections p) /\ forall j, j <> i -> nth_error (p_sections q) j = nth_error (p_sections p) j.
(** [m] (what is left in memory and the result) tells the same as the function [f] of the other models. *)
Definition same_result {A} (m : pe * res A) (f : res (pe * A)) : Prop :=
  (forall q a, m = (q, Ok a) <-> f = Ok (q, a)) /\ (forall e, snd m = Throw e <-> f = Throw e).
Definition same_image (m : pe * res unit) (f : res pe) : Prop :=
  (forall q, m = (q, Ok tt) <-> f = Ok q) /\ (forall e, snd m = Throw e <-> f = Throw e).
