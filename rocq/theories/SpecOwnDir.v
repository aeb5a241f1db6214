(** Vocabulary of C87: what the readers of data directories depend on. *)
From Verif Require Export SpecKeep DebugModel SpecLoad HeaderModel.

(** The image with another entry [d] (address and size) in its data directory number [k]. *)
Definition with_directory (k : nat) (d : Z * Z) (p : pe) : pe := with_nt (fun h => set_h_dirs (upd (h_dirs h) k d) h) p.
(** Two images with the same format, sections, header bytes, debug data, section alignment, image base, characteristics and number of directories. *)
Definition same_view (p q : pe) : Prop :=
  p_plus q = p_plus p /\ p_sections q = p_sections p /\ p_full q = p_full p /\ p_debug q = p_debug p /\ salign q = salign p /\ imagebase q = imagebase p /\ chars q = chars p /\ nrva q = nrva p.
(** ... and the same entry of the data directory number [n]. *)
Definition same_entry (n : nat) (p q : pe) : Prop := nth_error (h_dirs (p_nt q)) n = nth_error (h_dirs (p_nt p)) n.
(** A reader that looks at nothing else. *)
Definition looks_only_at {A} (n : nat) (read : pe -> res A) : Prop := forall p q, same_view p q -> same_entry n p q -> read q = read p.
