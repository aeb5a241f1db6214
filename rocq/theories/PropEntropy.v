(** C50: entropy. *)
From Coq Require Import Lra.
From Verif Require Import EntropyFacts SamplesDir.

(** The byte histogram counts the occurrences of each byte value; they add up to the length. *)
Theorem C50_histogram : forall d, bytes d -> zlen d < 2^32 ->
  histogram_from byte_count0 d = map (fun b => occurrences b d) all_bytes /\ zsum (histogram_from byte_count0 d) = zlen d.
Proof.
  intros d B L. split; [exact (histogram_counts d B L)|]. rewrite (histogram_counts d B L). exact (occurrences_sum d B).
Qed.
Print Assumptions C50_histogram.
(** The result is Shannon's entropy in bits per byte, in exact arithmetic. *)
Theorem C50_shannon : forall d, bytes d -> 0 < zlen d < 2^32 -> calculate_entropy d = Ok (shannon d).
Proof. exact entropy_shannon. Qed.
Print Assumptions C50_shannon.
Theorem C50_bounds : forall d, bytes d -> 0 < zlen d -> (0 <= shannon d <= 8)%R.
Proof. exact shannon_bounds. Qed.
Print Assumptions C50_bounds.
(** It is 0 exactly when there is one distinct byte value. *)
Theorem C50_zero : forall d, bytes d -> 0 < zlen d -> (shannon d = 0%R <-> exists b, Forall (eq b) d).
Proof. exact shannon_zero. Qed.
Print Assumptions C50_zero.
Theorem C50_empty : forall d, (calculate_entropy d = Throw data_is_empty <-> d = []) /\ forall s, raw_view s = [] -> section_entropy s = Throw section_is_empty.
Proof. exact entropy_empty. Qed.
Print Assumptions C50_empty.
(** The entropy of an image is that of the data of all its sections. *)
Theorem C50_image : forall p, let d := concat (map raw_view (p_sections p)) in bytes d -> 0 < zlen d < 2^32 -> image_entropy p = shannon d.
Proof. exact image_entropy_all. Qed.
Print Assumptions C50_image.
Example C50_case : let d := concat (map raw_view (p_sections sample_pe)) in bytes d /\ 0 < zlen d < 2^32 /\ ~ exists b, Forall (eq b) d.
Proof.
  intros d. split.
  - unfold d. change (concat (map raw_view (p_sections sample_pe))) with (repeat 0x90 512 ++ [7;8;9]). apply Forall_app. split; [|repeat constructor; lia].
    apply Forall_forall. intros x Hx. apply repeat_spec in Hx. lia.
  - split; [split; reflexivity|]. intros [b F]. rewrite Forall_forall in F. assert (b = 7) by (apply F; unfold d; apply in_or_app; right; left; reflexivity).
    assert (b = 8) by (apply F; unfold d; apply in_or_app; right; right; left; reflexivity). lia.
Qed.
