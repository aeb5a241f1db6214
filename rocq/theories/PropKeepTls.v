(** C80 for the TLS directory. *)
From Verif Require Import KeepTls SamplesRaw PropTls.

(** The TLS directory, its data and its callbacks, rebuilt into an image that is then realigned, written and opened again. Missing, as in C43: places for
    the data and the callbacks outside the data of sections in the file, and a zero fill without data. *)
Theorem C80_tls_partial : forall p start i t off callbacks data k strip s a, let pos := ceil_mult off (Z.of_nat (word_size p)) in editable a p ->
  0 <= off -> valid_tls p t -> (t_start t = 0 -> t_zero t = 0) -> room p start i (pos + tls_bytes p) -> pos + tls_bytes p < 2^31 -> dir_tls < nrva p <= 16 -> base_ok p ->
  nth_error (p_sections p) i = Some s -> zlen (raw_view s) < 2^31 -> tls_places p t (s_va s + pos) callbacks data -> imagebase p + t_callbacks t + zlen (callback_table p t) <= base_mod p ->
  exists p' where_, rebuild_tls p t i off callbacks data k true strip = Ok (p', where_) /\ editable a p' /\ get_tls p' = Ok t /\ forall r, saved p' a r -> get_tls r = Ok t.
Proof.
  intros p start i t off callbacks data k strip s a pos A B C D E F G H I J K L. destruct (tls_saved p start i t off callbacks data k strip s a A B C D E F G H I J K L) as (p' & X). exists p', (s_va s + pos, tls_bytes p). exact X.
Qed.
Print Assumptions C80_tls_partial.
Definition C80_tls_image : pe := result sample_pe (rmap fst (rebuild_tls sample_pe C43_tls 1 5 true true ExpandRaw true false)).
Example C80_tls_case : editable 0x200 sample_pe /\ valid_tls sample_pe C43_tls /\ room sample_pe 0x1000 1 (ceil_mult 5 (Z.of_nat (word_size sample_pe)) + tls_bytes sample_pe) /\
  dir_tls < nrva sample_pe <= 16 /\ base_ok sample_pe /\ nth_error (p_sections sample_pe) 1 = Some sample_data /\ zlen (raw_view sample_data) < 2^31 /\
  tls_places sample_pe C43_tls (s_va sample_data + ceil_mult 5 (Z.of_nat (word_size sample_pe))) true true /\
  imagebase sample_pe + t_callbacks C43_tls + zlen (callback_table sample_pe C43_tls) <= base_mod sample_pe /\
  rmap fst (rebuild_tls sample_pe C43_tls 1 5 true true ExpandRaw true false) = Ok C80_tls_image /\ saved C80_tls_image 0x200 (opened_of C80_tls_image) /\ get_tls (opened_of C80_tls_image) = Ok C43_tls.
Proof.
  destruct C43_case as (A & B & _ & _ & C & D & E & F & G). split; [exact sample_editable|]. do 5 (split; [assumption|]). split; [vm_compute; reflexivity|]. split; [exact F|]. split; [exact G|].
  split; [apply (is_ok_result sample_pe); vm_compute; reflexivity|]. split; [apply saved_plain, saved_of; vm_compute; reflexivity|]. vm_compute. reflexivity.
Qed.
(** The same when the data and the callbacks are in the last section and it grows for them, as in [C43_growing]. *)
Theorem C80_tls_growing : forall p start i t off strip s a, let pos := ceil_mult off (Z.of_nat (word_size p)) in editable a p ->
  0 <= off -> valid_tls p t -> (t_start t = 0 -> t_zero t = 0) -> room p start i (pos + tls_bytes p) -> pos + tls_bytes p < 2^31 -> dir_tls < nrva p <= 16 -> base_ok p ->
  nth_error (p_sections p) i = Some s -> S i = length (p_sections p) -> zlen (raw_view s) < 2^31 -> tls_grows p t s pos -> imagebase p + t_callbacks t + zlen (callback_table p t) <= base_mod p ->
  exists p', rebuild_tls p t i off true true ExpandRaw true strip = Ok (p', (s_va s + pos, tls_bytes p)) /\ editable a p' /\ get_tls p' = Ok t /\ forall r, saved p' a r -> get_tls r = Ok t.
Proof. exact tls_grown_saved. Qed.
Print Assumptions C80_tls_growing.
Definition C80_tls_grown : pe := result sample_pe (rmap fst (rebuild_tls sample_pe C43_far 1 5 true true ExpandRaw true false)).
Example C80_tls_growing_case : editable 0x200 sample_pe /\ tls_grows sample_pe C43_far sample_data (ceil_mult 5 (Z.of_nat (word_size sample_pe))) /\
  rmap fst (rebuild_tls sample_pe C43_far 1 5 true true ExpandRaw true false) = Ok C80_tls_grown /\ saved C80_tls_grown 0x200 (opened_of C80_tls_grown) /\ get_tls (opened_of C80_tls_grown) = Ok C43_far.
Proof.
  destruct C43_growing_case as (_ & _ & _ & A & _). split; [exact sample_editable|]. split; [exact A|].
  split; [apply (is_ok_result sample_pe); vm_compute; reflexivity|]. split; [apply saved_plain, saved_of; vm_compute; reflexivity|]. vm_compute. reflexivity.
Qed.
