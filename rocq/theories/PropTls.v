(** C43, C44, and the parts of C64 and C61 on TLS. *)
From Verif Require Import TlsRound TlsGrow SamplesDir SamplesRead.

(** C64 for TLS: whatever the image contains, reading ends with a result or an exception and reads no byte outside the
    image's buffers. *)
Theorem C64_reading_tls_is_safe : forall p, readable p -> base_ok p -> addressable p -> viewable p -> safe (get_tls p).
Proof. exact tls_safe. Qed.
Print Assumptions C64_reading_tls_is_safe.
(** A directory at address 0x2000 with three bytes of data at 0x2018, the index at 0x2100 and a callback, at 0x1234. *)
Definition C43_base : Z := imagebase sample_pe.
Definition C64_tls_data : list Z :=
  le 4 (C43_base + 0x2018) ++ le 4 (C43_base + 0x201b) ++ le 4 (C43_base + 0x2100) ++ le 4 (C43_base + 0x201c) ++ le 4 5 ++ le 4 0x300000 ++ [1; 2; 3; 0] ++ le 4 (C43_base + 0x1234) ++ le 4 0.
Definition C64_tls_pe : pe := sample_read 9 (0x2000, 24) C64_tls_data.
Example C64_tls_case : readable C64_tls_pe /\ base_ok C64_tls_pe /\ addressable C64_tls_pe /\ viewable C64_tls_pe /\
  get_tls C64_tls_pe = Ok (mk_tls 0x2018 0x201b 0x2100 0x201c 5 0x300000 [1; 2; 3] [0x1234]) /\ get_tls sample_pe = Throw directory_does_not_exist.
Proof.
  split; [apply sample_read_readable; try small; vm_compute; repeat constructor; intuition congruence|].
  split; [split; vm_compute; congruence|]. split; [repeat constructor; vm_compute; reflexivity|]. split; [repeat constructor; vm_compute; intuition congruence|]. split; vm_compute; reflexivity.
Qed.

(** C43: what is read after rebuilding is what was given, whether the raw data and the callbacks are written or are there
    already. Partial: without raw data the size of the zero fill is 0, and the places of the data and of the callbacks are in the
    file data of sections, so that no section has to grow for them ([C43_growing] is about the section that grows). *)
Theorem C43_round_trip_partial : forall p start i t off callbacks data k strip s, let pos := ceil_mult off (Z.of_nat (word_size p)) in
  0 <= off -> valid_tls p t -> (t_start t = 0 -> t_zero t = 0) -> room p start i (pos + tls_bytes p) -> pos + tls_bytes p < 2^31 -> unmapped p -> dirs_ok p -> dir_tls < nrva p <= 16 -> base_ok p ->
  nth_error (p_sections p) i = Some s -> zlen (raw_view s) < 2^31 -> tls_places p t (s_va s + pos) callbacks data -> imagebase p + t_callbacks t + zlen (callback_table p t) <= base_mod p ->
  exists p', rebuild_tls p t i off callbacks data k true strip = Ok (p', (s_va s + pos, tls_bytes p)) /\ get_tls p' = Ok t.
Proof.
  intros p start i t off callbacks data k strip s pos A B C D E F G H I J K L M.
  destruct (rebuild_tls_ok p start i t off callbacks data k true strip s A B C D E F G H I J K L M) as (p' & X1 & _ & _ & _ & _ & X2). eauto.
Qed.
Print Assumptions C43_round_trip_partial.
(** The data and the callbacks are written to the code section, the structure to the data section. *)
Definition C43_tls : tls := mk_tls 0x1000 0x1003 0x2100 0x1010 5 0x300000 [1; 2; 3] [0x1234; 0x1100].
Lemma C43_valid p : p_plus p = false -> imagebase p = C43_base -> valid_tls p C43_tls.
Proof.
  intros A B. assert (M : base_mod p = 2^32) by (unfold base_mod; rewrite A; reflexivity). unfold valid_tls, has_va. rewrite M, B.
  split; [repeat constructor; vm_compute; congruence|]. split; [repeat constructor; vm_compute; congruence|]. do 3 (split; [split; vm_compute; congruence|]).
  split; [repeat split; vm_compute; congruence|]. split; [reflexivity|]. split; [repeat split; vm_compute; congruence|]. split; [vm_compute; congruence|]. split; [repeat split; vm_compute; congruence|].
  split; [discriminate|]. split; [intros _; reflexivity|discriminate].
Qed.
Lemma C43_place a bs : 0x1000 <= a -> a + zlen bs <= 0x1200 -> place sample_pe a bs true.
Proof.
  intros H1 H2. pose proof (zlen_nonneg bs) as Z1. exists 0%nat, sample_code. split; [reflexivity|]. assert (Sp : span (salign sample_pe) sample_code = 0x1000) by (vm_compute; reflexivity).
  assert (Lr : zlen (raw_view sample_code) = 0x200) by (vm_compute; reflexivity). assert (Va : s_va sample_code = 0x1000) by reflexivity. assert (Lf : zlen (p_full sample_pe) <= 0x1000) by (vm_compute; congruence).
  unfold occupies, send. rewrite Sp, Lr, Va. split; [lia|]. split; [exact Lf|]. split; [lia|]. split; [lia|discriminate].
Qed.
Example C43_case : valid_tls sample_pe C43_tls /\ room sample_pe 0x1000 1 (ceil_mult 5 (Z.of_nat (word_size sample_pe)) + tls_bytes sample_pe) /\ unmapped sample_pe /\
  dirs_ok sample_pe /\ dir_tls < nrva sample_pe <= 16 /\ base_ok sample_pe /\ nth_error (p_sections sample_pe) 1 = Some sample_data /\
  tls_places sample_pe C43_tls (s_va sample_data + ceil_mult 5 (Z.of_nat (word_size sample_pe))) true true /\
  imagebase sample_pe + t_callbacks C43_tls + zlen (callback_table sample_pe C43_tls) <= base_mod sample_pe.
Proof.
  split; [apply C43_valid; reflexivity|]. split; [apply sample_room_data; vm_compute; intuition congruence|]. split; [repeat constructor|]. split; [exact sample_dirs|]. split; [split; vm_compute; congruence|].
  split; [split; vm_compute; congruence|]. split; [reflexivity|]. split; [|vm_compute; congruence].
  split; [|split]; intros _; [split; [apply C43_place; vm_compute; congruence|right; vm_compute; congruence]..|intros _; left; vm_compute; congruence].
Qed.
(** C43, when the section grows: the structure, the raw data and the table of callbacks are written to the last section, which is
    lengthened for what does not fit. The rest of the section, the other sections and the other directory entries are kept. *)
Theorem C43_growing : forall p start i t off strip s, let pos := ceil_mult off (Z.of_nat (word_size p)) in
  0 <= off -> valid_tls p t -> (t_start t = 0 -> t_zero t = 0) -> room p start i (pos + tls_bytes p) -> pos + tls_bytes p < 2^31 -> unmapped p -> dirs_ok p -> dir_tls < nrva p <= 16 -> base_ok p ->
  nth_error (p_sections p) i = Some s -> S i = length (p_sections p) -> zlen (raw_view s) < 2^31 -> tls_grows p t s pos -> imagebase p + t_callbacks t + zlen (callback_table p t) <= base_mod p ->
  exists p', rebuild_tls p t i off true true ExpandRaw true strip = Ok (p', (s_va s + pos, tls_bytes p)) /\ get_tls p' = Ok t /\
    same_headers p p' /\ image_ok p' start /\ only_directory p p' dir_tls (s_va s + pos, tls_bytes p) /\
    (forall j, j <> i -> nth_error (p_sections p') j = nth_error (p_sections p) j) /\ length (p_sections p') = length (p_sections p) /\
    exists x, nth_error (p_sections p') i = Some x /\ well_sized p x /\ s_name x = s_name s /\ s_va x = s_va s /\ s_chars x = s_chars s /\ span (salign p) s <= span (salign p) x /\
      forall k, 0 <= k -> (k < pos \/ pos + tls_bytes p <= k) -> (t_start t <> 0 -> s_va s + k < t_start t \/ t_end t <= s_va s + k) ->
        (t_callbacks t <> 0 -> s_va s + k < t_callbacks t \/ t_callbacks t + zlen (callback_table p t) <= s_va s + k) -> byte_of x k = byte_of s k.
Proof.
  intros p start i t off strip s pos A B C D E F G H I J K L M N.
  destruct (rebuild_tls_grown p start i t off true strip s A B C D E F G H I J K L M N) as (p' & X1 & X2 & X3 & X4 & X5 & X6 & X7 & x & Y1 & Y2 & Y3 & Y4 & Y5 & Y6 & Y7 & _). exists p'.
  repeat (split; [solve [auto]|]). exists x. repeat (split; [assumption|]). exact Y7.
Qed.
Print Assumptions C43_growing.
(** The data section has 0x40 bytes; data and callbacks are put behind them. *)
Definition C43_far : tls := mk_tls 0x2100 0x2103 0x2110 0x2120 5 0x300000 [1; 2; 3] [0x1234; 0x1100].
Example C43_growing_case : valid_tls sample_pe C43_far /\ room sample_pe 0x1000 1 (ceil_mult 5 (Z.of_nat (word_size sample_pe)) + tls_bytes sample_pe) /\ S 1 = length (p_sections sample_pe) /\
  tls_grows sample_pe C43_far sample_data (ceil_mult 5 (Z.of_nat (word_size sample_pe))) /\ s_va sample_data + zlen (raw_view sample_data) < t_start C43_far /\ imagebase sample_pe + t_callbacks C43_far + zlen (callback_table sample_pe C43_far) <= base_mod sample_pe.
Proof.
  split. { unfold valid_tls, has_va. split; [repeat constructor; vm_compute; congruence|]. split; [repeat constructor; vm_compute; congruence|]. do 3 (split; [split; vm_compute; congruence|]).
    split; [repeat split; vm_compute; congruence|]. split; [reflexivity|]. split; [repeat split; vm_compute; congruence|]. split; [vm_compute; congruence|]. split; [repeat split; vm_compute; congruence|].
    split; [discriminate|]. split; [intros _; reflexivity|discriminate]. }
  split; [apply sample_room_data; vm_compute; intuition congruence|]. split; [reflexivity|]. split; [|split; vm_compute; congruence].
  split; [vm_compute; congruence|]. split; [|split].
  - intros _. split; [split; vm_compute; congruence|]. split; [left; vm_compute; congruence|]. split; vm_compute; reflexivity.
  - intros _. split; [split; vm_compute; congruence|]. split; [left; vm_compute; congruence|]. split; vm_compute; reflexivity.
  - intros _ _. left. vm_compute. congruence.
Qed.
(** Without raw data the size of the zero fill is lost. *)
Theorem C43_zero_fill_refuted : exists p start i t off s p' where_ t', let pos := ceil_mult off (Z.of_nat (word_size p)) in
  valid_tls p t /\ t_start t = 0 /\ room p start i (pos + tls_bytes p) /\ unmapped p /\ dirs_ok p /\ dir_tls < nrva p <= 16 /\ base_ok p /\ nth_error (p_sections p) i = Some s /\
  tls_places p t (s_va s + pos) true true /\ rebuild_tls p t i off true true ExpandRaw true false = Ok (p', where_) /\ get_tls p' = Ok t' /\ t_zero t' <> t_zero t.
Proof.
  set (t := mk_tls 0 0 0x2100 0 5 0x300000 [] []). exists sample_pe, 0x1000, 1%nat, t, 0, sample_data.
  assert (M : match rebuild_tls sample_pe t 1 0 true true ExpandRaw true false with Ok (q, _) => match get_tls q with Ok u => t_zero u =? 0 | _ => false end | _ => false end = true) by (vm_compute; reflexivity).
  destruct (rebuild_tls sample_pe t 1 0 true true ExpandRaw true false) as [[p' w]| | |]; try discriminate M. destruct (get_tls p') as [t'| | |] eqn:E; try discriminate M. exists p', w, t'.
  split. { unfold valid_tls, has_va. split; [constructor|]. split; [constructor|]. do 2 (split; [split; vm_compute; congruence|]). split; [split; vm_compute; congruence|]. split; [repeat split; vm_compute; congruence|]. split; [reflexivity|]. split; [repeat split; vm_compute; congruence|]. split; [vm_compute; congruence|]. split; [repeat split; vm_compute; congruence|]. split; [reflexivity|]. split; [intros X; elim X; reflexivity|reflexivity]. }
  split; [reflexivity|]. split; [apply sample_room_data; vm_compute; intuition congruence|]. split; [repeat constructor|]. split; [exact sample_dirs|]. split; [split; vm_compute; congruence|]. split; [split; vm_compute; congruence|]. split; [reflexivity|].
  split; [split; [|split]; intros X; elim X; reflexivity|]. split; [reflexivity|]. split; [exact E|]. change (t_zero t) with 5. lia.
Qed.
Print Assumptions C43_zero_fill_refuted.

(** C44: rebuilding writes no byte outside the data of sections and reads none outside the raw data given, whether it succeeds
    or not. Partial: the raw data given is as long as the addresses say, the callbacks fit, and the structure ends below 2^32. *)
Theorem C44_within_partial : forall p t i off callbacks data k save strip, spec_layout p -> dirs_ok p -> nrva p <= 16 -> 0 <= off -> ceil_mult off (Z.of_nat (word_size p)) + tls_bytes p < 2^32 ->
  is_u32 (t_start t) -> is_u32 (t_end t) -> is_u32 (t_callbacks t) -> bytes (t_data t) -> (data = true -> t_start t <> 0 -> t_end t - t_start t <= zlen (t_data t)) ->
  (callbacks = true -> t_callbacks t <> 0 -> callbacks_fit p t /\ zlen (callback_table p t) < 2^32) -> safe (rebuild_tls p t i off callbacks data k save strip).
Proof. exact tls_within. Qed.
Print Assumptions C44_within_partial.
Definition C44_tls : tls := mk_tls 0x2100 0x2103 0x2110 0x2120 5 0x300000 [1; 2; 3] [0x1234; 0x1100].
(** The last section grows for the data and the callbacks. *)
Example C44_case : spec_layout sample_pe /\ dirs_ok sample_pe /\ callbacks_fit sample_pe C44_tls /\ zlen (callback_table sample_pe C44_tls) < 2^32 /\
  match rebuild_tls sample_pe C44_tls 1 0 true true ExpandRaw true false with Ok (q, _) => get_tls q = Ok C44_tls | _ => False end.
Proof.
  split; [apply (chain_layout sample_pe 0x1000); apply sample_image_ok1|]. split; [exact sample_dirs|]. split; [|split; vm_compute; reflexivity].
  intros [|[|[|j]]] s H L; cbn in H; try discriminate H; injection H as <-; cbn [Nat.eqb length p_sections sample_pe]; vm_compute; intuition congruence.
Qed.
(** Raw data shorter than the addresses say is read beyond its end *)
Theorem C44_short_data_refuted : exists p t i off u, spec_layout p /\ dirs_ok p /\ valid_tls p (mk_tls (t_start t) (t_end t) (t_index t) (t_callbacks t) (t_zero t) (t_chars t) (zeros (t_end t - t_start t)) (t_list t)) /\
  zlen (t_data t) + 1 < t_end t - t_start t /\ rebuild_tls p t i off true true ExpandRaw true false = Ub u.
Proof.
  exists sample_pe, (mk_tls 0x1000 0x1003 0x2100 0x1010 5 0x300000 [1] [0x1234; 0x1100]), 1%nat, 0. eexists. split; [apply (chain_layout sample_pe 0x1000); apply sample_image_ok1|]. split; [exact sample_dirs|].
  split; [|split; vm_compute; reflexivity]. unfold valid_tls, has_va. 
  split; [repeat constructor; vm_compute; congruence|]. split; [repeat constructor; vm_compute; congruence|]. do 3 (split; [split; vm_compute; congruence|]).
  split; [repeat split; vm_compute; congruence|]. split; [reflexivity|]. split; [repeat split; vm_compute; congruence|]. split; [vm_compute; congruence|]. split; [repeat split; vm_compute; congruence|].
  split; [discriminate|]. split; [intros _; reflexivity|discriminate].
Qed.
Print Assumptions C44_short_data_refuted.
(** and the null behind the callbacks can be written behind the end of a section's data, as its bytes are not counted *)
Theorem C44_callbacks_refuted : exists p t i off u, spec_layout p /\ dirs_ok p /\ valid_tls p t /\ off = 0 /\ rebuild_tls p t i off true true ExpandRaw true false = Ub u.
Proof.
  set (t := mk_tls 0x1000 0x1003 0x2100 0x11fc 5 0x300000 [1; 2; 3] [0x1234]). exists sample_pe, t, 1%nat, 0. eexists. split; [apply (chain_layout sample_pe 0x1000); apply sample_image_ok1|]. split; [exact sample_dirs|].
  split; [|split; [reflexivity|vm_compute; reflexivity]]. unfold valid_tls, has_va.
  split; [repeat constructor; vm_compute; congruence|]. split; [repeat constructor; vm_compute; congruence|]. do 3 (split; [split; vm_compute; congruence|]).
  split; [repeat split; vm_compute; congruence|]. split; [reflexivity|]. split; [repeat split; vm_compute; congruence|]. split; [vm_compute; congruence|]. split; [repeat split; vm_compute; congruence|].
  split; [discriminate|]. split; [intros _; reflexivity|discriminate].
Qed.
Print Assumptions C44_callbacks_refuted.
(** and with an offset near 2^32 the structure is written outside the section's data. *)
Theorem C44_offset_refuted : exists p t i off u, spec_layout p /\ dirs_ok p /\ valid_tls p t /\ is_u32 off /\ rebuild_tls p t i off true true ExpandRaw true false = Ub u.
Proof.
  exists sample_pe, C43_tls, 1%nat, 0xfffffff0. eexists. split; [apply (chain_layout sample_pe 0x1000); apply sample_image_ok1|]. split; [exact sample_dirs|].
  split; [apply C43_valid; reflexivity|]. split; [split; vm_compute; congruence|]. vm_compute; reflexivity.
Qed.
Print Assumptions C44_offset_refuted.

(** C61 for TLS: rebuilding refuses sections that are not attached *)
Theorem C61_tls_not_attached : forall p t i off callbacks data k save strip, nth_error (p_sections p) i = None -> rebuild_tls p t i off callbacks data k save strip = Throw section_is_not_attached.
Proof. exact tls_detached. Qed.
Print Assumptions C61_tls_not_attached.
(** and refuses to overflow a section that is not the last one. *)
Theorem C61_tls_no_overflow : forall p t i off callbacks data k save strip, let n := ceil_mult off (Z.of_nat (word_size p)) + tls_bytes p in 0 <= off -> n < 2^32 -> no_room p i n ->
  rebuild_tls p t i off callbacks data k save strip = Throw insufficient_space.
Proof. exact tls_full. Qed.
Print Assumptions C61_tls_no_overflow.
(** On success, only the section given, the sections at the addresses of what is written, and, if asked, the directory entry differ. *)
Theorem C61_tls_only : forall p start i t off callbacks data k save strip s, let pos := ceil_mult off (Z.of_nat (word_size p)) in
  0 <= off -> valid_tls p t -> (t_start t = 0 -> t_zero t = 0) -> room p start i (pos + tls_bytes p) -> pos + tls_bytes p < 2^31 -> unmapped p -> dirs_ok p -> dir_tls < nrva p <= 16 -> base_ok p ->
  nth_error (p_sections p) i = Some s -> zlen (raw_view s) < 2^31 -> tls_places p t (s_va s + pos) callbacks data -> imagebase p + t_callbacks t + zlen (callback_table p t) <= base_mod p ->
  exists p', rebuild_tls p t i off callbacks data k save strip = Ok (p', (s_va s + pos, tls_bytes p)) /\ same_headers p p' /\ image_ok p' start /\
    (if save then only_directory p p' dir_tls (s_va s + pos, tls_bytes p) else h_dirs (p_nt p') = h_dirs (p_nt p)) /\
    forall j sj, nth_error (p_sections p) j = Some sj -> j <> i -> (data = true -> t_start t <> 0 -> ~ occupies (salign p) sj (t_start t)) ->
       (callbacks = true -> t_callbacks t <> 0 -> ~ occupies (salign p) sj (t_callbacks t)) -> nth_error (p_sections p') j = Some sj.
Proof.
  intros p start i t off callbacks data k save strip s pos A B C D E F G H I J K L M.
  destruct (rebuild_tls_ok p start i t off callbacks data k save strip s A B C D E F G H I J K L M) as (p' & X1 & X2 & X3 & X4 & X5 & _). eauto 10.
Qed.
Print Assumptions C61_tls_only.
Example C61_tls_case : no_room sample_pe 0 (0x1f0 + tls_bytes sample_pe) /\ nth_error (p_sections sample_pe) 2 = None.
Proof. split; [apply sample_no_room; vm_compute; reflexivity|reflexivity]. Qed.
