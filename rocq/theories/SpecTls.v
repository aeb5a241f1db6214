(** Specification vocabulary for TLS. *)
From Verif Require Export TlsModel SpecConfig.

(** Fields in the range of their C++ types, addresses that the image has as virtual addresses, and raw data that is as long
    as the addresses say. *)
Definition valid_tls (p : pe) (t : tls) : Prop :=
  Forall (has_va p) (t_list t) /\ bytes (t_data t) /\ is_u32 (t_zero t) /\ is_u32 (t_chars t) /\
  0 <= t_start t <= t_end t /\ has_va p (t_end t) /\ 0 < t_index t /\ has_va p (t_index t) /\ 0 <= t_callbacks t /\ has_va p (t_callbacks t) /\
  (t_start t = 0 -> t_data t = []) /\ (t_start t <> 0 -> zlen (t_data t) = t_end t - t_start t) /\ (t_callbacks t = 0 -> t_list t = []).
(** The table of callbacks: their virtual addresses and a null. *)
Definition callback_table (p : pe) (t : tls) : list Z := concat (map (le (word_size p)) (map (Z.add (imagebase p)) (t_list t) ++ [0])).
(** Address [a] is in a section behind the headers whose data in the file has the bytes from [a] to the end of [bs];
    they are [bs] already unless they are to be written. *)
Definition place (p : pe) (a : Z) (bs : list Z) (write : bool) : Prop :=
  exists j s, nth_error (p_sections p) j = Some s /\ occupies (salign p) s a /\ zlen (p_full p) <= s_va s /\
    a + zlen bs <= s_va s + zlen (raw_view s) /\ zlen (raw_view s) <= span (salign p) s < 2^31 /\
    (write = false -> slice (raw_view s) (a - s_va s) (zlen bs) = bs).
Definition apart (a n b m : Z) : Prop := a + n <= b \/ b + m <= a.
(** The place for the table of callbacks: inside the file data of any section that has its first byte, or in the last section,
    which can grow, at most 2^31 bytes from its start. *)
Definition callbacks_fit (p : pe) (t : tls) : Prop :=
  forall j s, nth_error (p_sections p) j = Some s -> s_va s <= t_callbacks t ->
    if Nat.eqb (S j) (length (p_sections p)) then t_callbacks t - s_va s + zlen (callback_table p t) <= 2^31
    else occupies (salign p) s (t_callbacks t) -> t_callbacks t + zlen (callback_table p t) <= s_va s + zlen (raw_view s).
(** The size of the structure. *)
Definition tls_bytes (p : pe) : Z := if p_plus p then 40 else 24.
(** The raw data and the table of callbacks, if any, have a place, and they and the structure at address [at_] do not overlap. *)
Definition tls_places (p : pe) (t : tls) (at_ : Z) (callbacks data : bool) : Prop :=
  (t_start t <> 0 -> place p (t_start t) (t_data t) data /\ apart at_ (tls_bytes p) (t_start t) (zlen (t_data t))) /\
  (t_callbacks t <> 0 -> place p (t_callbacks t) (callback_table p t) callbacks /\ apart at_ (tls_bytes p) (t_callbacks t) (zlen (callback_table p t))) /\
  (t_start t <> 0 -> t_callbacks t <> 0 -> apart (t_start t) (zlen (t_data t)) (t_callbacks t) (zlen (callback_table p t))).
(** The raw data and the table of callbacks, if any, start in the addresses of section [s], end less than 2^31 bytes from its start and
    do not reach the end of the address space; they and the structure at offset [pos] of the section do not overlap. *)
Definition tls_grows (p : pe) (t : tls) (s : section) (pos : Z) : Prop :=
  pos + tls_bytes p <= span (salign p) s /\
  (t_start t <> 0 -> occupies (salign p) s (t_start t) /\ apart (s_va s + pos) (tls_bytes p) (t_start t) (zlen (t_data t)) /\
     t_end t - s_va s < 2^31 /\ s_va s + ceil_mult (t_end t - s_va s) (salign p) < 2^32) /\
  (t_callbacks t <> 0 -> occupies (salign p) s (t_callbacks t) /\ apart (s_va s + pos) (tls_bytes p) (t_callbacks t) (zlen (callback_table p t)) /\
     t_callbacks t + zlen (callback_table p t) - s_va s < 2^31 /\ s_va s + ceil_mult (t_callbacks t + zlen (callback_table p t) - s_va s) (salign p) < 2^32) /\
  (t_start t <> 0 -> t_callbacks t <> 0 -> apart (t_start t) (zlen (t_data t)) (t_callbacks t) (zlen (callback_table p t))).
