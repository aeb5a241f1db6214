(** Entropy (entropy.cpp). double arithmetic is idealised to real numbers. *)
From Coq Require Export Reals.
From Verif Require Export PeModel.
Local Open Scope Z_scope.

(** utils.cpp:11 log_2, the literal 1.44269504088896340736, taken as exactly 1 / ln 2. *)
Definition log_2 : R := (1 / ln 2)%R.
(** entropy.cpp:44-51: ++byte_count[byte] over the data; the counters have 32 bits. *)
Definition count_byte (h : list Z) (b : Z) : list Z := upd h (Z.to_nat b) (u32 (nth (Z.to_nat b) h 0 + 1)).
(** entropy.cpp:44-51: the loop over the data. *)
Definition histogram_from (h d : list Z) : list Z := fold_left count_byte d h.
(** entropy.cpp:42-54: the counters start at 0. *)
Definition byte_count0 : list Z := repeat 0 256.
(** entropy.cpp:77-89 calculate_entropy(byte_count, total_length). *)
Definition entropy_of (h : list Z) (n : Z) : R :=
  fold_left (fun e c => let t := (IZR c / IZR n)%R in if Rlt_dec 0 t then (e + Rabs (t * (ln t * log_2)))%R else e) h 0%R.
(** entropy.cpp:42-54 calculate_entropy(data, length); 17-39, the stream version, reads the same
    bytes with file.get(). *)
Definition calculate_entropy (d : list Z) : res R :=
  throw_if (zlen d =? 0) data_is_empty ;;; Ok (entropy_of (histogram_from byte_count0 d) (zlen d)).
(** entropy.cpp:8-14 calculate_entropy(section). *)
Definition section_entropy (s : section) : res R :=
  throw_if (zlen (raw_view s) =? 0) section_is_empty ;;; calculate_entropy (raw_view s).
(** entropy.cpp:57-74 calculate_entropy(pe). There is no check for an image without data: 0./0 is
    not greater than 0., so the result is then 0. *)
Definition image_entropy (p : pe) : R :=
  entropy_of (fold_left (fun h s => histogram_from h (raw_view s)) (p_sections p) byte_count0)
    (fold_left (fun n s => n + zlen (raw_view s)) (p_sections p) 0).
