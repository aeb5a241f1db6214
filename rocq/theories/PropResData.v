(** C51, C52, C53: bitmaps, string tables and message tables. *)
From Verif Require Import ResDataFacts Samples.

(** C51: reading back an added bitmap returns the file with a regenerated header: the same
    bytes behind it, the same length. *)
Theorem C51_round_trip : forall file d, bytes file -> zlen file < 2^32 -> bitmap_data file = Ok d -> 40 <= zlen d ->
  create_bitmap d = Ok (bitmap_header d ++ zdrop 14 file) /\ zlen (bitmap_header d ++ zdrop 14 file) = zlen file.
Proof. exact bitmap_round_trip. Qed.
Print Assumptions C51_round_trip.
Theorem C51_too_short : forall file, zlen file < 54 -> exists e, (d <- bitmap_data file ;; create_bitmap d) = Throw e.
Proof. exact bitmap_rejected. Qed.
Print Assumptions C51_too_short.
(** A 1x1 bitmap with 1 bit per pixel: pixels behind a table of two colours. *)
Definition C51_file : list Z := [0x42; 0x4d] ++ le 4 66 ++ [0;0;0;0] ++ le 4 62 ++
  le 4 40 ++ le 4 1 ++ le 4 1 ++ le 2 1 ++ le 2 1 ++ le 4 0 ++ le 4 4 ++ le 4 0 ++ le 4 0 ++ le 4 0 ++ le 4 0 ++ le 4 0 ++ le 4 0xffffff ++ [0x80;0;0;0].
Example C51_case : bytes C51_file /\ (d <- bitmap_data C51_file ;; create_bitmap d) = Ok C51_file /\ (d <- bitmap_data C51_file ;; Ok (zlen d)) = Ok 52.
Proof. split; [vm_compute; repeat constructor; intuition congruence|split; vm_compute; reflexivity]. Qed.

(** C52 (part): there is a result exactly for data that begin with 16 counted strings, and the
    result is those strings with their ids. Missing: safety for other data, refuted below. *)
Theorem C52_exact_partial : forall id d m, bytes d ->
  (parse_string_list id d = Ok m <->
   exists ss rest, length ss = 16%nat /\ Forall string_ok ss /\ d = concat (map counted ss) ++ rest /\ m = numbered id 0 ss).
Proof. exact string_table_iff. Qed.
Print Assumptions C52_exact_partial.
(** Strings returned come from inside the data. *)
Theorem C52_inside_partial : forall id d m, bytes d -> parse_string_list id d = Ok m ->
  forall k s, In (k, s) m -> wide_ok s /\ exists off, stands d off (wide s).
Proof. exact string_table_inside. Qed.
Print Assumptions C52_inside_partial.
(** Looking up string [id] in table [id / 16 + 1] finds string number [id mod 16]; empty ones are absent. *)
Theorem C52_lookup : forall id ss, is_u16 id -> length ss = 16%nat ->
  get_string id (numbered (id / 16 + 1) 0 ss) = match nth_error ss (Z.to_nat (id mod 16)) with Some (x :: s) => Ok (x :: s) | _ => Throw resource_string_not_found end.
Proof. exact string_lookup. Qed.
Print Assumptions C52_lookup.
Definition C52_ss : list (list Z) := [[72;105]; []; [0x20ac]] ++ repeat [] 13.
Example C52_case : Forall string_ok C52_ss /\ parse_string_list 3 (concat (map counted C52_ss) ++ [9]) = Ok [(32, [72;105]); (34, [0x20ac])].
Proof. split; [repeat constructor; vm_compute; congruence|vm_compute; reflexivity]. Qed.
(** C52 fails: the length check counts units as bytes, so a long enough length word makes the
    reader copy units from behind the data. *)
Theorem C52_safe_refuted : exists id d, is_u32 id /\ bytes d /\ parse_string_list id d = Ub OobRead.
Proof. exists 1, (le 2 5 ++ [1;2;3;4;5]). split; [small|]. split; [repeat constructor; lia|vm_compute; reflexivity]. Qed.
Print Assumptions C52_safe_refuted.

(** C53: for any bytes, parsing ends with messages or an exception and reads only the data. *)
Theorem C53_safe : forall d, bytes d -> safe (parse_message_list d).
Proof. exact parse_message_safe. Qed.
Print Assumptions C53_safe.
(** There is a result exactly for well-formed tables. *)
Theorem C53_exact : forall d m, bytes d -> zlen d < 2^32 ->
  (parse_message_list d = Ok m <-> exists t, message_table d t /\ first_wins (concat (map snd t)) m).
Proof. exact message_table_iff. Qed.
Print Assumptions C53_exact.
(** Its ids are those of the blocks, each from the low to the high id. *)
Theorem C53_ids : forall d m, bytes d -> zlen d < 2^32 -> parse_message_list d = Ok m ->
  exists t, message_table d t /\ first_wins (concat (map snd t)) m /\ forall k, In k (map fst m) <-> exists lo hi l, In (lo, hi, l) t /\ lo <= k <= hi.
Proof. exact parse_message_ids. Qed.
Print Assumptions C53_ids.
Definition C53_d : list Z := le 4 1 ++ le 4 7 ++ le 4 8 ++ le 4 16 ++ [8;0;0;0;72;105;0;0] ++ [8;0;1;0;0xac;0x20;0;0].
Example C53_case : bytes C53_d /\ parse_message_list C53_d = Ok [(7, (false, [72;105])); (8, (true, [0x20ac]))].
Proof. split; [repeat constructor; lia|vm_compute; reflexivity]. Qed.
(** A block that ends at the largest id is rejected although it is well-formed: the id counter
    wraps and the reader goes on behind the block. *)
Theorem C53_largest_id_rejected : exists d lo off l, bytes d /\ stands d 0 (le 4 1 ++ le 4 lo ++ le 4 (2^32 - 1) ++ le 4 off) /\
  message_entries d off lo l /\ zlen l = 2^32 - 1 - lo + 1 /\ 0 < zlen l /\ 28 <= zlen d /\ parse_message_list d = Throw resource_incorrect_message_table.
Proof.
  exists (le 4 1 ++ le 4 (2^32 - 1) ++ le 4 (2^32 - 1) ++ le 4 28 ++ zeros 12 ++ [6;0;0;0;72;105]), (2^32 - 1), 28, [(2^32 - 1, (false, [72;105]))].
  split; [vm_compute; repeat constructor; intuition congruence|].
  split; [exists [], (zeros 12 ++ [6;0;0;0;72;105]); split; reflexivity|].
  split; [apply (more_entries _ _ _ [6;0;0;0;72;105])|].
  - exists (le 4 1 ++ le 4 (2^32 - 1) ++ le 4 (2^32 - 1) ++ le 4 28 ++ zeros 12), []. split; reflexivity.
  - apply (entry_ansi 0 [72;105] [72;105]); [small|reflexivity|repeat constructor; lia|reflexivity|].
    split; [exists 0; reflexivity|]. right. exists 105, [72]. split; [reflexivity|lia].
  - constructor.
  - split; [reflexivity|]. split; [reflexivity|]. split; [vm_compute; congruence|vm_compute; reflexivity].
Qed.
Print Assumptions C53_largest_id_rejected.
