(** Specification vocabulary for the load configuration and TLS. *)
From Verif Require Export ConfigModel SpecImport.
From Coq Require Export Sorted Permutation.

(** The image base is a number of the size of an address. *)
Definition base_ok (p : pe) : Prop := 0 <= imagebase p < base_mod p.
(** The data that sections have in the file ends below 2^32, the end of the addresses. *)
Definition raw_addressable (p : pe) : Prop := Forall (fun s => s_va s + zlen (raw_view s) < 2^32) (p_sections p).
(** The words [l], [n] bytes each, one after the other from address [rva] on. *)
Fixpoint words_read (p : pe) (ty : datatype) (hdrs : bool) (n : nat) (rva : Z) (l : list Z) : Prop :=
  match l with
  | [] => True
  | w :: t => 0 <= w < 256 ^ Z.of_nat n /\ read_rva p rva (Z.of_nat n) ty hdrs = Ok (le n w) /\ words_read p ty hdrs n (rva + Z.of_nat n) t
  end.
(** An address can be given as a virtual address that is not null. *)
Definition has_va (p : pe) (rva : Z) : Prop := is_u32 rva /\ 0 < imagebase p + rva < base_mod p.
(** Fields in the range of their C++ types; the fields of 8 bytes in that of the image's addresses. *)
Definition valid_config (p : pe) (c : config) : Prop :=
  is_u32 (c_time c) /\ is_u16 (c_major c) /\ is_u16 (c_minor c) /\ is_u32 (c_clear c) /\ is_u32 (c_set c) /\ is_u32 (c_timeout c) /\
  is_u32 (c_heap c) /\ is_u16 (c_pack c) /\
  Forall (fun v => 0 <= v < base_mod p) [c_free c; c_total c; c_lock_table c; c_max c; c_threshold c; c_affinity c; c_edit c; c_cookie c; c_table c] /\
  Forall is_u32 (c_handlers c) /\ Forall (has_va p) (c_locks c).
(** The bytes that are written: the structure and the lists that are to be written. *)
Definition config_bytes (p : pe) (c : config) (handlers locks : bool) : Z :=
  (if p_plus p then 112 else 72) + (if handlers then 4 * zlen (c_handlers c) else 0) +
  (if locks then Z.of_nat (word_size p) * (zlen (c_locks c) + 1) else 0).
(** A table that is in the raw data of a section other than [i]. *)
Definition kept_words (p : pe) (i : nat) (n : nat) (va : Z) (l : list Z) : Prop :=
  exists rva, va = imagebase p + rva /\ 0 <= rva /\ rva + Z.of_nat n * zlen l < 2^32 - 4 /\ va + Z.of_nat n * zlen l < base_mod p - 1 /\
    words_read p RawData false n rva l /\ forall k, 0 <= k < zlen l -> elsewhere p i (rva + Z.of_nat n * k).
(** The fields except the addresses of the two lists. *)
Definition same_fields (c d : config) : Prop :=
  c_time d = c_time c /\ c_major d = c_major c /\ c_minor d = c_minor c /\ c_clear d = c_clear c /\ c_set d = c_set c /\ c_timeout d = c_timeout c /\
  c_free d = c_free c /\ c_total d = c_total c /\ c_max d = c_max c /\ c_threshold d = c_threshold c /\ c_affinity d = c_affinity c /\
  c_heap d = c_heap c /\ c_pack d = c_pack c /\ c_edit d = c_edit c /\ c_cookie d = c_cookie c.
(** The list and its address as asked: a list that is written comes back in the order [ord]; a list that is not
    written is the one at the address given. *)
Definition same_list (write : bool) (ord : list Z -> list Z -> Prop) (t t' : Z) (l l' : list Z) : Prop :=
  if write then ord l l' /\ (l = [] -> t' = 0) else l' = l /\ t' = t.
Definition sorted_list (l l' : list Z) : Prop := Permutation l l' /\ StronglySorted Z.le l'.
(** What must be there of the lists that are not written. *)
Definition kept_lists (p : pe) (i : nat) (c : config) (handlers locks : bool) : Prop :=
  (handlers = false -> c_handlers c = [] /\ c_table c < base_mod p - 1 \/ kept_words p i 4 (c_table c) (c_handlers c)) /\
  (locks = false -> c_locks c = [] /\ c_lock_table c = 0 \/
     c_lock_table c <> 0 /\ kept_words p i (word_size p) (c_lock_table c) (map (Z.add (imagebase p)) (c_locks c) ++ [0])).
