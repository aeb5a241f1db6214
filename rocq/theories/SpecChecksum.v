(** Specification of the PE checksum (C27). *)
From Verif Require Export SpecLoad.

(** Sum of the little-endian 16-bit words; an odd last byte counts as a word. *)
Fixpoint sum_words (l : list Z) : Z :=
  match l with
  | [] => 0
  | [a] => a
  | a :: b :: t => a + 256 * b + sum_words t
  end.
(** End-around-carry reduction of a sum to 16 bits: the representative of the sum modulo
    0xFFFF in 1..0xFFFF, and 0 for 0. *)
Definition end_around_carry (x : Z) : Z := if x =? 0 then 0 else (x - 1) mod 0xFFFF + 1.
(** The file with the four bytes at [pos] replaced. *)
Definition with_field (file : list Z) (pos v : Z) : list Z := splice file pos (le 4 v).
(** The checksum of a file whose checksum field is at [pos]. *)
Definition pe_checksum (file : list Z) (pos : Z) : Z :=
  u32 (end_around_carry (sum_words (with_field file pos 0)) + zlen file).
(** Offset of the CheckSum field in a file that starts with a DOS header. *)
Definition checksum_field (file : list Z) : Z := le_at file 60 4 + 88.
(** A file that starts with the DOS signature and whose CheckSum field is a DWORD-aligned
    part of it. *)
Definition checksum_field_ok (file : list Z) : Prop :=
  le_at file 0 2 = 0x5a4d /\ checksum_field file mod 4 = 0 /\ checksum_field file + 4 <= zlen file /\ le_at file 60 4 < 2^31.
