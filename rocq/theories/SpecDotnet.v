(** What the .NET header of an image says (C75). *)
From Verif Require Export SpecExact DotnetModel.

(** The little-endian number of [n] bytes at offset [off], and the address and size of a directory there. *)
Definition word_in (bs : list Z) (off n : Z) : Z := unle (slice bs off n).
Definition dir_in (bs : list Z) (off : Z) : Z * Z := (word_in bs off 4, word_in bs (off + 4) 4).
(** The values the interface returns are those of the 72 bytes of the header, at the offsets of the CLR header. *)
Definition dotnet_says (bs : list Z) (h : cor20) : Prop :=
  net_major h = word_in bs 4 2 /\ net_minor h = word_in bs 6 2 /\ net_metadata h = dir_in bs 8 /\ net_flags h = word_in bs 16 4 /\
  net_entry h = word_in bs 20 4 /\ net_resources h = dir_in bs 24 /\ net_strong_name h = dir_in bs 32 /\ net_code_manager h = dir_in bs 40 /\
  net_vtable h = dir_in bs 48 /\ net_jumps h = dir_in bs 56 /\ net_native_header h = dir_in bs 64 /\
  net_il_only h = Z.testbit (word_in bs 16 4) 0 /\ net_32bit h = Z.testbit (word_in bs 16 4) 1 /\
  net_il_library h = Z.testbit (word_in bs 16 4) 2 /\ net_native_entry h = Z.testbit (word_in bs 16 4) 4.
