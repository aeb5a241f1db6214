(** Model of /repo/src/pe_lib/pe_checksum.cpp. *)
From Verif Require Export LoadModel.

(** pe_checksum.cpp:53-56 one step of the 64-bit accumulation with end-around carry. *)
Definition checksum_add (c dw : Z) : Z :=
  let c1 := Z.land c 0xffffffff + dw + Z.shiftr c 32 in
  if 0x100000000 <? c1 then Z.land c1 0xffffffff + Z.shiftr c1 32 else c1.
(** pe_checksum.cpp:42-57 the loop over the file, [n] iterations from byte [i]; [skip] is
    pe_checksum_pos. A short read leaves the missing bytes of dw zero. *)
Fixpoint checksum_loop (n : nat) (i skip c : Z) : sm Z :=
  match n with
  | O => sret c
  | S k =>
    b <~ s_read_into (zeros 4) 0 4 ;
    checksum_loop k (i + 4) skip (if i =? skip then c else checksum_add c (unle b))
  end.
(** pe_checksum.cpp:60-64 *)
Definition checksum_finish (c filesize : Z) : Z :=
  let c1 := Z.land c 0xffff + Z.shiftr c 16 in
  let c2 := c1 + Z.shiftr c1 16 in
  Z.land c2 0xffff + u32 filesize.
(** pe_checksum.cpp:10-80 calculate_checksum. The loop runs while i < filesize with i
    growing by 4: (filesize + 3) / 4 times. *)
Definition calculate_checksum : sm Z :=
  with_restore (
    dos <~ read_dos_header ;
    s_seek 0 ~;
    let skip := s32 (dos_lfanew dos) + 20 + 4 + 64 in
    filesize <~ get_file_size ;
    c <~ checksum_loop (Z.to_nat ((filesize + 3) / 4)) 0 skip 0 ;
    sret (u32 (checksum_finish c filesize))).
