(** Model of /repo/src/pe_lib/utils.h (pure helpers). *)
From Verif Require Export Base.

(** utils.h:34-39 is_power_of_2<uint32_t>: !(x & (x - 1)). *)
Definition is_power_of_2 (x : Z) : bool := Z.land x (u32 (x - 1)) =? 0.

(** utils.h:41-46 align_down<T> for a T of [w] bits: x & ~(T(align) - 1). *)
Definition align_down_w (w : Z) (x a : Z) : Z :=
  Z.land x (Z.lnot (a mod 2^w - 1) mod 2^w).
(** utils.h:48-53 align_up<T> for a T of [w] bits; [align - 1] is computed in uint32_t. *)
Definition align_up_w (w : Z) (x a : Z) : Z :=
  if Z.land x (u32 (a - 1) mod 2^w) =? 0 then x
  else (align_down_w w x a + a mod 2^w) mod 2^w.
(** Instantiations: uint32_t, size_t (64 bits), uint16_t. *)
Definition align_down (x a : Z) : Z := align_down_w 32 x a.
(** utils.h:48-53 align_up with T = uint32_t. *)
Definition align_up (x a : Z) : Z := align_up_w 32 x a.
(** utils.h:48-53 with T = size_t (pe_base.cpp:440, pe_rebuilder.cpp:38). *)
Definition align_up64 (x a : Z) : Z := align_up_w 64 x a.
(** utils.h:48-53 with T = uint16_t (version_info_reader.cpp). *)
Definition align_up16 (x a : Z) : Z := align_up_w 16 x a.

(** utils.h:62-64 *)
Definition two_gb : Z := 0x80000000.
(** utils.h:62-64. *)
Definition max_dword : Z := 0xFFFFFFFF.
(** utils.h:62-64. *)
Definition max_word : Z := 0xFFFF.

(** utils.h:55-59 is_sum_safe. *)
Definition is_sum_safe (a b : Z) : bool := a <=? u32 (max_dword - b).

(** utils.h:26-32 strip_nullbytes: drop trailing NULs. *)
Fixpoint drop_leading0 (l : list Z) : list Z :=
  match l with [] => [] | b :: t => if b =? 0 then drop_leading0 t else l end.
(** utils.h:26-32 strip_nullbytes: the whole function. *)
Definition strip_nullbytes (l : list Z) : list Z := rev (drop_leading0 (rev l)).

(** utils.h:12-24 is_null_terminated<char>: scan of at most [n] bytes through a
    pointer; running past the buffer is undefined behaviour. *)
Fixpoint scan0 (l : list Z) (n : Z) : res bool :=
  if n <=? 0 then Ok false
  else match l with
       | [] => Ub OobRead
       | b :: t => if b =? 0 then Ok true else scan0 t (n - 1)
       end.
(** utils.h:12-24: the whole function, from offset [off] of the buffer. *)
Definition is_null_terminated (buf : list Z) (off n : Z) : res bool :=
  if n <=? 0 then Ok false
  else if off <? 0 then Ub OobRead else scan0 (zdrop off buf) n.

(** std::string(const char* ) : bytes up to the first NUL; no NUL in the buffer is
    undefined behaviour. *)
Fixpoint cstr (l : list Z) : res (list Z) :=
  match l with
  | [] => Ub OobRead
  | b :: t => if b =? 0 then Ok [] else r <- cstr t ;; Ok (b :: r)
  end.
(** The constructor of std::string from a pointer, from offset [off] of the buffer. *)
Definition cstr_at (buf : list Z) (off : Z) : res (list Z) :=
  if off <? 0 then Ub OobRead else cstr (zdrop off buf).
(** The bytes before the first NUL of a list (all of it when there is none). *)
Fixpoint until0 (l : list Z) : list Z :=
  match l with [] => [] | b :: t => if b =? 0 then [] else b :: until0 t end.

(** pe_base.cpp:202-210: number of trailing NULs of the raw data. *)
Fixpoint leading0_count (l : list Z) : Z :=
  match l with [] => 0 | b :: t => if b =? 0 then 1 + leading0_count t else 0 end.
(** pe_base.cpp:202-210: counted from the end. *)
Definition trailing0_count (l : list Z) : Z := leading0_count (rev l).

Arguments align_up : simpl never.
Arguments align_down : simpl never.
Arguments align_up64 : simpl never.
Arguments align_up16 : simpl never.
Arguments is_sum_safe : simpl never.
Arguments is_power_of_2 : simpl never.
