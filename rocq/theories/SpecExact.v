(** What the TLS and load configuration directories of an image say (C73). *)
From Verif Require Export SpecTls.

(** [va] is the virtual address of the relative address [rva]; addresses are 64 bits long in the library. *)
Definition va_of (p : pe) (va rva : Z) : Prop := is_u32 rva /\ va = (imagebase p + rva) mod 2^64.
(** The relative address of a field that is 0 if there is none. *)
Definition field_of (p : pe) (va rva : Z) : Prop := if va =? 0 then rva = 0 else va_of p va rva.
(** Words of [n] bytes as the image has them at the virtual address [va], in its file data or as loaded. *)
Definition word_va (p : pe) (ty : datatype) (hdrs : bool) (n : nat) (va w : Z) : Prop :=
  0 <= w < 256 ^ Z.of_nat n /\ exists rva, va_of p va rva /\ read_rva p rva (Z.of_nat n) ty hdrs = Ok (le n w).
(** The null-terminated list of addresses at [va]; [rel] gives the element for an address. *)
Inductive va_table (p : pe) (ty : datatype) (hdrs : bool) (rel : Z -> Z -> Prop) : Z -> list Z -> Prop :=
| va_end va : word_va p ty hdrs (word_size p) va 0 -> va_table p ty hdrs rel va []
| va_next va w v l : word_va p ty hdrs (word_size p) va w -> w <> 0 -> rel w v ->
    va_table p ty hdrs rel ((va + Z.of_nat (word_size p)) mod 256 ^ Z.of_nat (word_size p)) l -> va_table p ty hdrs rel va (v :: l).
(** The bytes [bs] are in the image from address [rva] on, all in one section or in the headers. *)
Definition bytes_shown (p : pe) (rva : Z) (bs : list Z) : Prop :=
  exists n d off, length_rva p rva rva VirtData true = Ok n /\ zlen bs <= n /\ ptr_rva p rva VirtData true = Ok (d, off) /\ slice d off (zlen bs) = bs.
(** The bounds of the TLS template; equal bounds that are no addresses of the image stand for no template. *)
Definition template_bounds (p : pe) (start0 end0 start end_ : Z) : Prop :=
  (start0 = end0 /\ (forall r, ~ va_of p start0 r) /\ start = 0 /\ end_ = 0) \/
  ((start0 = end0 -> exists r, va_of p start0 r) /\ start = start0 /\ end_ = end0).
(** The structure at [rva] describes [t]. *)
Definition tls_shown (p : pe) (rva : Z) (t : tls) : Prop :=
  exists start0 end0 start end_ index callbacks, let w := word_size p in
    Forall (fun v => 0 <= v < 256 ^ Z.of_nat w) [start0; end0; index; callbacks] /\ is_u32 (t_zero t) /\ is_u32 (t_chars t) /\
    shows p rva (le w start0 ++ le w end0 ++ le w index ++ le w callbacks ++ le 4 (t_zero t) ++ le 4 (t_chars t)) /\
    template_bounds p start0 end0 start end_ /\
    field_of p start (t_start t) /\ field_of p end_ (t_end t) /\ field_of p index (t_index t) /\ field_of p callbacks (t_callbacks t) /\
    (if start =? 0 then t_data t = []
     else zlen (t_data t) = (end_ - start) mod 256 ^ Z.of_nat w /\ bytes_shown p (t_start t) (t_data t)) /\
    (if t_callbacks t =? 0 then t_list t = []
     else va_table p VirtData true (fun w v => v = (w - imagebase p) mod 2^32) callbacks (t_list t)).
(** Dwords one after the other in the file data at [va]. *)
Fixpoint dwords_va (p : pe) (va : Z) (l : list Z) : Prop :=
  match l with [] => True | w :: t => word_va p RawData false 4 va w /\ dwords_va p (va + 4) t end.
(** The bytes of the structure; in the 64-bit one the affinity mask comes before the heap flags. *)
Definition config_image (p : pe) (size reserved : Z) (c : config) : list Z :=
  let w := word_size p in
  le 4 size ++ le 4 (c_time c) ++ le 2 (c_major c) ++ le 2 (c_minor c) ++ le 4 (c_clear c) ++ le 4 (c_set c) ++ le 4 (c_timeout c) ++
  le w (c_free c) ++ le w (c_total c) ++ le w (c_lock_table c) ++ le w (c_max c) ++ le w (c_threshold c) ++
  (if p_plus p then le 8 (c_affinity c) ++ le 4 (c_heap c) else le 4 (c_heap c) ++ le 4 (c_affinity c)) ++
  le 2 (c_pack c) ++ le 2 reserved ++ le w (c_edit c) ++ le w (c_cookie c) ++ le w (c_table c) ++ le w (c_count c).
(** The structure at [rva] describes [c]: it is not shorter than its version says, the handlers end before the end of the
    address space. *)
Definition config_shown (p : pe) (rva : Z) (c : config) : Prop :=
  exists size reserved, let w := word_size p in
    is_u32 size /\ is_u16 reserved /\ is_u32 (c_time c) /\ is_u16 (c_major c) /\ is_u16 (c_minor c) /\ is_u32 (c_clear c) /\ is_u32 (c_set c) /\
    is_u32 (c_timeout c) /\ is_u32 (c_heap c) /\ is_u16 (c_pack c) /\
    Forall (fun v => 0 <= v < 256 ^ Z.of_nat w)
      [c_free c; c_total c; c_lock_table c; c_max c; c_threshold c; c_affinity c; c_edit c; c_cookie c; c_table c; c_count c] /\
    read_rva p rva (zlen (config_image p size reserved c)) VirtData false = Ok (config_image p size reserved c) /\
    (if p_plus p then 112 else 72) <= size /\ c_count c < 2^30 - 1 /\ c_table c + 4 * c_count c < 256 ^ Z.of_nat w - 1 /\
    zlen (c_handlers c) = c_count c /\ dwords_va p (c_table c) (c_handlers c) /\
    (if c_lock_table c =? 0 then c_locks c = [] else va_table p RawData false (va_of p) (c_lock_table c) (c_locks c)).
