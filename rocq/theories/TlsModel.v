(** Model of pe_tls.cpp. *)
From Verif Require Export ConfigModel.

(** pe_tls.h: tls_info; [t_list]: the callbacks. *)
Record tls : Type := mk_tls { t_start : Z; t_end : Z; t_index : Z; t_callbacks : Z; t_zero : Z; t_chars : Z; t_data : list Z; t_list : list Z }.
(** image_tls_directory32, image_tls_directory64 (pe_structures.h:637-658). *)
Definition tls_widths (p : pe) : list nat := let n := base_size p in [n; n; n; n; 4%nat; 4%nat].
(** sizeof of the same structures. *)
Definition tls_size (p : pe) : Z := widths (tls_widths p).
(** pe_tls.cpp:185-188: the relative address of a field, 0 if the field is 0. *)
Definition field_rva (p : pe) (va : Z) : res Z := if va =? 0 then Ok 0 else va_to_rva p va true.
(** pe_tls.cpp:163-174: equal addresses that cannot be converted are taken as 0. *)
Definition fix_addresses (p : pe) (start end_ : Z) : res (Z * Z) :=
  if end_ =? start then match va_to_rva p end_ true with Ok _ => Ok (start, end_) | Throw _ => Ok (0, 0) | Ub u => Ub u | Fuel => Fuel end
  else Ok (start, end_).
(** pe_base.cpp:690-699 section_data_length_from_va(va, va_inside, datatype, include_headers). *)
Definition length_va (p : pe) (va va_inside : Z) (ty : datatype) (hdrs : bool) : res Z :=
  a <- va_to_rva p va true ;; b <- va_to_rva p va_inside true ;; length_rva p a b ty hdrs.
(** pe_tls.cpp:149-219 get_tls_info_base. *)
Definition get_tls (p : pe) : res tls :=
  ex <- directory_exists p dir_tls ;;
  throw_if (negb ex) directory_does_not_exist ;;;
  rva <- get_directory_rva p dir_tls ;;
  e <- read_rva p rva (tls_size p) VirtData true ;;
  match dec_fields (tls_widths p) e with
  | [start0; end0; index; callbacks; zero; chars] =>
      ' (start, end_) <- fix_addresses p start0 end0 ;;
      let n := (end_ - start) mod base_mod p in
      (if start =? 0 then Ok tt else len <- length_va p start start VirtData true ;; throw_if (len <? n) incorrect_tls_directory) ;;;
      a <- field_rva p start ;; b <- field_rva p end_ ;; c <- field_rva p index ;; d <- field_rva p callbacks ;;
      data <- (if (start =? 0) || (start =? end_) then Ok []
               else r <- va_to_rva p start true ;; q <- ptr_rva p r VirtData true ;; rd (fst q) (snd q) (u32 n)) ;;
      l <- (if d =? 0 then Ok []
            else va_list p VirtData true (fun k => u32 (k + Z.of_nat (base_size p))) (fun va => va_to_rva p va false) callbacks) ;;
      Ok (mk_tls a b c d zero chars data l)
  | _ => Throw incorrect_tls_directory
  end.

(** memcpy to section_data_from_rva(rva, true) (pe_base.cpp:732-745) of the bytes [bs]. *)
Definition write_rva (p : pe) (rva : Z) (bs : list Z) : res pe :=
  if rva <? zlen (p_full p) then d <- wr (p_full p) rva bs ;; Ok (set_p_full d p)
  else
    i <- section_from_rva p rva ;;
    s <- get_section p i ;;
    throw_if (zlen (raw_view s) =? 0) section_is_empty ;;;
    d <- wr (raw_view s) (rva - s_va s) bs ;;
    Ok (put_section p i (with_raw (fun _ => d) s)).
(** pe_tls.cpp:287-297, 323-333: exceptions of section_from_rva and expand_section are ignored. They are thrown
    before anything is changed, unless sizes near 2^32 wrap to 0; the model simplifies that case to an unchanged image. *)
Definition try_expand (p : pe) (rva n : Z) (k : expand_kind) : res pe :=
  match (i <- section_from_rva p rva ;; expand_section p i rva n k) with Ok (q, _) => Ok q | Throw _ => Ok p | Ub u => Ub u | Fuel => Fuel end.
(** pe_tls.cpp:284-317. *)
Definition write_tls_data (p : pe) (t : tls) (k : expand_kind) : res pe :=
  let n := u32 (t_end t - t_start t) in
  p1 <- try_expand p (t_start t) n k ;;
  raw <- length_rva p1 (t_start t) (t_start t) RawData true ;;
  m <- (if raw <? n then virt <- length_rva p1 (t_start t) (t_start t) VirtData true ;; throw_if (virt <? n) insufficient_space ;;; Ok raw else Ok n) ;;
  if m =? 0 then Ok p1 else bs <- rd (t_data t) 0 m ;; write_rva p1 (t_start t) bs.
(** pe_tls.cpp:320-358. The vector has as many words as the 32-bit size says unless there are 2^29 callbacks or more. *)
Definition write_tls_callbacks (p : pe) (t : tls) : res pe :=
  let sz := Z.of_nat (base_size p) in
  let n := u32 ((zlen (t_list t) + 1) * sz) in
  p1 <- try_expand p (t_callbacks t) n ExpandRaw ;;
  raw <- length_rva p1 (t_callbacks t) (t_callbacks t) RawData true ;;
  throw_if (raw <? u64 (n - sz)) insufficient_space ;;;
  virt <- length_rva p1 (t_callbacks t) (t_callbacks t) VirtData true ;;
  throw_if (virt <? n) insufficient_space ;;;
  vas <- mmap (rva_to_va p1) (t_list t) ;;
  bs <- rd (concat (map (le (base_size p)) (vas ++ [0]))) 0 n ;;
  write_rva p1 (t_callbacks t) bs.
(** pe_tls.cpp:229-374 rebuild_tls_base. *)
Definition rebuild_tls (p : pe) (t : tls) (i : nat) (off : Z) (callbacks data : bool) (k : expand_kind) (save strip : bool) : res (pe * (Z * Z)) :=
  let pos := align_up off (Z.of_nat (base_size p)) in
  let total := u32 (tls_size p + pos) in
  s1 <- open_room p i total total ;;
  throw_if ((t_end t <? t_start t) || (t_index t =? 0)) incorrect_tls_directory ;;;
  start <- (if t_start t =? 0 then Ok 0 else rva_to_va p (t_start t)) ;;
  end_ <- (if t_end t =? 0 then Ok 0 else rva_to_va p (t_end t)) ;;
  index <- rva_to_va p (t_index t) ;;
  cb <- (if t_callbacks t =? 0 then Ok 0 else rva_to_va p (t_callbacks t)) ;;
  d1 <- wr (s_data s1) pos (enc_fields (tls_widths p) [start; end_; index; cb; (if t_start t =? 0 then 0 else t_zero t); t_chars t]) ;;
  let p1 := put_section p i (set_s_data d1 s1) in
  p2 <- (if data && negb (t_start t =? 0) && negb (t_start t =? t_end t) then write_tls_data p1 t k else Ok p1) ;;
  p3 <- (if callbacks && negb (t_callbacks t =? 0) then write_tls_callbacks p2 t else Ok p2) ;;
  p4 <- recalculate_section_sizes p3 i strip ;;
  let rva := rva_from_section_offset s1 pos in
  p5 <- (if save then set_directory p4 dir_tls rva (tls_size p) else Ok p4) ;;
  Ok (p5, (rva, tls_size p)).
