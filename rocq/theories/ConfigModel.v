(** Model of pe_load_config.cpp, and of the list of addresses that it shares with pe_tls.cpp. *)
From Verif Require Export RelocModel.

(** pe_base.h:281,283 rva_to_va(rva, BaseSize&): the overload of the class of the image (pe_properties_generic.cpp:506-521). *)
Definition rva_to_va (p : pe) (rva : Z) : res Z := if p_plus p then rva_to_va_64 p rva else rva_to_va_32 p rva.
(** The null-terminated lists of addresses at address [va] (pe_load_config.cpp:365-377, pe_tls.cpp:197-213):
    every word is given to [conv]; [next] moves the 32-bit position. *)
Definition va_list (p : pe) (ty : datatype) (hdrs : bool) (next : Z -> Z) (conv : Z -> res Z) (va : Z) : res (list Z) :=
  mloop big_fuel (fun st : Z * list Z =>
    let '(k, acc) := st in
    bs <- read_va p ((va + k) mod base_mod p) (Z.of_nat (base_size p)) ty hdrs ;;
    if unle bs =? 0 then Ok (inr acc)
    else r <- conv (unle bs) ;; Ok (inl (next k, acc ++ [r]))) (0, []).

(** pe_load_config.h: image_config_info; [c_handlers], [c_locks]: the two lists. *)
Record config : Type := mk_config {
  c_time : Z; c_major : Z; c_minor : Z; c_clear : Z; c_set : Z; c_timeout : Z; c_free : Z; c_total : Z; c_lock_table : Z;
  c_max : Z; c_threshold : Z; c_affinity : Z; c_heap : Z; c_pack : Z; c_edit : Z; c_cookie : Z; c_table : Z; c_count : Z;
  c_handlers : list Z; c_locks : list Z }.
(** image_load_config_directory32, image_load_config_directory64 (pe_structures.h:947-996); in the second one the affinity
    mask comes before the heap flags. *)
Definition config_widths (p : pe) : list nat :=
  let n := base_size p in
  ([4; 4; 2; 2; 4; 4; 4] ++ [n; n; n; n; n] ++ (if p_plus p then [8; 4] else [4; 4]) ++ [2; 2] ++ [n; n; n; n])%nat.
(** sizeof of the same structures. *)
Definition config_size (p : pe) : Z := widths (config_widths p).

(** pe_load_config.cpp:359-362: the handlers, read from raw data. *)
Definition config_handlers (p : pe) (table count : Z) : res (list Z) :=
  mloop big_fuel (fun st : Z * list Z =>
    let '(i, acc) := st in
    if i =? count then Ok (inr acc)
    else bs <- read_va p ((table + i * 4) mod base_mod p) 4 RawData false ;; Ok (inl (i + 1, acc ++ [unle bs]))) (0, []).
(** pe_load_config.cpp:339-381 get_image_config_base; 32-46: the constructor from the structure. *)
Definition get_config (p : pe) : res config :=
  ex <- directory_exists p dir_load_config ;;
  throw_if (negb ex) directory_does_not_exist ;;;
  rva <- get_directory_rva p dir_load_config ;;
  e <- read_rva p rva (config_size p) VirtData false ;;
  match dec_fields (config_widths p) e with
  | [size; time; major; minor; clear; set; timeout; free; total; lock; max; threshold; x; y; pack; _; edit; cookie; table; count] =>
      throw_if (size <? config_size p) incorrect_config_directory ;;;
      throw_if ((max_dword / 4 <=? count) || (base_mod p - 1 - count * 4 <=? table)) incorrect_config_directory ;;;
      handlers <- config_handlers p table count ;;
      locks <- (if lock =? 0 then Ok []
                else va_list p RawData false (fun k => (k + Z.of_nat (base_size p)) mod (2^32 * Z.of_nat (base_size p))) (fun va => va_to_rva p va true) lock) ;;
      Ok (mk_config time major minor clear set timeout free total lock max threshold (if p_plus p then x else y) (if p_plus p then y else x)
            pack edit cookie table count handlers locks)
  | _ => Throw incorrect_config_directory
  end.

(** pe_load_config.cpp:489-490 std::sort of 32-bit numbers; equal numbers cannot be told apart, so every sorting algorithm
    gives this. *)
Fixpoint insert_number (x : Z) (l : list Z) : list Z :=
  match l with [] => [x] | y :: t => if x <=? y then x :: l else y :: insert_number x t end.
(** pe_load_config.cpp:492: the whole list. *)
Definition sort_numbers (l : list Z) : list Z := fold_right insert_number [] l.
(** pe_load_config.cpp:493-498, 504-517: words one after the other. *)
Definition write_words (n : nat) (st : list Z * Z) (w : Z) : res (list Z * Z) :=
  d <- wr (fst st) (snd st) (le n w) ;; Ok (d, u32 (snd st + Z.of_nat n)).
(** pe_load_config.cpp:388-534 rebuild_image_config_base. *)
Definition rebuild_config (p : pe) (c : config) (i : nat) (off : Z) (handlers locks save strip : bool) : res (pe * (Z * Z)) :=
  let sz := Z.of_nat (base_size p) in
  let pos := u32 (off + u32 (align_up off sz - off)) in
  let hpos := u32 (config_size p + pos) in
  let n1 := if handlers then u32 (config_size p + u32 (zlen (c_handlers c)) * 4) else config_size p in
  let lpos := u32 (n1 + pos) in
  let n2 := if locks then u32 (n1 + u32 ((zlen (c_locks c) + 1) * sz)) else n1 in
  s1 <- open_room p i (u32 (n2 + pos)) (u32 (n2 + pos)) ;;
  let wh := handlers && negb (zlen (c_handlers c) =? 0) in
  let wl := locks && negb (zlen (c_locks c) =? 0) in
  table <- (if wh then rva_to_va p (rva_from_section_offset s1 hpos) else Ok (if handlers then 0 else c_table c mod base_mod p)) ;;
  lock <- (if wl then rva_to_va p (rva_from_section_offset s1 lpos) else Ok (if locks then 0 else c_lock_table c mod base_mod p)) ;;
  let b v := v mod base_mod p in
  let x := if p_plus p then b (c_affinity c) else c_heap c in
  let y := if p_plus p then c_heap c else b (c_affinity c) in
  d1 <- wr (s_data s1) pos (enc_fields (config_widths p)
    [config_size p; c_time c; c_major c; c_minor c; c_clear c; c_set c; c_timeout c; b (c_free c); b (c_total c); lock;
     b (c_max c); b (c_threshold c); x; y; c_pack c; 0; b (c_edit c); b (c_cookie c); table; b (zlen (c_handlers c))]) ;;
  d2 <- (if wh then ' (d, _) <- mfold (write_words 4) (sort_numbers (c_handlers c)) (d1, hpos) ;; Ok d else Ok d1) ;;
  d3 <- (if wl then
           vas <- mmap (rva_to_va p) (c_locks c) ;;
           ' (d, _) <- mfold (write_words (base_size p)) (vas ++ [0]) (d2, lpos) ;; Ok d
         else Ok d2) ;;
  finish_directory p i s1 d3 pos (config_size p) dir_load_config save strip.
