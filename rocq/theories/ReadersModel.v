(** Model of pe_exception_directory.cpp and pe_rich_data.cpp. *)
From Verif Require Export DirModel.

(** ** Exception directory *)
(** exception_entry (pe_exception_directory.h, pe_exception_directory.cpp:20-29): begin, end and unwind info
    addresses, then version, flags, prolog size, code count, frame register, frame offset. *)
Record exception_entry : Type := mk_exc {
  x_begin : Z; x_end : Z; x_unwind : Z; x_version : Z; x_flags : Z; x_prolog : Z; x_codes : Z; x_freg : Z; x_foff : Z }.
(** pe_structures.h:702-707, 734-742: the fields of the two structures (bit fields from the low bits up). *)
Definition exc_entry (e u : list Z) : exception_entry :=
  mk_exc (unle (slice e 0 4)) (unle (slice e 4 4)) (unle (slice e 8 4))
    (Z.land (unle (slice u 0 1)) 7) (Z.shiftr (unle (slice u 0 1)) 3) (unle (slice u 1 1)) (unle (slice u 2 1))
    (Z.land (unle (slice u 3 1)) 15) (Z.shiftr (unle (slice u 3 1)) 4).
(** pe_exception_directory.cpp:128-149: the loop over the entries; sizeof(unwind_info) is 6. *)
Definition exception_loop (p : pe) (start : Z) : res (list exception_entry) :=
  e0 <- read_rva p start 12 VirtData true ;;
  mloop big_fuel (fun st : Z * list Z * list exception_entry =>
    let '(pos, e, acc) := st in
    let begin := unle (slice e 0 4) in
    if begin =? 0 then Ok (inr acc)
    else
      throw_if (unle (slice e 4 4) <? begin) incorrect_exception_directory ;;;
      u <- read_rva p (unle (slice e 8 4)) 6 VirtData true ;;
      let pos' := u32 (pos + 12) in
      e' <- read_rva p pos' 12 VirtData true ;;
      Ok (inl (pos', e', acc ++ [exc_entry e u]))) (start, e0, []).
(** pe_exception_directory.cpp:114-152 get_exception_directory_data. *)
Definition get_exception_directory_data (p : pe) : res (list exception_entry) :=
  ex <- directory_exists p dir_exception ;;
  if ex then
    rva <- get_directory_rva p dir_exception ;;
    len <- length_rva p rva rva VirtData true ;;
    throw_if (len <? 12) incorrect_exception_directory ;;;
    throw_if (negb (rva mod 4 =? 0)) incorrect_exception_directory ;;;
    exception_loop p rva
  else Ok [].

(** ** Rich data *)
(** pe_rich_data.h: number, version, times. *)
Definition rich_record : Type := (Z * Z * Z)%type.
(** pe_rich_data.cpp:59, 90 *)
Definition rich_overlay_id : Z := 0x68636952.
(** pe_rich_data.cpp:90. *)
Definition rich_dans : Z := 0x536e6144.
(** pe_rich_data.cpp:62-71, 86-95: the offset of the first position whose dword equals [v]; every position of
    the string is tried, with a 4-byte read. *)
Fixpoint find_dword (v : Z) (l : list Z) (pos : Z) : res (option Z) :=
  match l with
  | [] => Ok None
  | _ :: t => x <- rd_le l 0 4 ;; if x =? v then Ok (Some pos) else find_dword v t (pos + 1)
  end.
(** pe_rich_data.cpp:100-127: the records behind "DanS" at [pos]. *)
Definition rich_records (d : list Z) (key pos : Z) : res (list rich_record) :=
  mloop big_fuel (fun st : Z * list rich_record =>
    let '(b, acc) := st in
    if zlen d <=? b then Ok (inr acc)
    else if zlen d <=? b + 4 then Ok (inr acc)
    else
      x <- rd_le d (b + 4) 4 ;;
      if x =? rich_overlay_id then Ok (inr acc)
      else if zlen d <=? b + 8 then Ok (inr acc)
      else
        y <- rd_le d (b + 8) 4 ;;
        Ok (inl (b + 8, acc ++ [(Z.shiftr (Z.lxor x key) 16, Z.land (Z.lxor x key) 0xFFFF, Z.lxor y key)])))
    (pos + 12, []).
(** pe_rich_data.cpp:43-132 get_rich_data, on the stub of the image. *)
Definition get_rich_data (stub : list Z) : res (list rich_record) :=
  if zlen stub <? 4 then Ok []
  else
    r <- find_dword rich_overlay_id stub 0 ;;
    match r with
    | None => Ok []
    | Some b =>
      if zlen stub - b <? 4 then Ok []
      else
        key <- rd_le stub (b + 4) 4 ;;
        q <- find_dword (Z.lxor rich_dans key) stub 0 ;;
        match q with None => Ok [] | Some b2 => rich_records stub key b2 end
    end.
