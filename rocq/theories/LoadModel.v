(** Model of loading an image from a stream: the std::istream operations used by the
    library, /repo/src/pe_lib/pe_base.cpp (stream constructor, read_dos_header, read_pe,
    get_pe_type) and /repo/src/pe_lib/pe_factory.cpp. *)
From Verif Require Export PeModel.

(** * std::istream
    A stream over [i_data]. badbit (an I/O error of the device) and exception masks are not
    modelled: the library clears the mask before reading (pe_base.cpp:27). [i_strict]
    distinguishes the two kinds of stream buffer: std::stringbuf refuses to seek beyond its
    end, std::filebuf does not. *)
Record istream : Type := mk_is {
  i_data : list Z;
  i_strict : bool;
  i_pos : Z;
  i_fail : bool;
  i_eof : bool
}.
(** Moves the get position (C++ library state behind pe_base.cpp:794). *)
Definition set_i_pos (v : Z) (s : istream) : istream := mk_is (i_data s) (i_strict s) v (i_fail s) (i_eof s).
(** Sets failbit and eofbit (C++ library state behind pe_base.cpp:795). *)
Definition set_i_flags (f e : bool) (s : istream) : istream := mk_is (i_data s) (i_strict s) (i_pos s) f e.
(** good() without badbit. *)
Definition i_good (s : istream) : bool := negb (i_fail s) && negb (i_eof s).
(** seekg(pos), [istream.unformatted]: clears eofbit; does nothing on a failed stream. *)
Definition seekg (pos : Z) (s : istream) : istream :=
  if i_fail s then set_i_flags true false s
  else if (pos <? 0) || (i_strict s && (zlen (i_data s) <? pos)) then set_i_flags true false s
  else set_i_pos pos (set_i_flags false false s).
(** seekg(0, std::ios::end) *)
Definition seekg_end (s : istream) : istream := seekg (zlen (i_data s)) s.
(** tellg(): the sentry sets failbit on a stream that is not good. *)
Definition tellg (s : istream) : istream * Z :=
  if i_good s then (s, i_pos s) else (set_i_flags true (i_eof s) s, -1).
(** read(): the bytes transferred. A short read sets eofbit and failbit. *)
Definition is_read (n : Z) (s : istream) : istream * list Z :=
  if i_good s then
    let d := slice (i_data s) (i_pos s) n in
    (if zlen d <? n then set_i_flags true true (set_i_pos (i_pos s + zlen d) s)
     else set_i_pos (i_pos s + n) s, d)
  else (set_i_flags true (i_eof s) s, []).
(** clear() *)
Definition is_clear (s : istream) : istream := set_i_flags false false s.

(** Computations on a stream that may throw; the stream survives the exception. *)
Definition sm (A : Type) : Type := istream -> istream * res A.
(** return a; *)
Definition sret {A} (a : A) : sm A := fun s => (s, Ok a).
(** A computation that does not touch the stream. *)
Definition slift {A} (r : res A) : sm A := fun s => (s, r).
(** Sequencing; an exception skips the rest. *)
Definition sbind {A B} (m : sm A) (f : A -> sm B) : sm B := fun s =>
  let '(s', r) := m s in
  match r with Ok a => f a s' | Throw e => (s', Throw e) | Ub k => (s', Ub k) | Fuel => (s', Fuel) end.
Notation "x <~ a ; b" := (sbind a (fun x => b)) (at level 61, a at next level, right associativity).
Notation "a ~; b" := (sbind a (fun _ => b)) (at level 61, right associativity).
(** if(c) throw e; *)
Definition sthrow_if (c : bool) (e : exc) : sm unit := slift (throw_if c e).
(** file.seekg(pos); *)
Definition s_seek (pos : Z) : sm unit := fun s => (seekg pos s, Ok tt).
(** file.tellg() *)
Definition s_tell : sm Z := fun s => let '(s', v) := tellg s in (s', Ok v).
(** if(file.bad() || file.eof()) throw e *)
Definition s_check_eof (e : exc) : sm unit := fun s => (s, throw_if (i_eof s) e).
(** if(file.bad() || file.fail()) throw e *)
Definition s_check_fail (e : exc) : sm unit := fun s => (s, throw_if (i_fail s) e).
(** file.read(buf + off, n): the buffer afterwards. Asking for more bytes than the buffer
    holds behind [off] is an out-of-bounds write. *)
Definition s_read_into (buf : list Z) (off n : Z) : sm (list Z) := fun s =>
  if (0 <=? off) && (0 <=? n) && (off + n <=? zlen buf) then
    let '(s', d) := is_read n s in (s', Ok (splice buf off d))
  else (s, Ub OobWrite).

(** utils.cpp:14-23 get_file_size *)
Definition get_file_size : sm Z :=
  old <~ s_tell ;
  (fun s => (seekg_end s, Ok tt)) ~;
  size <~ s_tell ;
  s_seek old ~;
  sret size.

(** * Headers *)
(** sizeof(image_dos_header), pe_structures.h:252-273 *)
Definition sizeof_dos : Z := 64.
(** pe_base.cpp:759-773 read_dos_header: the 64 bytes. The header object is taken to be
    zeroed before (it is uninitialised memory in C++, which is only observable when the
    stream had already failed). *)
Definition read_dos_header : sm (list Z) :=
  s_check_eof bad_pe_file ~;
  b <~ s_read_into (zeros 64) 0 sizeof_dos ;
  s_check_eof bad_dos_header ~;
  sthrow_if (negb (unle (slice b 0 2) =? 0x5a4d)) bad_dos_header ~;
  sret b.
(** e_lfanew as a 32-bit pattern, pe_structures.h:272 *)
Definition dos_lfanew (b : list Z) : Z := unle (slice b 60 4).
(** sizeof(image_nt_headers32/64) without the data directories: pe_structures.h:276-378 *)
Definition sizeof_nt_nodirs (plus : bool) : Z := if plus then 136 else 120.
(** Data directory array from its bytes: pe_structures.h:276-280 *)
Fixpoint dirs_of_bytes (k : nat) (l : list Z) : list (Z * Z) :=
  match k with
  | O => []
  | S k' => (unle (slice l 0 4), unle (slice l 4 4)) :: dirs_of_bytes k' (zdrop 8 l)
  end.
(** image_section_header from its 40 bytes: pe_structures.h:380-398 *)
Definition section_of_bytes (b : list Z) : section :=
  mk_section (slice b 0 8) (unle (slice b 8 4)) (unle (slice b 12 4)) (unle (slice b 16 4)) (unle (slice b 20 4))
    (unle (slice b 24 4)) (unle (slice b 28 4)) (unle (slice b 32 2)) (unle (slice b 34 2)) (unle (slice b 36 4)) [] None.
(** sizeof(image_section_header), pe_structures.h:380-398 *)
Definition sizeof_section_header : Z := 40.

(** pe_base.cpp:860-927 one iteration of the section loop: the section and the raw size
    recorded for the overlay check (None when it has no raw data). *)
Definition read_section (h : nt_headers) (filesize : Z) (from_mem : bool) : sm (section * option Z) :=
  b <~ s_read_into (zeros 40) 0 sizeof_section_header ;
  s_check_eof error_reading_section_header ~;
  next_sect <~ s_tell ;
  let s := section_of_bytes b in
  sthrow_if ((s_rawsize s =? 0) && (s_vsize s =? 0)) zero_section_sizes ~;
  sthrow_if (negb (is_sum_safe (s_va s) (s_vsize s)) || (two_gb <? s_vsize s)
             || negb (is_sum_safe (s_rawptr s) (s_rawsize s)) || (two_gb <? s_rawsize s))
    section_incorrect_addr_or_size ~;
  sl <~ (if negb (s_rawsize s =? 0) then
    let last := s_rawsize s in
    let s1 := if align_up (s_vsize s) (h_salign h) <? align_up (s_rawsize s) (h_falign h)
              then set_s_rawsize (s_vsize s) s else s in
    sthrow_if ((align_up (h_imagesize h) (h_salign h) <? u32 (s_va s1 + align_up (s_vsize s1) (h_salign h)))
               || (u32 filesize <? u32 (align_down (s_rawptr s1) (h_falign h) + s_rawsize s1)))
      section_incorrect_addr_or_size ~;
    s_seek (if from_mem then align_down (s_va s1) (h_salign h) else align_down (s_rawptr s1) (h_falign h)) ~;
    s_check_fail image_section_data_not_found ~;
    d <~ s_read_into (zeros (s_rawsize s1)) 0 (s_rawsize s1) ;
    s_check_fail image_section_data_not_found ~;
    sret (set_s_data d s1, Some last)
  else sret (s, None)) ;
  let '(s2, last) := sl in
  sthrow_if (align_up (h_imagesize h) (h_salign h) <? u32 (s_va s2 + aligned_vsize (h_salign h) s2))
    section_incorrect_addr_or_size ~;
  s_seek next_sect ~;
  sret (s2, last).
(** pe_base.cpp:855-928 the section loop. *)
Fixpoint read_sections (n : nat) (h : nt_headers) (filesize : Z) (from_mem : bool) (acc : list section) (last : Z)
  : sm (list section * Z) :=
  match n with
  | O => sret (acc, last)
  | S k =>
    r <~ read_section h filesize from_mem ;
    read_sections k h filesize from_mem (acc ++ [fst r]) (match snd r with Some l => l | None => last end)
  end.
(** pe_base.cpp:938-946 the contiguity loop: does some section not start where the one
    before it ends? *)
Fixpoint not_contiguous (sa : Z) (l : list section) : bool :=
  match l with
  | a :: (b :: _) as t => negb (s_va b =? u32 (s_va a + aligned_vsize sa a)) || not_contiguous sa t
  | _ => false
  end.
(** pe_base.cpp:955-969 size of the copy of the headers. *)
Definition full_headers_size (h : nt_headers) (filesize : Z) (l : list section) : Z :=
  match find (fun s => negb (sec_empty s)) l with
  | Some s => Z.min (h_hdrsize h) (s_rawptr s)
  | None => Z.min (h_hdrsize h) (u32 filesize)
  end.

(** * Debug raw data *)
(** image_debug_directory, pe_structures.h:776-786 *)
Definition sizeof_debug_directory : Z := 28.
(** Type of a directory entry: pe_structures.h:782 *)
Definition dd_type (b : list Z) : Z := unle (slice b 12 4).
(** SizeOfData of a directory entry: pe_structures.h:783 *)
Definition dd_size (b : list Z) : Z := unle (slice b 16 4).
(** PointerToRawData of a directory entry: pe_structures.h:785 *)
Definition dd_ptr (b : list Z) : Z := unle (slice b 24 4).
(** std::map::insert: keeps an existing entry. *)
Definition map_insert (m : list (Z * list Z)) (k : Z) (v : list Z) : list (Z * list Z) :=
  if existsb (fun e => fst e =? k) m then m else m ++ [(k, v)].
(** pe_base.cpp:995-1019 one iteration; any pe_exception leaves the loop silently
    (1021-1025). std::bad_alloc is not modelled. *)
Definition debug_body (p : pe) (rva size : Z) (st : istream * Z * list Z * list (Z * list Z))
  : res (istream * Z * list Z * list (Z * list Z) + istream * list (Z * list Z)) :=
  let '(f, pos, b, m) := st in
  if negb (dd_ptr b =? 0) && (pos <? u32 (rva + size)) then
    let '(f1, r) :=
      if ((dd_type b =? 2) || (dd_type b =? 4) || (dd_type b =? 1)) && negb (dd_size b =? 0) then
        (s_seek (dd_ptr b) ~;
         d <~ s_read_into (zeros (dd_size b)) 0 (dd_size b) ;
         s_check_eof error_reading_file ~;
         sret (map_insert m (dd_ptr b) d)) f
      else (f, Ok m) in
    match r with
    | Ok m1 =>
      let pos1 := u32 (pos + sizeof_debug_directory) in
      match read_rva p pos1 sizeof_debug_directory VirtData true with
      | Ok b1 => Ok (inl (f1, pos1, b1, m1))
      | Throw _ => Ok (inr (f1, m1))
      | Ub k => Ub k
      | Fuel => Fuel
      end
    | Throw _ => Ok (inr (f1, m))
    | Ub k => Ub k
    | Fuel => Fuel
    end
  else Ok (inr (f, m)).
(** pe_base.cpp:982-1032 *)
Definition read_debug_data (p : pe) (f : istream) : istream * res (list (Z * list Z)) :=
  match (rva <- get_directory_rva p dir_debug ;;
         len <- length_rva p rva rva VirtData true ;;
         if len <? sizeof_debug_directory then Ok None
         else
           b <- read_rva p rva sizeof_debug_directory VirtData true ;;
           size <- get_directory_size p dir_debug ;;
           Ok (Some (rva, size, b))) with
  | Ok (Some (rva, size, b)) =>
    match mloop big_fuel (debug_body p rva size) (f, rva, b, []) with
    | Ok (f1, m) => (f1, Ok m)
    | Throw e => (f, Throw e)
    | Ub k => (f, Ub k)
    | Fuel => (f, Fuel)
    end
  | Ok None | Throw _ => (f, Ok [])
  | Ub k => (f, Ub k)
  | Fuel => (f, Fuel)
  end.

(** * pe_base.cpp:782-1033 read_pe. [dos]: the DOS header already read. *)
Definition read_pe (plus : bool) (dos : list Z) (from_mem read_debug : bool) : sm pe :=
  filesize <~ get_file_size ;
  let lfanew := dos_lfanew dos in
  sthrow_if (negb (lfanew mod 4 =? 0)) bad_dos_header ~;
  s_seek (s32 lfanew) ~;
  s_check_fail image_nt_headers_not_found ~;
  hb <~ s_read_into (zeros (sizeof_nt_nodirs plus)) 0 (sizeof_nt_nodirs plus) ;
  s_check_eof error_reading_image_nt_headers ~;
  let h0 := nt_of_fields plus (dec_fields (nt_widths plus) hb) (repeat (0, 0) 16) in
  sthrow_if (negb (h_signature h0 =? 0x4550)) pe_signature_incorrect ~;
  let h1 := if image_numberof_directory_entries <? h_nrva h0 then set_h_nrva image_numberof_directory_entries h0 else h0 in
  h <~ (if 0 <? h_nrva h1 then
          db <~ s_read_into (zeros 128) 0 (8 * h_nrva h1) ;
          s_check_eof error_reading_data_directories ~;
          sret (set_h_dirs (dirs_of_bytes 16 db) h1)
        else sret h1) ;
  sthrow_if (maximum_number_of_sections <? h_nsections h) section_number_incorrect ~;
  sthrow_if (negb (h_magic h =? (if plus then 0x20b else 0x10b))) pe_signature_incorrect ~;
  sthrow_if (negb (is_power_of_2 (h_salign h))) incorrect_section_alignment ~;
  sthrow_if (negb (is_power_of_2 (h_falign h))) incorrect_file_alignment ~;
  sthrow_if (negb (h_falign h =? h_salign h) && ((h_falign h <? minimum_file_alignment) || (h_salign h <? h_falign h)))
    incorrect_file_alignment ~;
  sthrow_if (align_up (h_imagesize h) (h_salign h) =? 0) incorrect_size_of_image ~;
  stub <~ (if sizeof_dos <? lfanew then
             s_seek sizeof_dos ~;
             d <~ s_read_into (zeros (lfanew - sizeof_dos)) 0 (lfanew - sizeof_dos) ;
             s_check_eof error_reading_overlay ~;
             sret d
           else sret []) ;
  let first_section := u32 (lfanew + h_optsize h + 20 + 4) in
  (if 0 <? h_nsections h then s_seek first_section ~; s_check_fail image_section_headers_not_found else sret tt) ~;
  sl <~ read_sections (Z.to_nat (h_nsections h)) h filesize from_mem [] 0 ;
  let '(secs, last_raw) := sl in
  sthrow_if (match secs with s :: _ => s_va s <? h_hdrsize h | [] => false end) incorrect_size_of_headers ~;
  sthrow_if (not_contiguous (h_salign h) secs) image_section_table_incorrect ~;
  let overlay := match rev secs with s :: _ => u32 (s_rawptr s + last_raw) <? filesize | [] => false end in
  s_seek 0 ~;
  let fsz := full_headers_size h filesize secs in
  full <~ s_read_into (zeros fsz) 0 fsz ;
  s_check_eof error_reading_file ~;
  let p := mk_pe plus (unle (slice dos 0 2)) (slice dos 2 58) lfanew stub h secs overlay full [] in
  if read_debug then
    ex <~ slift (directory_exists p dir_debug) ;
    if ex then m <~ read_debug_data p ; sret (set_p_debug m p) else sret p
  else sret p.

(** pe_base.cpp:17-46 the constructor: runs the reader, then seekg(old), clear() and
    rethrows. *)
Definition with_restore {A} (m : sm A) : sm A := fun s =>
  let '(s0, old) := tellg s in
  let '(s1, r) := m s0 in
  (is_clear (seekg old s1), r).
(** pe_base.cpp:17-46 *)
Definition load (plus from_mem read_debug : bool) : sm pe :=
  with_restore (dos <~ read_dos_header ; read_pe plus dos from_mem read_debug).
(** pe_base.cpp:1042-1091 get_pe_type(istream): true for PE+. *)
Definition get_pe_type : sm bool :=
  with_restore (
    dos <~ read_dos_header ;
    s_seek (s32 (dos_lfanew dos)) ~;
    s_check_fail image_nt_headers_not_found ~;
    hb <~ s_read_into (zeros 120) 0 120 ;
    s_check_eof error_reading_image_nt_headers ~;
    let h := nt_of_fields false (dec_fields (nt_widths false) hb) [] in
    sthrow_if (negb (h_signature h =? 0x4550)) pe_signature_incorrect ~;
    sthrow_if (negb (h_magic h =? 0x10b) && negb (h_magic h =? 0x20b)) pe_signature_incorrect ~;
    sret (h_magic h =? 0x20b)).
(** pe_factory.cpp:6-11 create_pe *)
Definition factory_create (from_mem read_debug : bool) : sm pe :=
  plus <~ get_pe_type ;
  load plus from_mem read_debug.
(** A stream just opened on a byte sequence. *)
Definition open_stream (strict : bool) (data : list Z) : istream := mk_is data strict 0 false false.
