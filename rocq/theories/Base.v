(** Common vocabulary of the model: outcomes of C++ code, fixed-width wraps,
    byte buffers, the little-endian codec and loops.  No C++ function is modelled
    here; the definitions below give meaning to the C++ language constructs
    (unsigned arithmetic, exceptions, memcpy, while loops) used in /repo. *)
From Coq Require Export ZArith List Bool Lia.
From Coq Require Export ZifyBool ZifyNat.
Export ListNotations.
Global Open Scope Z_scope.

(** * Exceptions
    The ids of pe_exception (/repo/src/pe_lib/pe_exception.h:12-91) used in the
    model, plus the standard library's std::out_of_range. *)
Inductive exc : Type :=
| unknown_error | bad_pe_file | bad_dos_header | image_nt_headers_not_found
| error_reading_image_nt_headers | error_reading_data_directories | error_reading_file
| pe_signature_incorrect | incorrect_number_of_rva_and_sizes
| error_changing_section_virtual_size | section_number_incorrect
| section_table_incorrect | incorrect_section_alignment | incorrect_file_alignment
| incorrect_size_of_image | incorrect_size_of_headers | image_section_headers_not_found
| zero_section_sizes | section_incorrect_addr_or_size | section_not_found
| image_section_data_not_found | no_section_found | image_section_table_incorrect
| directory_does_not_exist | rva_not_exists | error_reading_section_header
| error_reading_overlay | incorrect_address_conversion | incorrect_export_directory
| incorrect_import_directory | incorrect_relocation_directory | incorrect_tls_directory
| incorrect_config_directory | incorrect_bound_import_directory
| incorrect_resource_directory | incorrect_exception_directory
| incorrect_debug_directory | resource_directory_entry_error
| resource_directory_entry_not_found | resource_data_entry_not_found
| resource_incorrect_bitmap | resource_incorrect_icon | resource_incorrect_cursor
| resource_incorrect_string_table | resource_string_not_found
| resource_incorrect_message_table | resource_incorrect_version_info
| advanced_debug_information_request_error | image_does_not_have_managed_code
| section_is_empty | data_is_empty | stream_is_bad | section_is_not_attached
| insufficient_space | cannot_rebase_relocations | exports_list_is_empty
| duplicate_exported_function_ordinal | duplicate_exported_function_name
| version_info_string_does_not_exist | no_more_sections_can_be_added
| no_icon_group_found | no_cursor_group_found | encoding_convertion_error
| error_expanding_section | cannot_rebuild_image | std_out_of_range | std_length_error.

(** Kinds of undefined behaviour distinguished by the model. *)
Inductive ub : Type := OobRead | OobWrite | BadIndex | NullAccess.

(** Outcome of a C++ computation. [Fuel]: the loop bound of the model was hit. *)
Inductive res (A : Type) : Type :=
| Ok (a : A) | Throw (e : exc) | Ub (k : ub) | Fuel.
Arguments Ok {A} a. Arguments Throw {A} e. Arguments Ub {A} k. Arguments Fuel {A}.

Definition bind {A B} (x : res A) (f : A -> res B) : res B :=
  match x with Ok a => f a | Throw e => Throw e | Ub k => Ub k | Fuel => Fuel end.
Notation "x <- a ;; b" := (bind a (fun x => b)) (at level 61, a at next level, right associativity).
Notation "' p <- a ;; b" := (bind a (fun x => let 'p := x in b))
  (at level 61, p pattern, a at next level, right associativity).
Notation "a ;;; b" := (bind a (fun _ => b)) (at level 61, right associativity).
(** if(c) throw e; *)
Definition throw_if (c : bool) (e : exc) : res unit := if c then Throw e else Ok tt.

(** An outcome that is neither undefined behaviour nor an exhausted loop. *)
Definition safe {A} (r : res A) : Prop := match r with Ok _ | Throw _ => True | _ => False end.
Definition is_ok {A} (r : res A) : bool := match r with Ok _ => true | _ => false end.

(** * Fixed-width integers *)
Definition u8 (x : Z) : Z := x mod 2^8.
Definition u16 (x : Z) : Z := x mod 2^16.
Definition u32 (x : Z) : Z := x mod 2^32.
Definition u64 (x : Z) : Z := x mod 2^64.
(** Conversion of a 32-bit pattern to int32_t (two's complement). *)
Definition s32 (x : Z) : Z := let y := u32 x in if y <? 2^31 then y else y - 2^32.
Definition is_u8 (x : Z) : Prop := 0 <= x < 2^8.
Definition is_u16 (x : Z) : Prop := 0 <= x < 2^16.
Definition is_u32 (x : Z) : Prop := 0 <= x < 2^32.
Definition is_u64 (x : Z) : Prop := 0 <= x < 2^64.

(** * Byte buffers *)
Notation byte_list := (list Z).
Definition bytes (l : list Z) : Prop := Forall (fun b => 0 <= b < 256) l.
Definition zlen {A} (l : list A) : Z := Z.of_nat (length l).
(** [n] bytes of [l] from offset [off] (fewer when the buffer ends earlier). *)
Definition slice {A} (l : list A) (off n : Z) : list A :=
  firstn (Z.to_nat n) (skipn (Z.to_nat off) l).
Definition ztake {A} (n : Z) (l : list A) : list A := firstn (Z.to_nat n) l.
Definition zdrop {A} (n : Z) (l : list A) : list A := skipn (Z.to_nat n) l.
(** [n] zero bytes. *)
Definition zeros (n : Z) : list Z := repeat 0 (Z.to_nat n).
(** std::string::resize(n): cut or pad with NUL. *)
Definition resize (l : list Z) (n : Z) : list Z :=
  if n <=? zlen l then ztake n l else l ++ zeros (n - zlen l).
(** Read of [n] bytes through a pointer at offset [off] of a buffer. *)
Definition rd (l : list Z) (off n : Z) : res (list Z) :=
  if (0 <=? off) && (0 <=? n) && (off + n <=? zlen l) then Ok (slice l off n) else Ub OobRead.
(** The buffer after memcpy of [bs] to offset [off]. *)
Definition splice {A} (l : list A) (off : Z) (bs : list A) : list A :=
  ztake off l ++ bs ++ zdrop (off + zlen bs) l.
Definition wr (l : list Z) (off : Z) (bs : list Z) : res (list Z) :=
  if (0 <=? off) && (off + zlen bs <=? zlen l) then Ok (splice l off bs) else Ub OobWrite.

(** * Little-endian codec (packed structures, little-endian host) *)
Fixpoint le (n : nat) (v : Z) : list Z :=
  match n with O => [] | S k => v mod 256 :: le k (v / 256) end.
Fixpoint unle (l : list Z) : Z :=
  match l with [] => 0 | b :: t => b + 256 * unle t end.
(** A packed structure as a list of (width in bytes, value). *)
Fixpoint enc_fields (ws : list nat) (vs : list Z) : list Z :=
  match ws, vs with w :: ws', v :: vs' => le w v ++ enc_fields ws' vs' | _, _ => [] end.
Fixpoint dec_fields (ws : list nat) (l : list Z) : list Z :=
  match ws with [] => [] | w :: ws' => unle (firstn w l) :: dec_fields ws' (skipn w l) end.
(** Every value fits the field of its width. *)
Fixpoint fits (ws : list nat) (vs : list Z) : Prop :=
  match ws, vs with
  | [], [] => True
  | w :: ws', v :: vs' => 0 <= v < 256 ^ Z.of_nat w /\ fits ws' vs'
  | _, _ => False
  end.
Definition widths (ws : list nat) : Z := Z.of_nat (fold_right Nat.add 0%nat ws).
(** Read/write one little-endian integer of [n] bytes in a buffer. *)
Definition rd_le (l : list Z) (off : Z) (n : nat) : res Z :=
  bs <- rd l off (Z.of_nat n) ;; Ok (unle bs).

(** * Loops *)
(** [while(true)] with a body that continues ([inl]), leaves the loop ([inr]) or
    fails. [nloop] is the unary-fuel version used in proofs, [ploop] the
    binary-fuel version used in the model ([ploop_nloop] in BaseFacts.v relates them). *)
Fixpoint nloop {St A} (n : nat) (body : St -> res (St + A)) (s : St) : res (St + A) :=
  match n with
  | O => Ok (inl s)
  | S k => match body s with
           | Ok (inl s') => nloop k body s'
           | r => r
           end
  end.
Fixpoint ploop {St A} (p : positive) (body : St -> res (St + A)) (s : St) : res (St + A) :=
  match p with
  | xH => body s
  | xO q => match ploop q body s with
            | Ok (inl s') => ploop q body s'
            | r => r
            end
  | xI q => match body s with
            | Ok (inl s') => match ploop q body s' with
                             | Ok (inl s'') => ploop q body s''
                             | r => r
                             end
            | r => r
            end
  end.
Definition mloop {St A} (p : positive) (body : St -> res (St + A)) (s : St) : res A :=
  match ploop p body s with
  | Ok (inl _) => Fuel
  | Ok (inr a) => Ok a
  | Throw e => Throw e
  | Ub k => Ub k
  | Fuel => Fuel
  end.
(** Loop bound: above the number of iterations any 32-bit counter allows. *)
Definition big_fuel : positive := 8589934593%positive.   (* 2^33 + 1 *)

(** Monadic fold and map over containers. *)
Fixpoint mfold {A B} (f : B -> A -> res B) (l : list A) (b : B) : res B :=
  match l with [] => Ok b | a :: t => b' <- f b a ;; mfold f t b' end.
Fixpoint mmap {A B} (f : A -> res B) (l : list A) : res (list B) :=
  match l with [] => Ok [] | a :: t => b <- f a ;; r <- mmap f t ;; Ok (b :: r) end.
(** Replace element [i] of a list. *)
Fixpoint upd {A} (l : list A) (i : nat) (x : A) : list A :=
  match l, i with
  | [], _ => []
  | _ :: t, O => x :: t
  | h :: t, S j => h :: upd t j x
  end.
(** [l[i]] with the undefined-behaviour outcome outside the container. *)
Definition nth_ub {A} (l : list A) (i : Z) : res A :=
  if (0 <=? i) && (i <? zlen l) then
    match nth_error l (Z.to_nat i) with Some x => Ok x | None => Ub BadIndex end
  else Ub BadIndex.

Arguments u8 : simpl never.
Arguments u16 : simpl never.
Arguments u32 : simpl never.
Arguments u64 : simpl never.
Arguments zlen : simpl never.
Arguments slice : simpl never.
Arguments ztake : simpl never.
Arguments zdrop : simpl never.
Arguments zeros : simpl never.
Arguments resize : simpl never.
Arguments splice : simpl never.
Arguments rd : simpl never.
Arguments wr : simpl never.
Arguments mloop : simpl never.
