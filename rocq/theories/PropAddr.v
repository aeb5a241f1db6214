(** C84: queries by address. *)
From Verif Require Import SamplesDir AddrFacts.

(** The length of the data that belong to an address: of the headers, if they are asked for and have the address, otherwise of the section that has it. *)
Theorem C84_total : forall p, spec_layout p -> unmapped p -> forall rva ty hdrs n, under_4g p ->
  (length_rva_total p rva ty hdrs = Ok n <-> in_headers p hdrs rva /\ n = zlen (p_full p) \/ ~ in_headers p hdrs rva /\ exists i s, at_section p rva i s /\ n = data_size p s ty).
Proof. exact total_exact. Qed.
Print Assumptions C84_total.
(** What remains from [inside] on to the end of the data that belong to [rva]. *)
Theorem C84_remaining : forall p, spec_layout p -> unmapped p -> forall rva inside ty hdrs n, under_4g p -> 0 <= inside ->
  (length_rva p rva inside ty hdrs = Ok n <-> in_headers p hdrs rva /\ in_headers p hdrs inside /\ n = zlen (p_full p) - inside \/
     ~ (in_headers p hdrs rva /\ in_headers p hdrs inside) /\ exists i s, at_section p rva i s /\ s_va s <= inside /\ n = Z.max 0 (s_va s + data_size p s ty - inside)).
Proof. exact remaining_exact. Qed.
Print Assumptions C84_remaining.
(** The same for a section at hand; the number is computed in 31 bits. *)
Theorem C84_in_section : forall p, spec_layout p -> unmapped p -> forall i s inside ty n, nth_error (p_sections p) i = Some s -> data_size p s ty < 2^31 -> span (salign p) s <= 2^31 ->
  (length_in_section p s inside ty = Ok n <-> at_section p inside i s /\ n = Z.max 0 (s_va s + data_size p s ty - inside)).
Proof. exact in_section_exact. Qed.
Print Assumptions C84_in_section.
(** So many bytes can be read at an address as the length says. *)
Theorem C84_enough : forall p, spec_layout p -> unmapped p -> forall rva n ty, under_4g p -> is_u32 rva -> 0 < n ->
  (ty = VirtData -> Forall (fun s => zlen (s_data s) <= span (salign p) s) (p_sections p)) ->
  ((exists bs, read_rva p rva n ty false = Ok bs) <-> exists len, length_rva p rva rva ty false = Ok len /\ n <= len).
Proof. exact enough. Qed.
Print Assumptions C84_enough.
Theorem C84_section_offset : forall p, spec_layout p -> unmapped p -> forall rva off i, section_and_offset p rva = Ok (off, i) <-> exists s, at_section p rva i s /\ off = rva - s_va s.
Proof. exact offset_exact. Qed.
Print Assumptions C84_section_offset.
(** Pointers point to the byte of the address. *)
Theorem C84_pointer : forall p, spec_layout p -> unmapped p -> forall rva ty hdrs buf off,
  ptr_rva p rva ty hdrs = Ok (buf, off) <-> in_headers p hdrs rva /\ buf = p_full p /\ off = rva \/ ~ in_headers p hdrs rva /\ exists i s, at_section p rva i s /\ buf = contents p s ty /\ off = rva - s_va s.
Proof. exact pointer_exact. Qed.
Print Assumptions C84_pointer.
Theorem C84_writable_pointer : forall p, spec_layout p -> unmapped p -> forall rva hdrs buf off,
  ptr_rva_mut p rva hdrs = Ok (buf, off) <-> in_headers p hdrs rva /\ buf = p_full p /\ off = rva \/
    ~ in_headers p hdrs rva /\ exists i s, at_section p rva i s /\ buf = s_data s /\ s_data s <> [] /\ off = rva - s_va s.
Proof. exact writable_exact. Qed.
Print Assumptions C84_writable_pointer.
Example C84_case : spec_layout sample_pe /\ unmapped sample_pe /\ under_4g sample_pe /\ Forall (fun s => zlen (s_data s) <= span (salign sample_pe) s) (p_sections sample_pe) /\
  length_rva_total sample_pe 0x2ABC RawData false = Ok 3 /\ length_rva_total sample_pe 0x2ABC VirtData false = Ok 0x2000 /\ length_rva_total sample_pe 0x10 VirtData true = Ok 0x400 /\
  length_rva sample_pe 0x2ABC 0x2001 RawData false = Ok 2 /\ length_rva sample_pe 0x2ABC 0x2003 VirtData false = Ok 0x1FFD /\ length_rva sample_pe 0x2ABC 0x2ABC RawData false = Ok 0 /\
  length_in_section sample_pe sample_data 0x2001 RawData = Ok 2 /\ read_rva sample_pe 0x2001 2 RawData false = Ok [8; 9] /\ section_and_offset sample_pe 0x2ABC = Ok (0xABC, 1%nat).
Proof.
  split; [exact sample_layout|]. split; [exact sample_unmapped|]. split; [split; [vm_compute; reflexivity|constructor; [vm_compute; reflexivity|constructor; [vm_compute; reflexivity|constructor]]]|].
  split; [constructor; [vm_compute; discriminate|constructor; [vm_compute; discriminate|constructor]]|]. ands; vm_compute; reflexivity.
Qed.

(** A query by virtual address is the query by the RVA it stands for; it throws if it stands for none. *)
Theorem C84_by_va : forall p, is_u64 (imagebase p) ->
  (forall r, is_u32 r -> section_from_va p (va_of p r) = section_from_rva p r /\
     (forall ty hdrs, length_va_total p (va_of p r) ty hdrs = length_rva_total p r ty hdrs /\ ptr_va p (va_of p r) ty hdrs = ptr_rva p r ty hdrs) /\
     (forall s ty, length_va_in_section p s (va_of p r) ty = length_in_section p s r ty /\ ptr_va_in_section p s (va_of p r) ty = ptr_in_section p s r ty) /\
     (forall hdrs, ptr_va_mut p (va_of p r) hdrs = ptr_rva_mut p r hdrs) /\ (forall s, ptr_va_in_section_mut p s (va_of p r) = ptr_in_section_mut p s r) /\
     (forall n ty hdrs, read_va p (va_of p r) n ty hdrs = read_rva p r n ty hdrs) /\ (forall s n ty, read_va_in_section p s (va_of p r) n ty = read_in_section p s r n ty) /\
     (forall r2 ty hdrs, is_u32 r2 -> length_va p (va_of p r) (va_of p r2) ty hdrs = length_rva p r r2 ty hdrs)) /\
  (forall va, is_u64 va -> (forall r, is_u32 r -> va <> va_of p r) -> section_from_va p va = Throw incorrect_address_conversion /\
     (forall ty hdrs, length_va_total p va ty hdrs = Throw incorrect_address_conversion /\ ptr_va p va ty hdrs = Throw incorrect_address_conversion) /\
     (forall s ty, length_va_in_section p s va ty = Throw incorrect_address_conversion /\ ptr_va_in_section p s va ty = Throw incorrect_address_conversion) /\
     (forall hdrs, ptr_va_mut p va hdrs = Throw incorrect_address_conversion) /\ (forall s, ptr_va_in_section_mut p s va = Throw incorrect_address_conversion) /\
     (forall n ty hdrs, read_va p va n ty hdrs = Throw incorrect_address_conversion) /\ (forall s n ty, read_va_in_section p s va n ty = Throw incorrect_address_conversion) /\
     (forall va2 ty hdrs, length_va p va va2 ty hdrs = Throw incorrect_address_conversion) /\
     (forall r ty hdrs, is_u32 r -> length_va p (va_of p r) va ty hdrs = Throw incorrect_address_conversion)).
Proof. exact all_by_va. Qed.
Print Assumptions C84_by_va.
Example C84_by_va_case : is_u64 (imagebase sample_pe) /\ va_of sample_pe 0x2001 = 0x402001 /\ length_va sample_pe 0x402ABC 0x402001 RawData false = Ok 2 /\
  section_from_va sample_pe 0x402001 = Ok 1%nat /\ section_from_va sample_pe 0x3FFFFF = Throw incorrect_address_conversion.
Proof. split; [vm_compute; intuition discriminate|]. ands; vm_compute; reflexivity. Qed.

(** With 2 GiB or more the query in a section at hand says 0, and far behind the stored data it says that there are many. *)
Definition C84_big : section := set_s_vsize 0xC0000000 sample_data.
Theorem C84_in_section_refuted : exists p s, nth_error (p_sections p) 1 = Some s /\ spec_layout p /\ unmapped p /\
  at_section p 0x2001 1 s /\ length_in_section p s 0x2001 VirtData = Ok 0 /\ at_section p 0xB0000000 1 s /\ length_in_section p s 0xB0000000 RawData = Ok 0x50002003.
Proof.
  exists (sample_with [sample_code; C84_big]), C84_big. split; [reflexivity|]. split.
  - split; [exact (sample_with_align _)|]. split; [constructor; [exact sample_code_wf|constructor; [|constructor]]|]. 
    + pose proof sample_data_wf as W. unfold wf_section in *. cbn [C84_big set_s_vsize s_name s_vsize s_va s_rawsize s_rawptr s_relptr s_lineptr s_nrel s_nline s_chars s_data s_old] in *. repeat match goal with H : _ /\ _ |- _ => destruct H end. repeat (split; [first [assumption|vm_compute; intuition discriminate]|]). assumption.
    + split; [constructor; [vm_compute; reflexivity|constructor; [vm_compute; reflexivity|constructor]]|].
      assert (E1 : forall r, occupies (salign (sample_with [sample_code; C84_big])) sample_code r -> r < 0x2000) by (intros r [_ H]; change (send _ sample_code) with 0x2000 in H; exact H).
      assert (E2 : forall r, occupies (salign (sample_with [sample_code; C84_big])) C84_big r -> 0x2000 <= r) by (intros r [H _]; exact H).
      intros [|[|i]] [|[|j]] s t r Hs Ht Os Ot; try reflexivity; try (destruct i; discriminate Hs); try (destruct j; discriminate Ht); injection Hs as <-; injection Ht as <-; exfalso;
        [pose proof (E1 r Os); pose proof (E2 r Ot); lia|pose proof (E1 r Ot); pose proof (E2 r Os); lia].
  - split; [constructor; [reflexivity|constructor; [reflexivity|constructor]]|]. split; [split; [reflexivity|vm_compute; intuition discriminate]|]. split; [vm_compute; reflexivity|]. split; [split; [reflexivity|vm_compute; intuition discriminate]|]. vm_compute. reflexivity.
Qed.
Print Assumptions C84_in_section_refuted.
