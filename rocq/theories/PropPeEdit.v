(** Properties C18-C23: editing the section table of an image. *)
From Verif Require Import PeModel SpecPe PeFacts PeEditFacts Samples.

(** ** C18 *)
Theorem C18_add_section : forall p start s auto p',
  image_ok p start -> p_sections p <> [] ->
  (forall t, nth_error (p_sections p) (length (p_sections p) - 1) = Some t ->
     s_vsize t <> 0 \/ (raw_view t = [] /\ s_rawsize t = 0)) ->
  wf_section s -> zlen (raw_view s) <= 2^31 -> s_vsize s <= 2^31 ->
  add_section p s auto = Ok p' ->
  exists olds snew,
    p_sections p' = olds ++ [snew] /\ Forall2 keeps (p_sections p) olds /\
    s_name snew = s_name s /\ s_chars snew = s_chars s /\ raw_view snew = raw_view s /\
    s_rawsize snew = ceil_mult (zlen (raw_view s)) (falign p) /\
    s_vsize s <= s_vsize snew /\ 0 < s_vsize snew /\
    s_va snew = chain_end (salign p) start (p_sections p) /\ 0 < span (salign p) snew /\
    zlen (raw_view s) <= span (salign p) snew /\
    chain (salign p) start (p_sections p') /\ Forall wf_section (p_sections p') /\
    h_nsections (p_nt p') = zlen (p_sections p) + 1 /\
    imagesize p' = u32 (imagesize p + span (salign p) snew) /\ rest_of p' = rest_of p.
Proof. exact add_section_spec. Qed.
Print Assumptions C18_add_section.
Theorem C18_add_first_section : forall p s auto p',
  good_align p -> p_sections p = [] -> is_u32 (hdrsize p) ->
  wf_section s -> zlen (raw_view s) <= 2^31 -> s_vsize s <= 2^31 ->
  ceil_mult (if s_va s =? 0 then hdrsize p else s_va s) (salign p) < 2^32 ->
  add_section p s auto = Ok p' ->
  exists snew,
    p_sections p' = [snew] /\ s_name snew = s_name s /\ s_chars snew = s_chars s /\ raw_view snew = raw_view s /\
    s_rawsize snew = ceil_mult (zlen (raw_view s)) (falign p) /\ s_vsize s <= s_vsize snew /\
    s_va snew = ceil_mult (if s_va s =? 0 then hdrsize p else s_va s) (salign p) /\
    0 < span (salign p) snew /\ zlen (raw_view s) <= span (salign p) snew /\ wf_section snew /\
    h_nsections (p_nt p') = 1 /\ imagesize p' = u32 (imagesize p + span (salign p) snew) /\ rest_of p' = rest_of p.
Proof. exact add_first_section_spec. Qed.
Print Assumptions C18_add_first_section.
Theorem C18_when_it_succeeds : forall p s auto,
  good_align p -> wf_section s -> zlen (raw_view s) <= 2^31 ->
  (zlen (p_sections p) < 0x60 /\ (raw_view s <> [] \/ s_vsize s <> 0) -> exists p', add_section p s auto = Ok p') /\
  (0x60 <= zlen (p_sections p) -> add_section p s auto = Throw no_more_sections_can_be_added) /\
  (zlen (p_sections p) < 0x60 -> raw_view s = [] -> s_vsize s = 0 -> add_section p s auto = Throw zero_section_sizes).
Proof. exact add_section_succeeds. Qed.
Print Assumptions C18_when_it_succeeds.
Lemma sample_image_ok : image_ok sample_pe 0x1000.
Proof.
  split; [exact sample_align|]. split; [exact sample_wf_sections|]. split; [exists 1; reflexivity|].
  split; [lia|]. split; [cbn [sample_pe chain]; split; [reflexivity|split; [reflexivity|exact I]]|reflexivity].
Qed.
Example C18_case :
  image_ok sample_pe 0x1000 /\ p_sections sample_pe <> [] /\
  (forall t, nth_error (p_sections sample_pe) (length (p_sections sample_pe) - 1) = Some t -> s_vsize t <> 0 \/ (raw_view t = [] /\ s_rawsize t = 0)) /\
  wf_section sample_code /\
  exists p', add_section sample_pe sample_code true = Ok p' /\ map s_va (p_sections p') = [0x1000; 0x2000; 0x4000] /\
             imagesize p' = 0x5000.
Proof.
  split; [exact sample_image_ok|]. split; [discriminate|]. split; [intros t Ht; inversion Ht; left; discriminate|].
  split; [exact sample_code_wf|]. eexists. split; [vm_compute; reflexivity|]. split; reflexivity.
Qed.
(** When the last section has VirtualSize 0, the default autoupdate of its SizeOfRawData
    changes its extent after the address of the new section was computed: here the old
    section holds 0x1800 bytes but SizeOfRawData said 0x200, and afterwards it overlaps the
    section that was just added. *)
Definition short_last : pe :=
  set_p_sections [set_s_vsize 0 (set_s_data (repeat 1 0x1800) sample_code)] (with_nt (set_h_imagesize 0x2000) sample_pe).
Theorem C18_zero_virtual_size_refuted : exists p start s p' t1 t2,
  image_ok p start /\ wf_section s /\ add_section p s true = Ok p' /\
  p_sections p' = [t1; t2] /\ occupies (salign p') t1 0x2000 /\ occupies (salign p') t2 0x2000.
Proof.
  exists short_last, 0x1000, sample_code. eexists. eexists. eexists.
  split.
  { split; [apply (good_align_eq _ sample_pe); [vm_compute; reflexivity|vm_compute; reflexivity|exact sample_align]|]. split.
    - constructor; [|constructor]. apply wf_set_vs; [lia|].
      apply wf_set_data; [apply repeat_bytes; lia|reflexivity|reflexivity|exact sample_code_wf].
    - split; [exists 1; reflexivity|]. split; [lia|]. split; [split; [reflexivity|exact I]|reflexivity]. }
  split; [exact sample_code_wf|]. split; [vm_compute; reflexivity|]. split; [cbn [set_p_sections p_sections]; reflexivity|].
  unfold occupies. split; small.
Qed.
Print Assumptions C18_zero_virtual_size_refuted.

(** ** C19 *)
Theorem C19_size_of_image_after_edits : forall start p q,
  image_ok p start ->
  (exists pre s, p_sections p = pre ++ [s] /\ s_vsize s <> 0) ->
  imagesize p = chain_end (salign p) start (p_sections p) ->
  edits start p q ->
  image_ok q start /\ imagesize q = chain_end (salign q) start (p_sections q).
Proof. intros start p q I L H E. pose proof (edits_image_size start p q E I L H). tauto. Qed.
Print Assumptions C19_size_of_image_after_edits.
Theorem C19_update_image_size : forall p pre s,
  good_align p -> p_sections p = pre ++ [s] -> wf_section s -> send (salign p) s < 2^32 ->
  imagesize (update_image_size p) = send (salign p) s.
Proof. exact update_image_size_spec. Qed.
Print Assumptions C19_update_image_size.
Example C19_case :
  image_ok sample_pe 0x1000 /\ (exists pre s, p_sections sample_pe = pre ++ [s] /\ s_vsize s <> 0) /\
  imagesize sample_pe = chain_end (salign sample_pe) 0x1000 (p_sections sample_pe) /\
  exists q, edits 0x1000 sample_pe q /\ imagesize q = 0x9000.
Proof.
  split; [exact sample_image_ok|]. split; [exists [sample_code], sample_data; split; [reflexivity|discriminate]|].
  split; [reflexivity|]. eexists. split.
  - eapply edits_step with (op := EdVirtualSize 1 0x5001); [cbn; lia|vm_compute; reflexivity|reflexivity|].
    eapply edits_step with (op := EdAdd sample_code true).
    + cbn [edit_args]. split; [exact sample_code_wf|]. split; small.
    + vm_compute; reflexivity.
    + reflexivity.
    + apply edits_nil.
  - reflexivity.
Qed.
(** Expanding the raw data grows VirtualSize through the size recalculation but leaves
    SizeOfImage alone, so the last section may end beyond it. *)
Theorem C19_expand_raw_refuted : exists p start q,
  image_ok p start /\ imagesize p = chain_end (salign p) start (p_sections p) /\
  expand_section p 1 0x2000 0x2800 ExpandRaw = Ok (q, true) /\
  imagesize q = 0x4000 /\ chain_end (salign q) start (p_sections q) = 0x5000.
Proof.
  exists sample_pe, 0x1000. eexists. split; [exact sample_image_ok|]. split; [reflexivity|].
  split; [vm_compute; reflexivity|]. split; reflexivity.
Qed.
Print Assumptions C19_expand_raw_refuted.
(** A freshly created image starts with SizeOfImage 0, so the first add_section leaves it
    short by the address of that section. *)
Theorem C19_fresh_image_refuted : exists s q,
  wf_section s /\ add_section (create_pe false 0x1000 false 3) s true = Ok q /\
  exists t, p_sections q = [t] /\ imagesize q = 0x1000 /\ send (salign q) t = 0x2000.
Proof.
  exists sample_code. eexists. split; [exact sample_code_wf|]. split; [vm_compute; reflexivity|].
  eexists. split; [reflexivity|]. split; reflexivity.
Qed.
Print Assumptions C19_fresh_image_refuted.

(** ** C20 *)
Theorem C20_set_section_virtual_size : forall p i s v,
  nth_error (p_sections p) i = Some s -> wf_section s -> is_u32 v ->
  (S i <> length (p_sections p) -> set_section_virtual_size p i v = Throw error_changing_section_virtual_size) /\
  (S i = length (p_sections p) -> v = 0 -> raw_view s = [] -> set_section_virtual_size p i v = Throw error_changing_section_virtual_size) /\
  (S i = length (p_sections p) -> (v <> 0 \/ raw_view s <> []) ->
   exists p' t, set_section_virtual_size p i v = Ok p' /\
     p_sections p' = removelast (p_sections p) ++ [t] /\
     t = set_s_vsize (if v =? 0 then s_rawsize s else v) s /\ raw_view t = raw_view s /\
     (good_align p -> send (salign p) t < 2^32 -> imagesize p' = send (salign p) t) /\
     h_nsections (p_nt p') = h_nsections (p_nt p) /\ rest_of p' = rest_of p).
Proof. exact set_vsize_full. Qed.
Print Assumptions C20_set_section_virtual_size.
Example C20_case :
  nth_error (p_sections sample_pe) 1 = Some sample_data /\ wf_section sample_data /\
  S 1 = length (p_sections sample_pe) /\ good_align sample_pe /\
  exists q, set_section_virtual_size sample_pe 1 0x5001 = Ok q /\ imagesize q = 0x8000.
Proof.
  split; [reflexivity|]. split; [exact sample_data_wf|]. split; [reflexivity|]. split; [exact sample_align|].
  eexists; split; [vm_compute; reflexivity|reflexivity].
Qed.

(** ** C21 *)
Theorem C21_expand_raw : forall p i s rva n p' b,
  good_align p -> nth_error (p_sections p) i = Some s -> wf_section s -> is_u32 rva -> 0 < n ->
  send (salign p) s < 2^32 ->
  zlen (raw_view s) < 2^31 -> s_vsize s <= 2^31 -> rva - s_va s + n <= 2^31 -> s_va s <= rva ->
  (s_vsize s = 0 -> s_rawsize s <= ceil_mult (zlen (raw_view s)) (falign p)) ->
  expand_section p i rva n ExpandRaw = Ok (p', b) ->
  S i = length (p_sections p) /\ occupies (salign p) s rva /\
  exists t, p' = put_section p i t /\
    (b = false -> t = s) /\ (b = true <-> zlen (raw_view s) < rva - s_va s + n) /\
    rva - s_va s + n <= zlen (raw_view t) /\ padded (raw_view s) (raw_view t) /\ wf_section t /\
    s_name t = s_name s /\ s_va t = s_va s /\ s_chars t = s_chars s /\ s_rawptr t = s_rawptr s /\
    span (salign p) s <= span (salign p) t /\
    (b = true -> s_rawsize t = ceil_mult (zlen (raw_view t)) (falign p)).
Proof. exact expand_raw_spec. Qed.
Print Assumptions C21_expand_raw.
Theorem C21_expand_virtual : forall p i s rva n p' b,
  good_align p -> nth_error (p_sections p) i = Some s -> wf_section s -> is_u32 rva -> 0 < n ->
  send (salign p) s < 2^32 -> span (salign p) s < 2^31 -> rva - s_va s + n <= 2^31 -> s_va s <= rva ->
  expand_section p i rva n ExpandVirtual = Ok (p', b) ->
  S i = length (p_sections p) /\ occupies (salign p) s rva /\
  (b = true <-> span (salign p) s < rva - s_va s + n) /\
  (b = false -> p' = p) /\
  (b = true -> exists t, p_sections p' = removelast (p_sections p) ++ [t] /\
     t = set_s_vsize (rva - s_va s + n) s /\ raw_view t = raw_view s /\ rva - s_va s + n <= span (salign p) t /\
     (send (salign p) t < 2^32 -> imagesize p' = send (salign p) t) /\
     h_nsections (p_nt p') = h_nsections (p_nt p) /\ rest_of p' = rest_of p).
Proof. exact expand_virtual_full. Qed.
Print Assumptions C21_expand_virtual.
Theorem C21_only_last : forall p i rva n k,
  S i <> length (p_sections p) -> (i < length (p_sections p))%nat ->
  expand_section p i rva n k = Throw error_expanding_section.
Proof. exact expand_throws_if_not_last. Qed.
Print Assumptions C21_only_last.
Example C21_case :
  good_align sample_pe /\ nth_error (p_sections sample_pe) 1 = Some sample_data /\ wf_section sample_data /\
  send (salign sample_pe) sample_data < 2^32 /\ zlen (raw_view sample_data) < 2^31 /\
  (exists q, expand_section sample_pe 1 0x2010 0x20 ExpandRaw = Ok (q, true)) /\
  (exists q, expand_section sample_pe 1 0x2000 3 ExpandRaw = Ok (q, false)) /\
  (exists q, expand_section sample_pe 1 0x2010 0x2000 ExpandVirtual = Ok (q, true)).
Proof.
  split; [exact sample_align|]. split; [reflexivity|]. split; [exact sample_data_wf|]. split; [reflexivity|]. split; [reflexivity|].
  split; [eexists; vm_compute; reflexivity|]. split; eexists; vm_compute; reflexivity.
Qed.

(** ** C22 *)
Theorem C22_realign_section : forall p i s,
  good_align p -> nth_error (p_sections p) i = Some s -> wf_section s -> zlen (raw_view s) < 2^32 ->
  s_rawsize s <= 2^31 ->
  (S i <> length (p_sections p) -> zlen (raw_view s) <= ceil_mult (s_rawsize s) (falign p)) ->
  exists t, realign_section p i = Ok (put_section p i t) /\
    realigned (falign p) (Nat.eqb (S i) (length (p_sections p))) s t /\ wf_section t.
Proof. exact realign_section_spec. Qed.
Print Assumptions C22_realign_section.
Theorem C22_realign_all_sections : forall p,
  good_align p ->
  (forall i s, nth_error (p_sections p) i = Some s ->
     wf_section s /\ zlen (raw_view s) < 2^32 /\ s_rawsize s <= 2^31 /\
     (S i <> length (p_sections p) -> zlen (raw_view s) <= ceil_mult (s_rawsize s) (falign p))) ->
  exists p', realign_all_sections p = Ok p' /\ set_p_sections [] p' = set_p_sections [] p /\
    length (p_sections p') = length (p_sections p) /\
    forall i s, nth_error (p_sections p) i = Some s ->
     exists t, nth_error (p_sections p') i = Some t /\
       realigned (falign p) (Nat.eqb (S i) (length (p_sections p))) s t /\ wf_section t.
Proof. exact realign_all_spec. Qed.
Print Assumptions C22_realign_all_sections.
Theorem C22_realign_file : forall p a,
  good_align p -> power_of_two a -> 512 <= a <= salign p ->
  (forall i s, nth_error (p_sections p) i = Some s ->
     wf_section s /\ zlen (raw_view s) < 2^32 /\ s_rawsize s <= 2^31 /\
     (S i <> length (p_sections p) -> zlen (raw_view s) <= ceil_mult (s_rawsize s) a)) ->
  exists p', realign_file p a = Ok p' /\ set_p_sections [] p' = set_p_sections [] (with_nt (set_h_falign a) p) /\
    length (p_sections p') = length (p_sections p) /\
    forall i s, nth_error (p_sections p) i = Some s ->
     exists t, nth_error (p_sections p') i = Some t /\
       realigned a (Nat.eqb (S i) (length (p_sections p))) s t /\ wf_section t.
Proof. exact realign_file_spec. Qed.
Print Assumptions C22_realign_file.
Example C22_case :
  good_align sample_pe /\
  (forall i s, nth_error (p_sections sample_pe) i = Some s ->
     wf_section s /\ zlen (raw_view s) < 2^32 /\ s_rawsize s <= 2^31 /\
     (S i <> length (p_sections sample_pe) -> zlen (raw_view s) <= ceil_mult (s_rawsize s) 0x400)) /\
  exists q, realign_file sample_pe 0x400 = Ok q /\ map s_rawsize (p_sections q) = [0x400; 3].
Proof.
  split; [exact sample_align|]. split.
  - intros [|[|i]] s H; cbn [nth_error sample_pe p_sections set_p_full set_p_sections with_nt set_p_nt] in H; [| |destruct i; discriminate];
    inversion H; subst; (split; [first [exact sample_code_wf|exact sample_data_wf]|]); (split; [small|]); (split; [small|]); intros _; small.
  - eexists; split; [vm_compute; reflexivity|reflexivity].
Qed.
(** A section that holds more data than its header's SizeOfRawData (for instance after
    writing to get_raw_data()) loses the tail. *)
Theorem C22_longer_data_refuted : exists p s p' t,
  good_align p /\ nth_error (p_sections p) 0 = Some s /\ wf_section s /\ zlen (raw_view s) = 0x300 /\
  realign_section p 0 = Ok p' /\ nth_error (p_sections p') 0 = Some t /\ zlen (raw_view t) = 0x200.
Proof.
  exists (set_p_sections [set_s_data (repeat 1 0x300) sample_code; sample_data] sample_pe). do 3 eexists.
  split; [apply (good_align_eq _ sample_pe); [vm_compute; reflexivity|vm_compute; reflexivity|exact sample_align]|]. split; [reflexivity|]. split.
  - apply wf_set_data; [apply repeat_bytes; lia|reflexivity|reflexivity|exact sample_code_wf].
  - split; [reflexivity|]. split; [vm_compute; reflexivity|]. split; reflexivity.
Qed.
Print Assumptions C22_longer_data_refuted.

(** ** C23 *)
Theorem C23_set_file_alignment : forall p a,
  is_u32 a -> is_u32 (salign p) ->
  (power_of_two a /\ 512 <= a <= salign p -> set_file_alignment p a = Ok (with_nt (set_h_falign a) p)) /\
  (~ (power_of_two a /\ 512 <= a <= salign p) -> set_file_alignment p a = Throw incorrect_file_alignment).
Proof. exact set_file_alignment_spec. Qed.
Print Assumptions C23_set_file_alignment.
Example C23_case :
  is_u32 (salign sample_pe) /\ (power_of_two 1024 /\ 512 <= 1024 <= salign sample_pe) /\
  set_file_alignment sample_pe 0x2000 = Throw incorrect_file_alignment.
Proof. split; [small|]. split; [split; [exists 10; split; [lia|reflexivity]|small]|reflexivity]. Qed.
