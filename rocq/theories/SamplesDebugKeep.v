(** A file with PDB 7.0 debug information, for PropKeepDebug.v. *)
From Verif Require Export SamplesKeep DebugSamples KeepDebug.
Export SpecRebuild.

(** The data section: the debug directory and, behind an empty entry, the data it describes. *)
Definition dbg_first : pe :=
  with_nt (fun h => set_h_dirs (upd (h_dirs h) 6 (0x2000, 28)) h)
    (sample_with [sample_code; set_s_rawsize 86 (set_s_data (entry_bytes (mk_debug 0 1 2 3 2 30 0 0x438 AdvNone) ++ zeros 28 ++ pdb7_raw) sample_data)]).
Definition dbg_file : list Z := snd (result (sample_pe, []) (rebuild_pe dbg_first false true false)).
Definition dbg_image : pe := result sample_pe (snd (factory_create false true (open_stream true dbg_file))).
Definition dbg_again : pe * list Z := result (sample_pe, []) (rebuild_pe dbg_image false true false).
Definition dbg_info : list debug_info := [mk_debug 0 1 2 3 2 30 0 0x438 (AdvPdb7 [0;1;2;3;4;5;6;7;8;9;10;11;12;13;14;15] 5 [0x61; 0x2e; 0x70; 0x64; 0x62])].
Definition dbg_reopened : pe := result sample_pe (snd (factory_create false true (open_stream true (snd dbg_again)))).
(** The image realigned to 0x1000, written and opened. *)
Definition dbg_moved : pe := result sample_pe (realign_file dbg_image 0x1000).
Definition dbg_moved_file : pe * list Z := result (sample_pe, []) (rebuild_pe dbg_moved false true false).
Definition dbg_moved_opened : pe := result sample_pe (snd (factory_create false true (open_stream true (snd dbg_moved_file)))).
Lemma dbg_stream : wf_stream (open_stream true dbg_file).
Proof. apply wf_open; [apply bytes_check; vm_compute; reflexivity|vm_compute; reflexivity]. Qed.
Lemma dbg_loaded : exists f, factory_create false true (open_stream true dbg_file) = (f, Ok dbg_image).
Proof.
  exists (fst (factory_create false true (open_stream true dbg_file))).
  assert (X : is_ok (snd (factory_create false true (open_stream true dbg_file))) = true) by (vm_compute; reflexivity).
  apply (is_ok_result sample_pe) in X. unfold dbg_image. rewrite <- X. clear X. apply surjective_pairing.
Qed.
Lemma dbg_rebuilt : rebuild_pe dbg_image false true false = Ok dbg_again.
Proof. unfold dbg_again. apply (is_ok_result (sample_pe, []) (rebuild_pe dbg_image false true false)). vm_compute. reflexivity. Qed.
Lemma dbg_opens : opened_with_debug (snd dbg_again) dbg_reopened.
Proof.
  exists true, (fst (factory_create false true (open_stream true (snd dbg_again)))).
  assert (X : is_ok (snd (factory_create false true (open_stream true (snd dbg_again)))) = true) by (vm_compute; reflexivity).
  apply (is_ok_result sample_pe) in X. unfold dbg_reopened. rewrite <- X. clear X. apply surjective_pairing.
Qed.
Lemma dbg_reads : get_debug_information (sections_only dbg_image) = Ok dbg_info. Proof. vm_compute. reflexivity. Qed.
Lemma dbg_again_reads : get_debug_information dbg_reopened = Ok dbg_info. Proof. vm_compute. reflexivity. Qed.
Lemma dbg_data : Forall (in_section_data dbg_image) dbg_info.
Proof.
  apply Forall_cons; [|constructor]. intros _ _.
  assert (X : existsb (fun s => (s_rawptr s <=? 0x438) && (0x438 + 30 <=? s_rawptr s + zlen (raw_view s))) (p_sections dbg_image) = true) by (vm_compute; reflexivity).
  apply existsb_exists in X as (s & Hs & X). exists s. split; [exact Hs|]. change (d_ptr _) with 0x438. change (d_size _) with 30. lia.
Qed.
Lemma dbg_places : map s_rawptr (p_sections (fst dbg_again)) = map s_rawptr (p_sections dbg_image). Proof. vm_compute. reflexivity. Qed.
Lemma dbg_consistent : consistent dbg_image.
Proof.
  destruct dbg_loaded as [f0 L0]. destruct (factory_ok false true (open_stream true dbg_file) f0 dbg_image dbg_stream L0) as (W & _). clear f0 L0. unfold consistent. split; [exact W|]. clear W.
  split; [vm_compute; reflexivity|]. split; [vm_compute; reflexivity|]. split; [vm_compute; reflexivity|]. split; [vm_compute; reflexivity|].
  split; [intros X; exfalso; revert X; vm_compute; discriminate|]. split.
  { split; [exists 12; split; [lia|vm_compute; reflexivity]|]. split; [exists 9; split; [lia|vm_compute; reflexivity]|]. split; [vm_compute; reflexivity|]. split; [vm_compute; congruence|]. right. vm_compute; congruence. }
  split; [split; [vm_compute; reflexivity|vm_compute; congruence]|]. split.
  - exists 0x1000. split; [vm_compute; congruence|]. split; [exists 1; vm_compute; reflexivity|]. split; [vm_compute; repeat split; reflexivity|vm_compute; reflexivity].
  - assert (X : forallb (fun s => (0 <? s_vsize s) && (s_vsize s <=? 2^31) && (s_rawsize s =? zlen (raw_view s)) && (ceil_mult (s_rawsize s) (falign dbg_image) <=? ceil_mult (s_vsize s) (salign dbg_image))) (p_sections dbg_image) = true) by (vm_compute; reflexivity).
    rewrite forallb_forall in X. apply Forall_forall. intros s Hs. specialize (X s Hs). unfold section_loadable. lia.
Qed.
Lemma dbg_bounds : unmapped dbg_image /\ 0 < nrva dbg_image /\ data_start false false dbg_image + data_total (falign dbg_image) (p_sections dbg_image) < 2^32 /\ no_stale_pointers (data_start false false dbg_image) dbg_image.
Proof.
  split.
  { assert (X : forallb (fun s => match s_old s with None => true | _ => false end) (p_sections dbg_image) = true) by (vm_compute; reflexivity). rewrite forallb_forall in X. apply Forall_forall. intros s Hs. specialize (X s Hs). destruct (s_old s); [discriminate X|reflexivity]. }
  split; [vm_compute; reflexivity|]. split; [vm_compute; reflexivity|]. unfold no_stale_pointers. apply Forall_forall. intros s Hs E. exfalso. revert Hs E.
  assert (F : forallb (fun s => negb (s_rawsize s =? 0)) (p_sections dbg_image) = true) by (vm_compute; reflexivity). rewrite forallb_forall in F. intros Hs E. specialize (F s Hs). rewrite E in F. discriminate F.
Qed.

Lemma slice_stands d off n : 0 <= off -> off + n <= zlen d -> 0 <= n -> stands d off (slice d off n).
Proof.
  intros A B C. exists (ztake off d), (zdrop (off + n) d). split; [|apply zlen_ztake; lia]. unfold ztake, zdrop, slice. rewrite Z2Nat.inj_add by lia. rewrite Nat.add_comm, <- (firstn_skipn (Z.to_nat off) d) at 1. f_equal.
  rewrite <- (firstn_skipn (Z.to_nat n) (skipn (Z.to_nat off) d)) at 1. f_equal. clear. generalize (Z.to_nat n) as k, (Z.to_nat off) as j. intros k j. revert d. induction j as [|j IH]; intros d; [rewrite Nat.add_0_r; reflexivity|].
  rewrite Nat.add_succ_r. destruct d; [rewrite !skipn_nil; reflexivity|]. exact (IH d).
Qed.
Lemma dbg_stored : Forall (raw_stored dbg_image (snd dbg_again)) dbg_info.
Proof.
  apply Forall_cons; [|constructor]. intros _. split; [discriminate|]. exists pdb7_raw. split; [exists [], []; split; [vm_compute; reflexivity|intros []]|]. split; [reflexivity|]. change (d_ptr _) with 0x438.
  assert (X : slice (snd dbg_again) 0x438 30 = pdb7_raw) by (vm_compute; reflexivity). rewrite <- X. apply slice_stands; [lia|vm_compute; congruence|lia].
Qed.
Lemma dbg_moves : exists f f' p a p1 q out r l l', wf_stream f /\ factory_create false true f = (f', Ok p) /\ consistent p /\ unmapped p /\ power_of_two a /\ 512 <= a <= salign p /\
  get_debug_information (sections_only p) = Ok l /\ Forall (in_section_data p) l /\ realign_file p a = Ok p1 /\ rebuild_pe p1 false true false = Ok (q, out) /\ opened_with_debug out r /\
  get_debug_information r = Ok l' /\ map d_ptr l' = map d_ptr l /\ Forall (fun e => d_adv e <> AdvNone) l /\ Forall (fun e => d_adv e = AdvNone) l'.
Proof.
  destruct dbg_loaded as [f0 L0]. exists (open_stream true dbg_file), f0, dbg_image, 0x1000, dbg_moved, (fst dbg_moved_file), (snd dbg_moved_file), dbg_moved_opened, dbg_info, [mk_debug 0 1 2 3 2 30 0 0x438 AdvNone].
  split; [exact dbg_stream|]. split; [exact L0|]. clear f0 L0. split; [exact dbg_consistent|]. split; [exact (proj1 dbg_bounds)|]. split; [exists 12; split; [lia|reflexivity]|]. split; [split; vm_compute; congruence|].
  split; [exact dbg_reads|]. split; [exact dbg_data|]. split.
  { unfold dbg_moved. apply (is_ok_result sample_pe (realign_file dbg_image 0x1000)). vm_compute. reflexivity. }
  split.
  { rewrite <- surjective_pairing. unfold dbg_moved_file. apply (is_ok_result (sample_pe, []) (rebuild_pe dbg_moved false true false)). vm_compute. reflexivity. }
  split.
  { exists true, (fst (factory_create false true (open_stream true (snd dbg_moved_file)))).
    assert (X : is_ok (snd (factory_create false true (open_stream true (snd dbg_moved_file)))) = true) by (vm_compute; reflexivity).
    apply (is_ok_result sample_pe) in X. unfold dbg_moved_opened. rewrite <- X. clear X. apply surjective_pairing. }
  split; [vm_compute; reflexivity|]. split; [reflexivity|]. split; (apply Forall_cons; [|constructor]); [discriminate|reflexivity].
Qed.
