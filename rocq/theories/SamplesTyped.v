(** A tree with two bitmaps and version information, and the file it is stored in. *)
From Verif Require Export TypedFacts SamplesHistory VerRead.

(** A 1x1 bitmap with 1 bit per pixel: pixels behind a table of two colours. *)
Definition small_bitmap : list Z := [0x42; 0x4d] ++ le 4 66 ++ [0;0;0;0] ++ le 4 62 ++
  le 4 40 ++ le 4 1 ++ le 4 1 ++ le 2 1 ++ le 2 1 ++ le 4 0 ++ le 4 4 ++ le 4 0 ++ le 4 0 ++ le 4 0 ++ le 4 0 ++ le 4 0 ++ le 4 0xffffff ++ [0x80;0;0;0].
Definition typed0 : rnode := RDir empty_rhead [].
Definition typed1 : rnode := result typed0 (add_bitmap typed0 small_bitmap (Named [65]) 1033 1252 7).
Definition typed2 : rnode := result typed0 (add_bitmap typed1 small_bitmap (Ided 7) 1033 0 7).
Definition typed3 : rnode := result typed0 (set_version_info typed2 sample_info sample_strings sample_trans 1049 1200 8).
Lemma typed0_levels : three_levels typed0. Proof. do 2 eexists. split; [reflexivity|]. split; constructor. Qed.
Lemma small_bytes : bytes small_bitmap. Proof. vm_compute. repeat constructor; congruence. Qed.
Lemma typed1_levels : three_levels typed1 /\ add_bitmap typed0 small_bitmap (Named [65]) 1033 1252 7 = Ok typed1.
Proof.
  destruct (bitmap_in_tree typed0 small_bitmap (Named [65]) 1033 1252 7 (zdrop 14 small_bitmap) typed0_levels small_bytes ltac:(vm_compute; reflexivity) ltac:(vm_compute; reflexivity) ltac:(vm_compute; congruence)) as (t & E & T & _).
  unfold typed1. rewrite E. split; [exact T|reflexivity].
Qed.
Lemma typed2_levels : three_levels typed2 /\ add_bitmap typed1 small_bitmap (Ided 7) 1033 0 7 = Ok typed2.
Proof.
  destruct (bitmap_in_tree typed1 small_bitmap (Ided 7) 1033 0 7 (zdrop 14 small_bitmap) (proj1 typed1_levels) small_bytes ltac:(vm_compute; reflexivity) ltac:(vm_compute; reflexivity) ltac:(vm_compute; congruence)) as (t & E & T & _).
  unfold typed2. rewrite E. split; [exact T|reflexivity].
Qed.
Lemma typed3_is : set_version_info typed2 sample_info sample_strings sample_trans 1049 1200 8 = Ok typed3.
Proof. unfold typed3. apply is_ok_result. vm_compute. reflexivity. Qed.
Lemma typed_valid : valid_tree typed2 /\ storable_tree typed2 /\ ordered_tree typed2.
Proof.
  split; [|split].
  - vm_compute. repeat split; try congruence; repeat constructor; congruence.
  - vm_compute. repeat split; try congruence; repeat constructor; cbn; intuition congruence.
  - vm_compute. repeat split; repeat constructor.
Qed.
Lemma typed3_valid : valid_tree typed3 /\ storable_tree typed3 /\ ordered_tree typed3.
Proof.
  split; [|split].
  - vm_compute. repeat split; try congruence; repeat constructor; congruence.
  - vm_compute. repeat split; try congruence; repeat constructor; cbn; intuition congruence.
  - vm_compute. repeat split; repeat constructor.
Qed.
Lemma typed_room : (exists start, room sample_pe start 1 (resource_end 6 typed2)) /\ (exists start, room sample_pe start 1 (resource_end 6 typed3)).
Proof. split; (apply (roomy_room 0x200); [exact sample_editable|vm_compute; reflexivity]). Qed.
(** The whole way: store the tree, realign, write the file, open it, read the resources. *)
Definition typed_way (t : rnode) : res rnode :=
  ' (p, _, _) <- rebuild_resources sample_pe t 1 6 true false ;; p1 <- realign_file p 0x200 ;; ' (_, out) <- rebuild_pe p1 false true false ;;
  r <- snd (factory_create false false (open_stream true out)) ;; get_resources r.
