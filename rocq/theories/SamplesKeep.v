(** Images used by the Examples of PropKeep: the sample image with exports, realigned to 0x200, written and opened again. *)
From Verif Require Export KeepEdit SamplesDir SamplesRebuild SamplesRead PropExport PropReloc PropRes PropImport.

Definition result {A} (d : A) (x : res A) : A := match x with Ok y => y | _ => d end.
Definition keep_edited : pe := result sample_pe (rmap fst (rebuild_exports sample_pe C32_info C32_l 1 2 true false)).
Definition keep_image : pe := result sample_pe (realign_file keep_edited 0x200).
Definition keep_written : pe * list Z := result (sample_pe, []) (rebuild_pe keep_image false true false).
Definition keep_file : list Z := snd keep_written.
Definition keep_opened : pe := result sample_pe (snd (factory_create false true (open_stream true keep_file))).
Lemma result_ok {A} (d : A) x y : x = Ok y -> result d x = y. Proof. intros ->. reflexivity. Qed.
Lemma is_ok_result {A} (d : A) x : is_ok x = true -> x = Ok (result d x). Proof. destruct x; (reflexivity || discriminate). Qed.
Lemma sample_editable : editable 0x200 sample_pe.
Proof. apply consistent_editable; [exact sample_consistent|exact sample_unmapped|exists 9; split; [lia|reflexivity]|split; vm_compute; congruence]. Qed.
Lemma keep_editable : editable 0x200 keep_edited.
Proof.
  destruct C32_case as (A & B & C & D & E & F & _ & H & Hs & J & K & M).
  destruct (exports_saved sample_pe 0x1000 1 C32_info C32_l 2 false sample_data 0x200 sample_editable A B C D E F H Hs J K (or_introl M)) as (p' & w & X & Ed & _).
  unfold keep_edited. rewrite X. exact Ed.
Qed.
Lemma keep_realigned : realign_file keep_edited 0x200 = Ok keep_image.
Proof. unfold keep_image. apply (is_ok_result sample_pe (realign_file keep_edited 0x200)). vm_compute. reflexivity. Qed.
Lemma keep_consistent : consistent keep_image /\ unmapped keep_image.
Proof. destruct keep_editable as (L & U & R & Pa & Ha). exact (realign_consistent keep_edited 0x200 keep_image L Pa Ha U R keep_realigned). Qed.
Lemma keep_rebuilt : rebuild_pe keep_image false true false = Ok (fst keep_written, keep_file).
Proof. unfold keep_file. rewrite <- surjective_pairing. unfold keep_written. apply (is_ok_result (sample_pe, []) (rebuild_pe keep_image false true false)). vm_compute. reflexivity. Qed.
Lemma keep_bounds : 0 < nrva keep_image /\ data_start false false keep_image + data_total (falign keep_image) (p_sections keep_image) < 2^32 /\ no_stale_pointers (data_start false false keep_image) keep_image.
Proof.
  split; [vm_compute; reflexivity|]. split; [vm_compute; reflexivity|]. unfold no_stale_pointers. apply Forall_forall. intros s Hs E. exfalso. revert Hs E.
  assert (F : forallb (fun s => negb (s_rawsize s =? 0)) (p_sections keep_image) = true) by (vm_compute; reflexivity). rewrite forallb_forall in F. intros Hs E. specialize (F s Hs). rewrite E in F. discriminate F.
Qed.
Lemma keep_loaded : loaded_from keep_file keep_opened.
Proof.
  exists true, true, (fst (factory_create false true (open_stream true keep_file))).
  assert (X : is_ok (snd (factory_create false true (open_stream true keep_file))) = true) by (vm_compute; reflexivity).
  apply (is_ok_result sample_pe) in X. unfold keep_opened. rewrite <- X. clear X. apply surjective_pairing.
Qed.
Lemma keep_saved : saved keep_edited 0x200 keep_opened.
Proof.
  exists keep_image, false, true, false, (fst keep_written), keep_file. split; [exact keep_realigned|]. destruct keep_bounds as (_ & A & B). split; [exact A|]. split; [exact B|]. split; [exact keep_rebuilt|exact keep_loaded].
Qed.
