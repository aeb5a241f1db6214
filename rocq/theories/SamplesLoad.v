(** Concrete files used by the Examples and counterexamples beside the loader theorems. *)
From Verif Require Export SpecLoad Samples.

(** A PE32 file: DOS header, NT headers, 16 directories, section headers, data. *)
Definition file_of (sa fa image hdr : Z) (dirs : list Z) (sections : list (list Z)) (data : list Z) : list Z :=
  [77; 90] ++ zeros 58 ++ le 4 64 ++
  enc_fields (nt_widths false)
    [0x4550; 0x14c; zlen sections; 0; 0; 0; 224; 0x102; 0x10b; 0; 0; 0; 0; 0; 0x188; 0x188; 0; 0x400000; sa; fa;
     4; 0; 0; 0; 4; 0; 0; image; hdr; 0; 3; 0; 0x100000; 0x1000; 0x100000; 0x1000; 0; 16] ++
  enc_fields (repeat 4%nat 32) dirs ++
  concat (map (enc_fields [8; 4; 4; 4; 4; 4; 4; 2; 2; 4]%nat) sections) ++ data.
(** Two sections, 404 bytes. *)
Definition sample_file : list Z :=
  file_of 4 4 0x1A0 0x188 (repeat 0 32)
    [[0x74786574; 8; 0x188; 8; 0x188; 0; 0; 0; 0; 0x60000020]; [0x61746164; 16; 0x190; 4; 0x190; 0; 0; 0; 0; 0xC0000040]]
    [1; 2; 3; 4; 5; 6; 7; 8; 21; 22; 23; 24].
(** A section that ends at 2^32 and one that follows it at address 0. *)
Definition wrap_file : list Z :=
  file_of 4 4 0x1000 0x188 (repeat 0 32)
    [[0x74786574; 0xFFF; 0xFFFFF000; 0; 0; 0; 0; 0; 0; 0x60000020]; [0x61746164; 16; 0; 0; 0; 0; 0; 0; 0; 0xC0000040]] [].
(** A debug directory whose entry points past the end of the file. *)
Definition debug_file : list Z :=
  file_of 4 4 0x1C0 0x188 (upd (upd (repeat 0 32) 12 0x188) 13 28)
    [[0x74786574; 32; 0x188; 32; 0x188; 0; 0; 0; 0; 0x60000020]; [0x61746164; 16; 0x1A8; 0; 0; 0; 0; 0; 0; 0xC0000040]]
    (enc_fields [4; 4; 2; 2; 4; 4; 4; 4; 4]%nat [0; 0; 0; 0; 2; 4; 0; 0x10000; 0]).
Definition result_image (r : istream * res pe) (dflt : pe) : pe := match snd r with Ok p => p | _ => dflt end.
Lemma bytes_check l : forallb (fun b => (0 <=? b) && (b <? 256)) l = true -> bytes l.
Proof. intros H. rewrite forallb_forall in H. apply Forall_forall. intros x Hx. specialize (H x Hx). lia. Qed.
Lemma wf_open strict d : bytes d -> zlen d < 2^63 -> wf_stream (open_stream strict d).
Proof.
  intros. split; [assumption|]. split; [assumption|]. split; [cbn; lia|]. intros _. cbn [i_pos open_stream i_data].
  unfold zlen; lia.
Qed.
Lemma sample_stream b : ready (open_stream b sample_file).
Proof. split; [|split; reflexivity]. apply wf_open; [apply bytes_check; reflexivity|vm_compute; reflexivity]. Qed.
Lemma wrap_stream b : ready (open_stream b wrap_file).
Proof. split; [|split; reflexivity]. apply wf_open; [apply bytes_check; reflexivity|vm_compute; reflexivity]. Qed.
Lemma debug_stream b : ready (open_stream b debug_file).
Proof. split; [|split; reflexivity]. apply wf_open; [apply bytes_check; reflexivity|vm_compute; reflexivity]. Qed.
Lemma sample_loads : exists p, load false false true (open_stream true sample_file) = (open_stream true sample_file, Ok p) /\ zlen (p_sections p) = 2.
Proof. eexists. split; vm_compute; reflexivity. Qed.
