(** C81: tables stored one after the other. *)
From Verif Require Import SamplesHistory.

(** C81: after any sequence of edits that add sections or store exports, imports, relocations, resources or TLS, each where it has room and without overwriting an earlier
    table or its directory entry, every one of the tables is found: in the image, and in the image opened from the file that is
    written for it after realigning. The image can be edited again. *)
Theorem C81_history_partial : forall a p es, editable a p -> 0 < nrva p -> allowed p es ->
  exists q, apply_edits p es = Ok q /\ editable a q /\ (headers_below q -> Forall (reads_back p q) es) /\ forall r, saved q a r -> Forall (reads_back p r) es.
Proof. exact history. Qed.
Print Assumptions C81_history_partial.
(** Four edits, three of them in the same section: the imports are put between the exports and the resources. *)
Example C81_case : editable 0x200 sample_pe /\ 0 < nrva sample_pe /\ allowed sample_pe history_edits /\
  map section_of history_edits = [1; 1; 1; 0]%nat /\ map first_byte history_edits = [4; 128; 260; 8] /\ map (table_stop sample_pe) history_edits = [102; 247; 560; 36] /\
  match apply_edits sample_pe history_edits with
  | Ok q => Forall (fun s => zlen (p_full q) <= s_va s) (p_sections q) /\
            match get_exports q true, get_imports q, get_resources q, get_relocations q true with
            | Ok (_, l), Ok libs, Ok _, Ok r => length l = 4%nat /\ map l_name libs = map l_name C36_libs /\ length r = 2%nat
            | _, _, _, _ => False
            end
  | _ => False
  end.
Proof.
  split; [exact sample_editable|]. split; [vm_compute; reflexivity|]. split; [exact history_allowed|]. do 3 (split; [vm_compute; reflexivity|]).
  vm_compute. split; [repeat constructor; congruence|repeat split; reflexivity].
Qed.
(** Two new sections with tables; the second grows for the raw data of TLS. *)
Example C81_new_sections_case : allowed sample_pe new_edits /\ map section_of new_edits = [0; 2; 0; 3; 3]%nat /\
  match apply_edits sample_pe new_edits with
  | Ok q => map s_va (p_sections q) = [0x1000; 0x2000; 0x4000; 0x5000] /\ Forall (fun s => zlen (p_full q) <= s_va s) (p_sections q) /\
            map s_vsize (p_sections q) = [512; 6144; 0x1000; 0x3000] /\
            match get_resources q, get_relocations q true, get_tls q with Ok _, Ok r, Ok t => length r = 2%nat /\ t = new_tls | _, _, _ => False end
  | _ => False
  end.
Proof.
  split; [exact new_allowed|]. split; [reflexivity|]. vm_compute. split; [reflexivity|]. split; [repeat constructor; congruence|]. split; [reflexivity|split; reflexivity].
Qed.
(** The imports must be stored before what is behind them: the import rebuilder cuts the section behind its table. Exports that are stored behind the imports first
    are lost, although the tables do not overlap. *)
Theorem C81_cut_refuted : exists p e f q r, editable 0x200 p /\ admissible p e /\ apply_edit p e = Ok q /\ admissible q f /\ apply_edit q f = Ok r /\ reads_back p q e /\
  (forall id, In id (entries e) -> ~ In id (entries f)) /\ table_stop q f <= first_byte e /\ exists x, get_exports r true = Ok (x, []).
Proof. exact imports_cut. Qed.
Print Assumptions C81_cut_refuted.
