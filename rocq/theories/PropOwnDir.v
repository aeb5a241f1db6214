(** C87: what the readers of data directories depend on. *)
From Verif Require Import OwnDir DebugSamples.

(** C87. The result of a reader (or its exception) depends on its own data directory, by its number in the format, and on the sections, header bytes, debug data,
    section alignment, image base and characteristics; not on other directories, nor on any other field of the headers, the stub or the overlay. *)
Theorem C87_own_directory :
  (forall info, looks_only_at 0 (fun p => get_exports p info)) /\ looks_only_at 1 get_imports /\ looks_only_at 2 get_resources /\ looks_only_at 3 get_exception_directory_data /\
  (forall abs, looks_only_at 5 (fun p => get_relocations p abs)) /\ looks_only_at 6 get_debug_information /\ looks_only_at 9 get_tls /\ looks_only_at 10 get_config /\
  looks_only_at 11 get_bound_imports /\ looks_only_at 14 get_basic_dotnet_info.
Proof.
  split; [intros info p q V N; exact (own_exports p q V info N)|]. split; [exact own_imports|]. split; [exact own_resources|]. split; [exact own_exceptions|]. split; [intros abs p q V N; exact (own_relocations p q V abs N)|].
  split; [exact own_debug|]. split; [exact own_tls|]. split; [exact own_config|]. split; [exact own_bound|exact own_dotnet].
Qed.
Print Assumptions C87_own_directory.
(** C87. So entering a table in another directory, wherever it is, never changes what such a reader returns. *)
Theorem C87_other_directory : forall A n (read : pe -> res A) p k d, looks_only_at n read -> k <> n -> read (with_directory k d p) = read p.
Proof. intros A n read p k d L N. apply L; [apply directory_view|apply directory_entry, N]. Qed.
Print Assumptions C87_other_directory.
(** Another time stamp and another export directory in an image with debug information; the exports differ. *)
Lemma stamped_view p d : let q := with_nt (set_h_timestamp 7) (with_directory 0 d p) in same_view p q /\ same_entry 6 p q /\ h_timestamp (p_nt q) = 7.
Proof. destruct (directory_view 0 d p) as (A & B & C & D & E & F & G & H). split; [repeat (split; [assumption|]); assumption|]. split; [apply (directory_entry 0 d p 6); discriminate|reflexivity]. Qed.
Example C87_case : let p := debug_image 2 pdb7_raw (zeros 28) in let q := with_nt (set_h_timestamp 7) (with_directory 0 (0x2000, 40) p) in
  same_view p q /\ same_entry 6 p q /\ q <> p /\ get_debug_information q = get_debug_information p /\ get_exports p true = Ok (None, []) /\ get_exports q true <> get_exports p true.
Proof.
  cbv zeta. destruct (stamped_view (debug_image 2 pdb7_raw (zeros 28)) (0x2000, 40)) as (V & N & T). split; [exact V|]. split; [exact N|]. split.
  - intros E. rewrite E in T. assert (X : (h_timestamp (p_nt (debug_image 2 pdb7_raw (zeros 28))) =? 7) = false) by (vm_compute; reflexivity). rewrite T in X. discriminate X.
  - split; [exact (own_debug _ _ V N)|]. split; [vm_compute; reflexivity|]. clear V N T.
    match goal with |- ?x <> ?y => assert (X : match x with Ok (Some _, _) => false | _ => true end = false /\ match y with Ok (Some _, _) => false | _ => true end = true) by (split; vm_compute; reflexivity) end. destruct X as [X Y]. intros E. rewrite E, Y in X. discriminate X.
Qed.
