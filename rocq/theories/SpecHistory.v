(** Vocabulary of C81: a history of edits. *)
From Verif Require Export SpecTls.
From Verif Require Export SpecKeep SpecExport SpecReloc SpecImport SpecRes.

(** An edit stores a table in section [i] from offset [off] on and enters it in the directory table, or it adds a section behind the others.
    TLS also stores raw data at offset [d] and a table of callbacks at offset [c] of the section, if there are any. *)
Inductive edit : Type :=
| Exports (info : export_info) (l : list exported) (i : nat) (off : Z) (strip : bool)
| Relocations (tables : list reloc_table) (i : nat) (off : Z) (strip : bool)
| Resources (t : rnode) (i : nat) (off : Z) (strip : bool)
| Imports (libs : list library) (i : nat) (o : import_settings)
| NewSection (s : section) (autoupdate : bool)
| Tls (t : tls) (i : nat) (off d c : Z) (strip : bool).
(** The call of the library that makes the edit. *)
Definition apply_edit (p : pe) (e : edit) : res pe :=
  match e with
  | Exports info l i off strip => r <- rebuild_exports p info l i off true strip ;; Ok (fst r)
  | Relocations tables i off strip => r <- rebuild_relocations p tables i off true strip ;; Ok (fst r)
  | Resources t i off strip => r <- rebuild_resources p t i off true strip ;; Ok (fst (fst r))
  | Imports libs i o => r <- rebuild_imports p libs i o ;; Ok (fst r)
  | NewSection s autoupdate => add_section p s autoupdate
  | Tls t i off _ _ strip => r <- rebuild_tls p t i off true true ExpandRaw true strip ;; Ok (fst r)
  end.
(** One edit after the other. *)
Fixpoint apply_edits (p : pe) (es : list edit) : res pe :=
  match es with
  | [] => Ok p
  | e :: t => q <- apply_edit p e ;; apply_edits q t
  end.

(** ** What an edit needs: the hypotheses of C80; for a new section, there is a number and addresses for it, and unless the size of the last section in the file is
    brought up to date it is that of its data *)
Definition admissible (p : pe) (e : edit) : Prop :=
  match e with
  | Exports info l i off _ =>
      0 <= off /\ l <> [] /\ Forall valid_export l /\ valid_info info /\ distinct_exports l /\
      (exists start, room p start i (ceil_mult off 4 + export_size (xi_name info) l)) /\ dir_export < nrva p <= 16 /\
      (exists s, nth_error (p_sections p) i = Some s /\ Forall (plain_export (s_va s + ceil_mult off 4) (export_size (xi_name info) l)) l) /\ ~ In 0 (xi_name info) /\
      (export_names l <> [] \/ ~ (salign p | ceil_mult off 4 + export_size (xi_name info) l))
  | Relocations tables i off _ =>
      0 <= off /\ tables <> [] /\ Forall valid_table tables /\ (exists start, room p start i (2 * ceil_mult off 4 - off + blocks_size tables)) /\ dir_basereloc < nrva p <= 16
  | Resources t i off _ =>
      0 <= off /\ valid_tree t /\ storable_tree t /\ full_root t /\ (ordered_tree t \/ even_tree t) /\ (exists start, room p start i (resource_end off t)) /\ dir_resource < nrva p <= 16
  | Imports libs i o =>
      0 <= o_offset o /\ Forall (fun l => stays o l = false) libs /\ Forall valid_library libs /\ (exists start, room p start i (o_offset o + import_size p libs o)) /\
      dir_import < nrva p <= 16 /\ (o_zero_iat o = true -> dir_iat < nrva p) /\ o_headers o = true /\
      (exists s, nth_error (p_sections p) i = Some s /\ s_va s + (o_offset o + total library_text_size libs) < 2^31) /\ Forall (recoverable p i o) libs
  | NewSection s autoupdate =>
      wf_section s /\ zlen (raw_view s) <= 2^31 /\ s_vsize s <= 2^31 /\ (raw_view s <> [] \/ s_vsize s <> 0) /\ zlen (p_sections p) < 0x60 /\
      (autoupdate = false -> forall t, nth_error (p_sections p) (length (p_sections p) - 1) = Some t -> zlen (raw_view t) <= s_rawsize t) /\
      exists start, image_ok p start /\ chain_end (salign p) start (p_sections p) + ceil_mult (Z.max (zlen (raw_view s)) (s_vsize s)) (salign p) < 2^32
  | Tls t i off d c _ =>
      0 <= off /\ (8 | off) /\ valid_tls p t /\ (t_start t = 0 -> t_zero t = 0) /\ (exists start, room p start i (off + tls_bytes p)) /\ off + tls_bytes p < 2^31 /\
      dir_tls < nrva p <= 16 /\ base_ok p /\ S i = length (p_sections p) /\ imagebase p + t_callbacks t + zlen (callback_table p t) <= base_mod p /\
      exists s, nth_error (p_sections p) i = Some s /\ zlen (raw_view s) < 2^31 /\ tls_grows p t s off /\
        (t_start t <> 0 -> t_start t = s_va s + d /\ t_data t <> []) /\ (t_callbacks t <> 0 -> t_callbacks t = s_va s + c)
  end.

(** ** Where an edit writes *)
Definition section_of (e : edit) : nat :=
  match e with Exports _ _ i _ _ => i | Relocations _ i _ _ => i | Resources _ i _ _ => i | Imports _ i _ => i | NewSection _ _ => 0%nat | Tls _ i _ _ _ _ => i end.
(** The table is in the bytes of the section from [first_byte] to [table_stop]; for TLS, so are its data and its callbacks. *)
Definition first_byte (e : edit) : Z :=
  match e with
  | Exports _ _ _ off _ | Relocations _ _ off _ | Resources _ _ off _ => ceil_mult off 4
  | Imports _ _ o => o_offset o
  | NewSection _ _ => 0
  | Tls t _ off d c _ => Z.min off (Z.min (if t_start t =? 0 then off else d) (if t_callbacks t =? 0 then off else c))
  end.
Definition table_stop (p : pe) (e : edit) : Z :=
  match e with
  | Exports info l _ off _ => ceil_mult off 4 + export_size (xi_name info) l
  | Relocations tables _ off _ => ceil_mult off 4 + blocks_size tables
  | Resources t _ off _ => resource_end off t
  | Imports libs _ o => o_offset o + import_size p libs o
  | NewSection _ _ => 0
  | Tls t _ off d c _ =>
      Z.max (off + tls_bytes p) (Z.max (if t_start t =? 0 then off else d + zlen (t_data t)) (if t_callbacks t =? 0 then off else c + Z.of_nat (word_size p) * (zlen (t_list t) + 1)))
  end.
(** The import rebuilder cuts the section behind its table; the others leave what is behind theirs. *)
Definition overwrites (p : pe) (e : edit) (k : Z) : Prop :=
  match e with
  | Imports _ _ _ => first_byte e <= k
  | _ => first_byte e <= k < table_stop p e
  end.
(** The directory entries it changes. *)
Definition entries (e : edit) : list Z :=
  match e with
  | Exports _ _ _ _ _ => [dir_export]
  | Relocations _ _ _ _ => [dir_basereloc]
  | Resources _ _ _ _ => [dir_resource]
  | Imports _ _ o => dir_import :: if o_zero_iat o then [dir_iat] else []
  | NewSection _ _ => []
  | Tls _ _ _ _ _ _ => [dir_tls]
  end.
(** Edit [f] overwrites neither the table of [e] nor its directory entry. *)
Definition spares (p : pe) (e f : edit) : Prop :=
  (forall id, In id (entries e) -> ~ In id (entries f)) /\
  (section_of f <> section_of e \/ forall k, first_byte e <= k < table_stop p e -> ~ overwrites p f k).
(** Each edit has what it needs when its turn comes, and the later ones spare it. *)
Fixpoint allowed (p : pe) (es : list edit) : Prop :=
  match es with
  | [] => True
  | e :: t => admissible p e /\ Forall (spares p e) t /\ forall q, apply_edit p e = Ok q -> allowed q t
  end.

(** ** What readers of [r] find, when the edit was made in an image like [p]: the conclusions of C80 *)
Definition reads_back (p r : pe) (e : edit) : Prop :=
  match e with
  | Exports info l _ _ _ => exists x l' m, get_exports r true = Ok (Some x, l') /\ get_exports r false = Ok (None, l') /\ same_info l info x /\
      Permutation l m /\ StronglySorted by_ordinal m /\ Forall2 (same_export (lowest l)) m l'
  | Relocations tables _ _ _ => get_relocations r true = Ok (map with_padding tables) /\ get_relocations r false = Ok (map without_absolute tables)
  | Resources t _ _ _ => exists t', get_resources r = Ok t' /\ canonical t t'
  | Imports libs _ o => exists ms, get_imports r = Ok ms /\ Forall2 (same_library p o) libs ms
  | NewSection _ _ => True
  | Tls t _ _ _ _ _ => get_tls r = Ok t
  end.
