(** Theorems about icons and cursors (C57-C59, C66, C67). *)
From Verif Require Import IconSamples ManagerFacts.

(** C57. With numbers left, the numbers for new images are as many as asked for, different, from 1 to 65535, and none is in use. *)
Theorem C57_fresh : forall t k at_end count, 0 < count -> room t k at_end count ->
  exists l, free_ids t k at_end count = Ok l /\ fresh_numbers (in_use t k) count l.
Proof. exact room_fresh. Qed.
Print Assumptions C57_fresh.
Example C57_case : room icon_tree Icon true 2 /\ room icon_tree Icon false 2 /\ free_ids icon_tree Icon true 2 = Ok [5; 6] /\ free_ids icon_tree Icon false 2 = Ok [1; 3].
Proof. split; [apply icon_tree_room|]. split; [apply icon_tree_room|]. split; vm_compute; reflexivity. Qed.
(** C57. Placed at the end, they follow the largest one in use. *)
Theorem C57_at_end : forall t k ids top count, list_ids t (image_type k) = Ok ids -> largest ids top -> Forall (fun x => 0 <= x) ids -> 0 <= count -> top + count <= 65535 ->
  free_ids t k true count = Ok (map (Z.add (top + 1)) (zrange count)).
Proof. intros t k ids top count. exact (ids_at_end _ t k ids top count). Qed.
Print Assumptions C57_at_end.
(** C57. Placed in the gaps, they are the smallest ones that are free. *)
Theorem C57_smallest : forall t k ids count, list_ids t (image_type k) = Ok ids -> Forall is_u16 ids -> 0 < count -> count <= zlen (free_numbers ids) ->
  free_ids t k false count = Ok (ztake count (free_numbers ids)).
Proof. intros t k ids count. apply ids_in_gaps. lia. Qed.
Print Assumptions C57_smallest.
(** C57. Without images they start at 1. *)
Theorem C57_first : forall t k at_end count e, list_ids t (image_type k) = Throw e -> 0 <= count <= 65534 -> free_ids t k at_end count = Ok (map (Z.add 1) (zrange count)).
Proof. intros t k at_end count e. apply ids_first. lia. Qed.
Print Assumptions C57_first.
(** C57. Groups of icons are resources of type 14 and their images of type 3; groups of cursors of type 12 and their images of type 1. *)
Theorem C57_types : forall t k name language codepage reserved type items, holds_group t k name language codepage reserved type items ->
  (exists d, content t (Ided (match k with Icon => 14 | Cursor => 12 end)) name language = Some (d, codepage)) /\
  Forall (fun p => exists d c, content t (Ided (match k with Icon => 3 | Cursor => 1 end)) (Ided (snd p)) language = Some (d, c)) items.
Proof.
  intros t k name language codepage reserved type items (_ & _ & _ & (rest & G) & F). split.
  - eexists. destruct k; exact G.
  - eapply Forall_impl; [|exact F]. intros p (_ & _ & _ & c & C). do 2 eexists. destruct k; exact C.
Qed.
Print Assumptions C57_types.
(** C57. So adding a file to a new group or to one that is there keeps every image of the tree. Partial: only with numbers left (see below). *)
Theorem C57_images_kept_partial : forall t k f name language codepage timestamp at_end r ty es, three_levels t -> image_file f r ty es -> Forall (kept k) es -> room t k at_end (zlen es) ->
  content t (group_type k) name language = None \/ (exists cp r0 ty0 items, holds_group t k name language cp r0 ty0 items /\ zlen items + zlen es < 2^16) ->
  exists t', add_file t k f name language at_end codepage timestamp = Ok t' /\
    forall x l v, content t (image_type k) (Ided x) l = Some v -> content t' (image_type k) (Ided x) l = Some v.
Proof. exact images_kept. Qed.
Print Assumptions C57_images_kept_partial.
(** C57 fails when an image with the largest number is there: numbers placed behind it start again at 0, and an icon that is there is replaced. *)
Theorem C57_replaced_refuted : exists t f es name language, three_levels t /\ image_file f 0 1 es /\ content t (group_type Icon) name language = None /\ Forall is_u16 (in_use t Icon) /\
  exists t' x, add_file t Icon f name language true 0 0 = Ok t' /\ content t (image_type Icon) (Ided x) language = Some ([9], 0) /\ content t' (image_type Icon) (Ided x) language = Some ([4; 5], 0).
Proof. exact replaced. Qed.
Print Assumptions C57_replaced_refuted.
(** C57 fails for a file of 65535 pictures and a tree without icons: no number of steps is enough. *)
Theorem C57_endless_refuted : exists f es, image_file f 0 1 es /\ zlen es = 65535 /\ forall n at_end, add_file_from n empty_tree Icon f (Ided 1) 1033 at_end 0 0 = Fuel.
Proof. exact endless_file. Qed.
Print Assumptions C57_endless_refuted.

(** C58. An icon file added as a new group is got back as a file with the same pictures in the same order, without gaps. *)
Theorem C58_round_trip : forall t f name language codepage timestamp at_end r ty es, three_levels t -> image_file f r ty es -> room t Icon at_end (zlen es) ->
  content t (group_type Icon) name language = None -> zlen (packed_file r ty es) < 2^32 ->
  exists t', add_file t Icon f name language at_end codepage timestamp = Ok t' /\ get_file t' Icon (ByLanguage language) name = Ok (packed_file r ty es) /\
    image_file (packed_file r ty es) r ty es.
Proof. intros t f name language codepage timestamp at_end r ty es T H. apply round_trip; [exact T|exact H|]. apply Forall_forall. intros; exact I. Qed.
Print Assumptions C58_round_trip.
Example C58_case : three_levels icon_tree /\ image_file sample_file 0 1 [small_icon; large_icon] /\ room icon_tree Icon true 2 /\ content icon_tree (group_type Icon) (Ided 1) 1033 = None /\
  sample_file <> packed_file 0 1 [small_icon; large_icon] /\
  (t' <- add_file icon_tree Icon sample_file (Ided 1) 1033 true 0 0 ;; get_file t' Icon (ByLanguage 1033) (Ided 1)) = Ok (packed_file 0 1 [small_icon; large_icon]).
Proof. split; [exact icon_tree_ok|]. split; [exact sample_file_ok|]. split; [apply icon_tree_room|]. split; [reflexivity|]. split; [vm_compute; congruence|vm_compute; reflexivity]. Qed.
(** C58. Every file whose gaps are closed is still a file with these pictures. *)
Theorem C58_packed : forall f r ty es, image_file f r ty es -> zlen (packed_file r ty es) < 2^32 -> image_file (packed_file r ty es) r ty es.
Proof. exact packed_is_file. Qed.
Print Assumptions C58_packed.
(** C58. Adding creates the group with free numbers and changes nothing else in the tree. *)
Theorem C58_new_group : forall t k f name language codepage timestamp r ty at_end es, three_levels t -> image_file f r ty es -> Forall (kept k) es -> room t k at_end (zlen es) ->
  content t (group_type k) name language = None ->
  exists t' ids, add_file t k f name language at_end codepage timestamp = Ok t' /\ three_levels t' /\ fresh_numbers (in_use t k) (zlen es) ids /\
    holds_group t' k name language codepage r ty (combine es ids) /\ only_group t t' k name language ids.
Proof. exact add_new. Qed.
Print Assumptions C58_new_group.
(** C58. Added to a group that is there, the pictures come behind those of the group. *)
Theorem C58_append : forall t k f name language codepage timestamp r ty at_end es, three_levels t -> image_file f r ty es -> Forall (kept k) es -> room t k at_end (zlen es) ->
  forall cp r0 ty0 items, holds_group t k name language cp r0 ty0 items -> zlen items + zlen es < 2^16 ->
  exists t' ids, add_file t k f name language at_end codepage timestamp = Ok t' /\ three_levels t' /\ fresh_numbers (in_use t k) (zlen es) ids /\
    holds_group t' k name language cp r0 ty0 (items ++ combine es ids) /\ only_group t t' k name language ids.
Proof. exact add_more. Qed.
Print Assumptions C58_append.
(** C58. Any group is got as the file of its pictures. *)
Theorem C58_get : forall t k name language cp r ty items, holds_group t k name language cp r ty items -> zlen (packed_file r ty (map fst items)) < 2^32 ->
  get_file t k (ByLanguage language) name = Ok (packed_file r ty (map fst items)).
Proof. exact get_file_ok'. Qed.
Print Assumptions C58_get.
(** C58. Removing a group removes it with its images, in that language only, and nothing else. *)
Theorem C58_remove : forall t k name language codepage r ty items, three_levels t -> holds_group t k name language codepage r ty items ->
  exists t', remove_group t k name language = Ok (t', true) /\ three_levels t' /\ content t' (group_type k) name language = None /\
    (forall x, In x (map snd items) -> content t' (image_type k) (Ided x) language = None) /\ only_group t t' k name language (map snd items).
Proof. exact remove_group_ok. Qed.
Print Assumptions C58_remove.
(** C58. A group that was added and removed again leaves what was there before. *)
Theorem C58_add_remove : forall t k f name language codepage timestamp at_end r ty es, three_levels t -> image_file f r ty es -> Forall (kept k) es -> room t k at_end (zlen es) ->
  content t (group_type k) name language = None ->
  exists t1 t2, add_file t k f name language at_end codepage timestamp = Ok t1 /\ remove_group t1 k name language = Ok (t2, true) /\ forall r n l, content t2 r n l = content t r n l.
Proof. exact add_remove. Qed.
Print Assumptions C58_add_remove.
(** C58. A single image is got as the file of one picture, with the attributes a group that lists its number has for it. *)
Theorem C58_single : forall t k name language cp0 r0 ty0 items0 e0 id, three_levels t ->
  (forall name v, content t (group_type k) name language = Some v -> exists cp r ty items, holds_group t k name language cp r ty items /\ items <> []) ->
  holds_group t k name language cp0 r0 ty0 items0 -> In (e0, id) items0 ->
  exists n cp r ty items e, holds_group t k n language cp r ty items /\ In (e, id) items /\ get_single t k (ByLanguage language) id = Ok (packed_file r ty [e]).
Proof. exact single_ok. Qed.
Print Assumptions C58_single.
Example C58_single_case :
  (t' <- add_file icon_tree Icon sample_file (Ided 1) 1033 true 0 0 ;; get_single t' Icon (ByLanguage 1033) 6) = Ok (packed_file 0 1 [large_icon]) /\
  (t' <- add_file icon_tree Icon sample_file (Ided 1) 1033 true 0 0 ;; t2 <- add_file t' Icon sample_file (Ided 1) 1033 false 0 0 ;; get_file t2 Icon (ByLanguage 1033) (Ided 1)) = Ok (packed_file 0 1 [small_icon; large_icon; small_icon; large_icon]).
Proof. split; vm_compute; reflexivity. Qed.

(** C66. A cursor file added as a new group is got back with the same pictures, hotspots and images. Partial: for heights below 128 and no
    count of colours or reserved byte. *)
Theorem C66_round_trip_partial : forall t f name language codepage timestamp at_end r ty es, three_levels t -> image_file f r ty es -> Forall (kept Cursor) es -> room t Cursor at_end (zlen es) ->
  content t (group_type Cursor) name language = None -> zlen (packed_file r ty es) < 2^32 ->
  exists t', add_file t Cursor f name language at_end codepage timestamp = Ok t' /\ get_file t' Cursor (ByLanguage language) name = Ok (packed_file r ty es) /\
    image_file (packed_file r ty es) r ty es.
Proof. intros t. exact (round_trip t Cursor). Qed.
Print Assumptions C66_round_trip_partial.
Example C66_case : image_file (cursor_file arrow) 0 2 [arrow] /\ kept Cursor arrow /\ room empty_tree Cursor true 1 /\
  (t' <- add_file empty_tree Cursor (cursor_file arrow) (Ided 1) 1033 true 0 0 ;; get_file t' Cursor (ByLanguage 1033) (Ided 1)) = Ok (cursor_file arrow).
Proof.
  split; [apply cursor_file_ok; [split; [vm_compute; repeat split; congruence|vm_compute; split; congruence]|vm_compute; reflexivity]|]. split; [vm_compute; repeat split; congruence|]. split; [apply empty_room; lia|vm_compute; reflexivity].
Qed.
(** C66 fails for a cursor of height 128, one with a count of colours, and one with the reserved byte set. *)
Theorem C66_tall_refuted : exists e f t' f', nth 1 (attrs e) 0 = 128 /\ image_file f 0 2 [e] /\ add_file empty_tree Cursor f (Ided 1) 1033 true 0 0 = Ok t' /\
  get_file t' Cursor (ByLanguage 1033) (Ided 1) = Ok f' /\ forall r ty, ~ image_file f' r ty [e].
Proof. destruct tall_lost as (f & t' & f' & H). exists tall, f, t', f'. split; [reflexivity|exact H]. Qed.
Print Assumptions C66_tall_refuted.
Theorem C66_colours_refuted : exists e f t' f', nth 1 (attrs e) 0 = 32 /\ image_file f 0 2 [e] /\ add_file empty_tree Cursor f (Ided 1) 1033 true 0 0 = Ok t' /\
  get_file t' Cursor (ByLanguage 1033) (Ided 1) = Ok f' /\ forall r ty, ~ image_file f' r ty [e].
Proof. destruct coloured_lost as (f & t' & f' & H). exists coloured, f, t', f'. split; [reflexivity|exact H]. Qed.
Print Assumptions C66_colours_refuted.

(** C59. Looking up one icon is safe for every content of the tree; looking up a cursor is when every group has room for the entries it
    announces. *)
Theorem C59_lookup_partial : forall t k w id, (forall language name d c, resource_data t language (group_type k) name = Ok (d, c) -> k = Icon \/ 6 + announced d * 14 <= zlen d) ->
  safe (get_single t k w id).
Proof. exact safe_single. Qed.
Print Assumptions C59_lookup_partial.
Example C59_case : forall w id, safe (get_single short_tree Icon w id).
Proof. intros w id. apply C59_lookup_partial. intros. left. reflexivity. Qed.
(** C59 fails for a cursor group that announces more entries than it has. *)
Theorem C59_overread_refuted : exists t id language, three_levels t /\ tree_bytes t /\ get_single t Cursor (ByLanguage language) id = Ub OobRead.
Proof. exact overread. Qed.
Print Assumptions C59_overread_refuted.

(** C67. Getting a group as a file and removing a group are safe for every tree, whatever its groups announce. *)
Theorem C67_get : forall t k w name, safe (get_file t k w name).
Proof. exact safe_get_file. Qed.
Print Assumptions C67_get.
Theorem C67_remove : forall t k name language, safe (remove_group t k name language).
Proof. exact safe_remove_group. Qed.
Print Assumptions C67_remove.
(** C67. Adding any bytes as a file is safe. Partial: it does not end for 65535 pictures and no image of that kind (C57_endless_refuted). *)
Theorem C67_add_partial : forall t k f name language at_end codepage timestamp, bytes f -> tree_bytes t -> announced f < 65535 \/ (exists ids, list_ids t (image_type k) = Ok ids) ->
  safe (add_file t k f name language at_end codepage timestamp).
Proof. exact safe_add_file. Qed.
Print Assumptions C67_add_partial.
Example C67_case : announced sample_file = 2 /\ announced (ztake 30 sample_file) = 2 /\ add_file icon_tree Icon (ztake 44 sample_file) (Ided 1) 1033 true 0 0 = Throw resource_incorrect_icon.
Proof. split; [vm_compute; reflexivity|]. split; vm_compute; reflexivity. Qed.
