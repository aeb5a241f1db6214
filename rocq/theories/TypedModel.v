(** Model of the readers and writers of typed resources that go through a tree: resource_bitmap_reader.cpp, resource_bitmap_writer.cpp,
    resource_string_table_reader.cpp and resource_message_list_reader.cpp. The overloads with a name or a number, and with a language or an index, are one function. *)
From Verif Require Export IconModel ResDataModel VerModel.

(** pe_resource_viewer.h:18-30. *)
Definition bitmap_type : rname := Ided 2.
(** pe_resource_viewer.h:18-30. *)
Definition string_type : rname := Ided 6.
(** pe_resource_viewer.h:18-30. *)
Definition message_type : rname := Ided 11.
(** resource_bitmap_writer.cpp:15-41 add_bitmap. *)
Definition add_bitmap (t : rnode) (file : list Z) (name : rname) (language codepage timestamp : Z) : res rnode :=
  d <- bitmap_data file ;; add_resource t d bitmap_type name language codepage timestamp.
(** resource_bitmap_writer.cpp:43-53 remove_bitmap. *)
Definition remove_bitmap (t : rnode) (name : rname) (language : Z) : res (rnode * bool) := remove_language t bitmap_type name language.
(** resource_bitmap_reader.cpp:14-36 get_bitmap_by_name, get_bitmap_by_id and get_bitmap_by_id_lang. *)
Definition get_bitmap (t : rnode) (w : choice) (name : rname) : res (list Z) := d <- data_by t w bitmap_type name ;; create_bitmap d.
(** resource_string_table_reader.cpp:10-20 get_string_table_by_id and get_string_table_by_id_lang. *)
Definition get_string_table (t : rnode) (w : choice) (id : Z) : res (list (Z * list Z)) := d <- data_by t w string_type (Ided id) ;; parse_string_list id d.
(** resource_string_table_reader.cpp:64-87 get_string_by_id and get_string_by_id_lang; [id] is a 16-bit number. *)
Definition get_string_by (t : rnode) (w : choice) (id : Z) : res (list Z) := m <- get_string_table t w (Z.shiftr id 4 + 1) ;; get_string id m.
(** resource_message_list_reader.cpp:98-108 get_message_table_by_id and get_message_table_by_id_lang. *)
Definition get_messages (t : rnode) (w : choice) (id : Z) : res (list (Z * message)) := d <- data_by t w message_type (Ided id) ;; parse_message_list d.
