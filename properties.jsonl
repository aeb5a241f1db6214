{"id": "C01", "title": "Alignment helpers round to the nearest multiple", "statement": "align_up(x,a) is the least multiple of a that is >= x and align_down(x,a) the greatest multiple that is <= x, for every power-of-two a, provided the rounded-up value fits 32 bits; is_power_of_2 accepts exactly the powers of two among non-zero values; when the rounded-up value does not fit, align_up wraps to 0.", "quantifier": "every 32-bit x and every 32-bit alignment a", "why_tests_cant": "2^64 argument pairs; the interesting ones are at the 2^32 boundary", "anchors": ["src/pe_lib/utils.h: align_up, align_down, is_power_of_2"]}
{"id": "C02", "title": "is_sum_safe is exact", "statement": "is_sum_safe(a,b) returns true exactly when a+b is representable in 32 bits, so a caller guarded by it never sees a wrapped sum.", "quantifier": "every pair of 32-bit values", "why_tests_cant": "2^64 pairs", "anchors": ["src/pe_lib/utils.h: is_sum_safe"]}
{"id": "C03", "title": "Section name round trip", "statement": "After set_name(n), get_name() returns the first 8 bytes of n cut at the first NUL, whatever name was stored before; no other header field changes.", "quantifier": "every string n and every prior section header", "why_tests_cant": "unbounded strings and all prior header states", "anchors": ["src/pe_lib/pe_section.cpp: section::set_name, section::get_name"]}
{"id": "C04", "title": "Section attribute flags are independent", "statement": "Each attribute setter makes the matching getter return the value set, leaves every other attribute getter and every other Characteristics bit unchanged. The bits are those of the PE format: 30 readable, 31 writeable, 29 executable, 28 shared, 25 discardable.", "quantifier": "every 32-bit Characteristics value, every attribute and both values", "why_tests_cant": "all 2^32 prior characteristics", "anchors": ["src/pe_lib/pe_section.cpp: set_flag, readable, writeable, executable, shared, discardable"]}
{"id": "C05", "title": "Mapping a section to its virtual view and back loses nothing", "statement": "get_virtual_data(a) shows the raw bytes followed by zeros up to the aligned virtual size; a following get_raw_data() returns the original bytes; editing bytes inside the raw range through the virtual view is visible in the raw view, and bytes written beyond the raw range are discarded by get_raw_data().", "quantifier": "every section, every alignment, every interleaving of raw/virtual reads and byte edits", "why_tests_cant": "an unbounded history of mode switches", "anchors": ["src/pe_lib/pe_section.cpp: get_raw_data, get_virtual_data, map_virtual, unmap_virtual, set_raw_data, empty"]}
{"id": "C06", "title": "Data directory accessors behave as a bounded array", "statement": "get_directory_rva/size throw directory_does_not_exist exactly when the index is not below NumberOfRvaAndSizes; otherwise set followed by get returns the value set and every other directory is unchanged; remove_directory zeroes the entry and changes only the documented characteristic bits.", "quantifier": "every header state with a directory count of at most 16, every index, every value", "why_tests_cant": "all header states and indices", "anchors": ["src/pe_lib/pe_properties_generic.cpp: get_directory_rva, set_directory_rva, directory_exists, remove_directory, has_directory"]}
{"id": "C07", "title": "directory_exists agrees with the directory count", "statement": "directory_exists(i) holds exactly when i is below NumberOfRvaAndSizes and the directory RVA is non-zero, and never reads outside the 16-entry directory array.", "quantifier": "every NumberOfRvaAndSizes (0 included) and every index", "why_tests_cant": "the failing count is 0, which no ordinary executable has", "anchors": ["src/pe_lib/pe_properties_generic.cpp: directory_exists"]}
{"id": "C08", "title": "strip_data_directories keeps every used directory", "statement": "After strip_data_directories(min_count) the reported count covers every directory whose RVA was non-zero (the IAT directory excepted on request), the count never grows, and the count is never below min_count.", "quantifier": "every directory array and every min_count", "why_tests_cant": "all subsets of used directories", "anchors": ["src/pe_lib/pe_properties_generic.cpp: strip_data_directories"]}
{"id": "C09", "title": "VA/RVA conversions are inverse", "statement": "va_to_rva(rva_to_va(r)) = r for every RVA for which rva_to_va does not throw; with bound checking, va_to_rva accepts exactly the addresses in [ImageBase, ImageBase+2^32) and rva_to_va(va_to_rva(v)) = v for them; 32-bit conversions throw instead of overflowing.", "quantifier": "every image base, RVA and VA, both PE32 and PE32+", "why_tests_cant": "2^64-2^96 combinations with failures at the wrap boundary", "anchors": ["src/pe_lib/pe_properties_generic.cpp: va_to_rva, rva_to_va_32, rva_to_va_64"]}
{"id": "C10", "title": "Section lookup returns the section that contains the address", "statement": "section_from_rva(r) returns the unique attached section whose virtual range contains r and throws when none does; for every image whose sections do not wrap and do not overlap.", "quantifier": "every section table meeting the loader's layout and every RVA", "why_tests_cant": "all section tables and addresses", "anchors": ["src/pe_lib/pe_base.cpp: section_from_rva"]}
{"id": "C11", "title": "File offset and RVA conversions are inverse", "statement": "For an RVA backed by section raw data or by headers, file_offset_to_rva(rva_to_file_offset(r)) = r; both throw when there is no such mapping.", "quantifier": "every loader-conformant section table and every RVA", "why_tests_cant": "all section tables and addresses", "anchors": ["src/pe_lib/pe_base.cpp: rva_to_file_offset, file_offset_to_rva"]}
{"id": "C12", "title": "Typed reads through an RVA are memory safe and exact", "statement": "section_data_from_rva<T>(rva) either throws or returns exactly the sizeof(T) bytes that the image maps at that rva (headers, raw bytes or zero fill); it never reads outside the section buffer.", "quantifier": "every image, RVA, structure size and both raw/virtual modes", "why_tests_cant": "every malformed RVA; the hazards are 32-bit wraps and short raw data", "anchors": ["src/pe_lib/pe_base.h: section_data_from_rva<T>, section_data_from_va<T>", "src/pe_lib/pe_base.cpp: section_data_from_rva, section_data_length_from_rva"]}
{"id": "C13", "title": "Untyped section pointers stay inside the buffer", "statement": "section_data_from_rva(rva) returning a raw pointer returns one inside the data of the section for every rva it accepts.", "quantifier": "every image and RVA", "why_tests_cant": "the failing RVAs lie between the raw size and the virtual size", "anchors": ["src/pe_lib/pe_base.cpp: section_data_from_rva"]}
{"id": "C14", "title": "Loading arbitrary bytes never corrupts memory", "statement": "Constructing an image from any byte sequence finishes with either an image or a pe_exception, and no step reads or writes outside its buffers.", "quantifier": "every byte sequence (truncated, hostile, random)", "why_tests_cant": "the input space is all byte strings", "anchors": ["src/pe_lib/pe_base.cpp: read_dos_header, read_pe", "src/pe_lib/pe_factory.cpp: create_pe"]}
{"id": "C15", "title": "A loaded image satisfies the layout invariants", "statement": "If loading succeeds: at most 0x60 sections and 16 directories; both alignments are powers of two with 512 <= FileAlignment <= SectionAlignment unless equal; SizeOfHeaders does not exceed the first section address; each section starts where the previous one ends; every section ends inside the aligned SizeOfImage.", "quantifier": "every byte sequence that loads", "why_tests_cant": "universally quantified over inputs; 32-bit wraps hide violations", "anchors": ["src/pe_lib/pe_base.cpp: read_pe"]}
{"id": "C16", "title": "Loaded section data are the file's bytes", "statement": "If loading succeeds, the raw data of each non-empty section equal the file bytes at its PointerToRawData rounded down to FileAlignment, for the (possibly repaired) raw size; and header fields equal the little-endian fields of the file.", "quantifier": "every byte sequence that loads", "why_tests_cant": "all file contents and section placements", "anchors": ["src/pe_lib/pe_base.cpp: read_pe"]}
{"id": "C17", "title": "The caller's stream position is restored", "statement": "Loading, type detection and checksum calculation leave the stream position as they found it, whether they succeed or throw.", "quantifier": "every stream content, initial position and failure point", "why_tests_cant": "failure points depend on where the stream ends", "anchors": ["src/pe_lib/pe_base.cpp: pe_base(std::istream&), get_pe_type", "src/pe_lib/pe_checksum.cpp: calculate_checksum"]}
{"id": "C18", "title": "add_section keeps the section table well formed", "statement": "A successful add_section appends exactly one section right after the current last one (aligned, non-overlapping, contiguous), increments the section count, grows SizeOfImage by the aligned size of the new section and leaves all earlier sections' addresses and data unchanged; it refuses empty sections and a full table.", "quantifier": "every image reachable by loading/creating and adding sections, every new section", "why_tests_cant": "unbounded histories of additions", "anchors": ["src/pe_lib/pe_base.cpp: add_section, prepare_section, check_for_section_max"]}
{"id": "C19", "title": "SizeOfImage covers the sections", "statement": "After update_image_size, and after any sequence of add_section/set_section_virtual_size/expand_section starting from an image whose SizeOfImage ended at its last section, SizeOfImage equals the end of the last section.", "quantifier": "every history of section edits", "why_tests_cant": "unbounded histories", "anchors": ["src/pe_lib/pe_base.cpp: add_section, set_section_virtual_size, update_image_size", "src/pe_lib/pe_properties_generic.cpp: create_pe"]}
{"id": "C20", "title": "Resizing the last section", "statement": "set_section_virtual_size succeeds exactly for the last attached section, sets its virtual size (or raw size when zero) and updates SizeOfImage accordingly; no section address changes and it never shrinks the mapped raw data.", "quantifier": "every image, section reference and size", "why_tests_cant": "all images and sizes", "anchors": ["src/pe_lib/pe_base.cpp: set_section_virtual_size"]}
{"id": "C21", "title": "expand_section makes the requested range available", "statement": "When expand_section(s, rva, n, mode) succeeds for the last section, the range [rva, rva+n) is inside the section's raw (raw mode) or virtual (virtual mode) data afterwards, existing bytes are kept, and it is a no-op when the range already fits.", "quantifier": "every image, rva, size and mode", "why_tests_cant": "all images and ranges; wraps", "anchors": ["src/pe_lib/pe_base.cpp: expand_section"]}
{"id": "C22", "title": "Realigning sections only pads or trims", "statement": "realign_section, realign_all_sections and realign_file keep the content of each section: for an image whose sections do not hold more data than their rounded SizeOfRawData, the data afterwards equal the data before padded with zeros (or, for the last section, with exactly the trailing zeros trimmed); SizeOfRawData equals the stored data length; names, addresses, virtual sizes and characteristics are unchanged.", "quantifier": "every image and every legal file alignment", "why_tests_cant": "all images and alignments", "anchors": ["src/pe_lib/pe_base.cpp: realign_section, realign_all_sections, realign_file, set_file_alignment"]}
{"id": "C23", "title": "set_file_alignment rejects illegal values", "statement": "set_file_alignment succeeds exactly for powers of two that are at least 512 and at most SectionAlignment; a rejected call changes nothing.", "quantifier": "every image and every 32-bit value", "why_tests_cant": "2^32 values times all images", "anchors": ["src/pe_lib/pe_base.cpp: set_file_alignment, realign_file"]}
{"id": "C24", "title": "rebuild_pe never reads outside section buffers", "statement": "Writing an image that was built through the public API (load, add_section, edit, realign) never reads beyond the data of any section.", "quantifier": "every reachable image", "why_tests_cant": "needs the history add_section-without-realign with a raw size that is not a multiple of the alignment", "anchors": ["src/pe_lib/pe_rebuilder.cpp: rebuild_pe", "src/pe_lib/pe_base.cpp: prepare_section"]}
{"id": "C25", "title": "rebuild then load returns the same image", "statement": "For every image with consistent layout, loading the bytes written by rebuild_pe succeeds and gives the same section names, addresses, sizes, characteristics and data, the same directories and the same DOS stub.", "quantifier": "every consistent image", "why_tests_cant": "all images, sizes and contents", "anchors": ["src/pe_lib/pe_rebuilder.cpp: rebuild_pe", "src/pe_lib/pe_base.cpp: read_pe"]}
{"id": "C26", "title": "rebuild_pe puts each section where its header says", "statement": "In the written file the bytes at PointerToRawData of every section with data are that section's raw data, and regions of different sections do not overlap.", "quantifier": "every image handed to rebuild_pe", "why_tests_cant": "includes images with a stale PointerToRawData on an empty section", "anchors": ["src/pe_lib/pe_rebuilder.cpp: rebuild_pe"]}
{"id": "C27", "title": "The checksum is the documented PE checksum", "statement": "calculate_checksum returns file length plus the end-around-carry folded sum of the file's little-endian words with the checksum field skipped; it therefore does not depend on the current value of the checksum field, so storing it and recomputing gives the same value.", "quantifier": "every file whose NT header offset is DWORD aligned and every length", "why_tests_cant": "all file contents and lengths modulo 4", "anchors": ["src/pe_lib/pe_checksum.cpp: calculate_checksum"]}
{"id": "C28", "title": "Relocation tables round trip", "statement": "get_relocations after rebuild_relocations returns the same tables in the same order with the same type/offset items (padding items excluded), for tables whose offsets fit 12 bits and types fit 4 bits.", "quantifier": "every list of relocation tables", "why_tests_cant": "unbounded lists of tables and items", "anchors": ["src/pe_lib/pe_relocations.cpp: rebuild_relocations, get_relocations, relocation_entry"]}
{"id": "C29", "title": "Relocation items pack losslessly only within 12 bits", "statement": "get_item/set_item are inverse; constructing an item from (offset, type) keeps both exactly when offset < 4096 and type < 16, and otherwise corrupts the type.", "quantifier": "every 16-bit offset and type", "why_tests_cant": "2^32 pairs", "anchors": ["src/pe_lib/pe_relocations.cpp: relocation_entry::get_item, set_item"]}
{"id": "C30", "title": "Reading relocations terminates and is memory safe", "statement": "get_relocations on any image finishes with tables or a pe_exception, without reading outside section data.", "quantifier": "every image content", "why_tests_cant": "all malformed directories", "anchors": ["src/pe_lib/pe_relocations.cpp: get_relocations"]}
{"id": "C31", "title": "Rebasing is exact and reversible", "statement": "rebase_image adds (new base - old base), modulo the word size, to exactly the words named by non-ABSOLUTE relocations, sets the image base, changes no other byte, and rebasing back restores the original bytes when relocated words do not overlap.", "quantifier": "every image, relocation list and pair of bases", "why_tests_cant": "all images, lists and bases", "anchors": ["src/pe_lib/pe_relocations.cpp: rebase_image, rebase_image_base"]}
{"id": "C32", "title": "Export tables round trip", "statement": "get_exported_functions after rebuild_exports returns the same functions (ordinal, rva, name, name ordinal, forwarder) ordered by ordinal, for lists with distinct ordinals and distinct names.", "quantifier": "every list of exported functions", "why_tests_cant": "unbounded lists, names and ordinal gaps", "anchors": ["src/pe_lib/pe_exports.cpp: rebuild_exports, get_exported_functions"]}
{"id": "C33", "title": "rebuild_exports rejects duplicates and sorts names", "statement": "rebuild_exports throws duplicate_exported_function_ordinal or duplicate_exported_function_name for a list with a repeated ordinal or name, and the name table it writes for any other list is strictly ascending (so loaders can binary search it), with the matching name ordinals.", "quantifier": "every list of exported functions", "why_tests_cant": "all lists", "anchors": ["src/pe_lib/pe_exports.cpp: rebuild_exports"]}
{"id": "C34", "title": "rebuild_exports never writes outside the section", "statement": "The directory size computed by rebuild_exports is enough for everything it writes.", "quantifier": "every list of exported functions and every export info", "why_tests_cant": "fails for an empty list with ordinal base >= 2", "anchors": ["src/pe_lib/pe_exports.cpp: rebuild_exports"]}
{"id": "C35", "title": "Reading exports is memory safe and terminates", "statement": "get_exported_functions on any image finishes with a list or a pe_exception without reading outside section data; returned ordinals are distinct and in range.", "quantifier": "every image content", "why_tests_cant": "all malformed directories", "anchors": ["src/pe_lib/pe_exports.cpp: get_exported_functions"]}
{"id": "C36", "title": "Import tables round trip", "statement": "get_imported_functions after rebuild_imports returns the same libraries and functions (name/hint or ordinal).", "quantifier": "every list of libraries and functions and every rebuilder setting", "why_tests_cant": "unbounded lists and settings", "anchors": ["src/pe_lib/pe_imports.cpp: rebuild_imports, get_imported_functions"]}
{"id": "C37", "title": "Reading imports is memory safe and terminates", "statement": "get_imported_functions on any image finishes with a list or a pe_exception without reading outside section data.", "quantifier": "every image content", "why_tests_cant": "all malformed directories", "anchors": ["src/pe_lib/pe_imports.cpp: get_imported_functions"]}
{"id": "C38", "title": "rebuild_imports leaves unrelated section bytes alone", "statement": "Bytes of the section before the chosen offset and after the written import data are unchanged.", "quantifier": "every image, offset and list", "why_tests_cant": "all layouts", "anchors": ["src/pe_lib/pe_imports.cpp: rebuild_imports"]}
{"id": "C39", "title": "Resource trees round trip", "statement": "get_resources after rebuild_resources returns the same tree (ids, names, data, code pages, directory attributes) with the entries of each directory in the canonical order (names first, each group ascending).", "quantifier": "every resource tree", "why_tests_cant": "unbounded trees", "anchors": ["src/pe_lib/pe_resources.cpp: rebuild_resources, get_resources, calculate_resource_data_space"]}
{"id": "C40", "title": "rebuild_resources never writes outside the section", "statement": "The space computed for the resource section is enough for what is written.", "quantifier": "every resource tree and insertion order", "why_tests_cant": "depends on data sizes and order", "anchors": ["src/pe_lib/pe_resources.cpp: calculate_resource_data_space, rebuild_resource_directory"]}
{"id": "C41", "title": "Reading resources terminates and is memory safe", "statement": "get_resources on any image terminates (no cyclic recursion) and never reads outside section data.", "quantifier": "every image content", "why_tests_cant": "cyclic and overlapping directories, hostile name lengths", "anchors": ["src/pe_lib/pe_resources.cpp: process_resource_directory"]}
{"id": "C42", "title": "Resource manager behaves as a map", "statement": "After add_resource(type,name/id,lang,data), reading that key returns data and codepage; every other key reads as before; adding twice replaces; remove_resource deletes that key only and reports whether it existed.", "quantifier": "every well-formed three-level tree, key and history of operations", "why_tests_cant": "unbounded histories", "anchors": ["src/pe_lib/pe_resource_manager.cpp: add_resource, remove_resource", "src/pe_lib/pe_resource_viewer.cpp: get_resource_data_by_name, get_resource_data_by_id"]}
{"id": "C43", "title": "TLS directory round trips", "statement": "get_tls_info after rebuild_tls returns the same RVAs, sizes, characteristics and callbacks (and raw data when written).", "quantifier": "every TLS description and image", "why_tests_cant": "all images and callback lists", "anchors": ["src/pe_lib/pe_tls.cpp: rebuild_tls_base, get_tls_info_base"]}
{"id": "C44", "title": "rebuild_tls never writes outside section data", "statement": "Writing TLS structure, data and callbacks stays inside the section buffers and inside the provided raw data.", "quantifier": "every TLS description and image", "why_tests_cant": "needs short raw data or a callbacks array ending at the raw end", "anchors": ["src/pe_lib/pe_tls.cpp: rebuild_tls_base"]}
{"id": "C45", "title": "Bound import directory round trips", "statement": "get_bound_import_module_list after rebuild_bound_imports returns the same modules, timestamps and forwarder references, for directories whose offsets fit 16 bits.", "quantifier": "every module list", "why_tests_cant": "unbounded lists", "anchors": ["src/pe_lib/pe_bound_import.cpp: rebuild_bound_imports, get_bound_import_module_list"]}
{"id": "C46", "title": "Reading bound imports is memory safe and terminates", "statement": "get_bound_import_module_list on any image finishes with a list or pe_exception, without out-of-bounds reads.", "quantifier": "every image content", "why_tests_cant": "all malformed directories", "anchors": ["src/pe_lib/pe_bound_import.cpp: get_bound_import_module_list"]}
{"id": "C47", "title": "Load configuration round trips", "statement": "get_image_config after rebuild_image_config returns the same fields, the SE handler list sorted ascending, and the same lock prefix list.", "quantifier": "every configuration", "why_tests_cant": "all lists and field values", "anchors": ["src/pe_lib/pe_load_config.cpp: rebuild_image_config_base, get_image_config_base"]}
{"id": "C48", "title": "Exception directory reader", "statement": "get_exception_directory_data on any image terminates, is memory safe, and returns exactly the entries up to the first zero BeginAddress with begin <= end.", "quantifier": "every image content", "why_tests_cant": "all directories", "anchors": ["src/pe_lib/pe_exception_directory.cpp: get_exception_directory_data"]}
{"id": "C49", "title": "Rich data reader", "statement": "get_rich_data never reads outside the DOS stub and returns the records between DanS and Rich, decoded with the key.", "quantifier": "every stub content", "why_tests_cant": "all stubs; hazards at the last bytes", "anchors": ["src/pe_lib/pe_rich_data.cpp: get_rich_data"]}
{"id": "C50", "title": "Entropy counts every byte once", "statement": "The byte histogram used for entropy sums to the data length, entropy is 0 exactly for data with one distinct byte value, and lies between 0 and 8; empty data are rejected.", "quantifier": "every byte string", "why_tests_cant": "all contents", "anchors": ["src/pe_lib/entropy.cpp: calculate_entropy"]}
{"id": "C51", "title": "Bitmap resources round trip", "statement": "get_bitmap after add_bitmap returns a file whose pixel data and info header equal those of the added file, with a regenerated file header; files too short are rejected.", "quantifier": "every bitmap file content", "why_tests_cant": "all contents", "anchors": ["src/pe_lib/resource_bitmap_writer.cpp: add_bitmap", "src/pe_lib/resource_bitmap_reader.cpp: create_bitmap"]}
{"id": "C52", "title": "String table reader is memory safe", "statement": "parse_string_list on any resource data either throws or returns strings taken from inside the data.", "quantifier": "every byte string and table id", "why_tests_cant": "hostile length words", "anchors": ["src/pe_lib/resource_string_table_reader.cpp: parse_string_list"]}
{"id": "C53", "title": "Message table reader is memory safe and terminates", "statement": "parse_message_list on any resource data terminates, never reads outside the data, and ids in each block are covered consecutively from LowId to HighId.", "quantifier": "every byte string", "why_tests_cant": "hostile block tables, HighId = 2^32-1", "anchors": ["src/pe_lib/resource_message_list_reader.cpp: parse_message_list"]}
{"id": "C54", "title": "Version information round trips", "statement": "get_version_info after set_version_info returns the same fixed info, string tables and translations when the block fits its 16-bit length fields; the stored bytes are those of the documented VS_VERSIONINFO format; data of that format with its blocks in any order and number, and strings in any order, are read as what they say, the first of equal keys counting.", "quantifier": "every version info", "why_tests_cant": "unbounded maps", "anchors": ["src/pe_lib/resource_version_info_writer.cpp: set_version_info", "src/pe_lib/resource_version_info_reader.cpp: get_version_info"]}
{"id": "C55", "title": "Version information reader terminates and is memory safe", "statement": "get_version_info on any resource data terminates and never reads outside the data.", "quantifier": "every byte string", "why_tests_cant": "hostile 16-bit lengths: the advance wraps to zero", "anchors": ["src/pe_lib/resource_version_info_reader.cpp: get_version_info"]}
{"id": "C56", "title": "Version info editor behaves as a map", "statement": "set_property(p,v,t) then get_property(p,t) returns v; other properties and translations are unchanged; the default-translation fallback picks the same table in viewer and editor; add_translation is idempotent; remove_translation removes table and id pair.", "quantifier": "every string/translation map and history", "why_tests_cant": "unbounded histories", "anchors": ["src/pe_lib/version_info_editor.cpp: set_property, add_translation, remove_translation", "src/pe_lib/version_info_viewer.cpp: get_property, translation_from_string"]}
{"id": "C57", "title": "New icons never take an ID in use", "statement": "The IDs chosen for new icons or cursors are distinct, not used by existing resources of that type, and as many as requested.", "quantifier": "every set of existing IDs, both placement modes and every count", "why_tests_cant": "all ID sets; failure at 65535", "anchors": ["src/pe_lib/resource_cursor_icon_writer.cpp: get_icon_or_cursor_free_id_list"]}
{"id": "C58", "title": "Icon files round trip", "statement": "get_icon after add_icon on a fresh group returns a file with the same directory entries and image data.", "quantifier": "every valid icon file", "why_tests_cant": "all icon files", "anchors": ["src/pe_lib/resource_cursor_icon_writer.cpp: add_icon", "src/pe_lib/resource_cursor_icon_reader.cpp: format_icon_headers, get_icon_by_id_lang"]}
{"id": "C59", "title": "Cursor group lookup is memory safe", "statement": "Looking up the group of a cursor never reads outside the group resource data.", "quantifier": "every resource content", "why_tests_cant": "hostile Count", "anchors": ["src/pe_lib/resource_cursor_icon_reader.cpp: check_cursor_presence"]}
{"id": "C60", "title": "Debug directory reader is memory safe", "statement": "get_debug_information on any image and raw debug data terminates without out-of-bounds reads.", "quantifier": "every image content and debug blob", "why_tests_cant": "hostile COFF/CodeView blobs", "anchors": ["src/pe_lib/pe_debug.cpp: get_debug_information"]}
{"id": "C61", "title": "Rebuilders only touch what they own", "statement": "Each directory rebuilder refuses sections that are not attached, refuses to overflow a non-last section, and on success changes only the chosen section (from the chosen aligned offset on) and the corresponding directory entry.", "quantifier": "every image, section reference and offset", "why_tests_cant": "all images and offsets", "anchors": ["src/pe_lib/pe_relocations.cpp: rebuild_relocations", "src/pe_lib/pe_bound_import.cpp: rebuild_bound_imports", "src/pe_lib/pe_tls.cpp: rebuild_tls_base", "src/pe_lib/pe_exports.cpp: rebuild_exports"]}
{"id": "C62", "title": "Created images are loadable", "statement": "An empty image created with pe_base(properties, section_alignment, dll, subsystem) has the headers asked for, no sections and no data directories; given at least one section, realigned and rebuilt, it loads again.", "quantifier": "every alignment, subsystem and list of sections", "why_tests_cant": "all parameters", "anchors": ["src/pe_lib/pe_base.cpp: pe_base(const pe_properties&, ...)", "src/pe_lib/pe_properties_generic.cpp: create_pe", "src/pe_lib/pe_rebuilder.cpp: rebuild_pe"]}
{"id": "C63", "title": "Export lookups", "statement": "exported_name_exists and exported_ordinal_exists answer true exactly for the names and ordinals in the list, and get_export_ordinal_limits returns the least and the greatest ordinal of a non-empty list.", "quantifier": "every list of exported functions, name and ordinal", "why_tests_cant": "all lists", "anchors": ["src/pe_lib/pe_exports.cpp: exported_name_exists, exported_ordinal_exists, get_export_ordinal_limits"]}
{"id": "C64", "title": "Reading load configuration and TLS is memory safe and terminates", "statement": "For every image, get_image_config and get_tls_info either return a value or throw; they read only bytes inside the image's header and section buffers, and the null-terminated lists of addresses (lock prefixes, TLS callbacks) are read in finitely many steps even if no terminator exists or addresses wrap.", "quantifier": "all images (any sections, any directory entries, any bytes)", "why_tests_cant": "The lists end at an attacker-chosen place or nowhere; absence of an out-of-bounds read or endless loop must hold for every byte content.", "anchors": ["pe_lib/pe_load_config.cpp: get_image_config_base", "pe_lib/pe_tls.cpp: get_tls_info_base"]}
{"id": "C65", "title": "File version accessors", "statement": "Each flag setter changes the flag its getter reports and nothing else; a file OS or file type that was set is the one got, and setting what was got changes nothing; the version string is the four 16-bit parts in decimal between dots and so determines the version.", "quantifier": "every fixed file information, flag, OS, type and version", "why_tests_cant": "all 32-bit values and flag combinations", "anchors": ["src/pe_lib/file_version_info.cpp: set_file_flag, clear_file_flag, get_file_os, set_file_os, get_file_type, set_file_type", "src/pe_lib/file_version_info.h: get_version_string"]}
{"id": "C66", "title": "Cursor files round trip", "statement": "get_cursor after add_cursor on a fresh group returns a file with the same directory entries (sizes, hotspots) and image data.", "quantifier": "every valid cursor file", "why_tests_cant": "all cursor files; fields are widened, doubled and halved on the way", "anchors": ["src/pe_lib/resource_cursor_icon_writer.cpp: add_cursor", "src/pe_lib/resource_cursor_icon_reader.cpp: format_cursor_headers, get_cursor_by_id_lang"]}
{"id": "C67", "title": "Icon and cursor files are handled safely", "statement": "Adding any bytes as an icon or cursor file, getting any group of any tree as a file and removing any group either work or throw; nothing is read or written outside the file or the group data, and all of it ends.", "quantifier": "every byte string, tree and name", "why_tests_cant": "counts, sizes and offsets are attacker chosen", "anchors": ["src/pe_lib/resource_cursor_icon_writer.cpp: add_icon, add_cursor, remove_icon_group, remove_cursor_group", "src/pe_lib/resource_cursor_icon_reader.cpp: format_icon_headers, format_cursor_headers"]}
{"id": "C68", "title": "Debug directory is reported as stored", "statement": "get_debug_information returns one entry for every record of the debug directory up to the terminating one, with the fields of the record, and PDB, misc or COFF details exactly as the raw data kept for the entry's file offset describe them; it throws otherwise.", "quantifier": "every image and raw debug data", "why_tests_cant": "all directories, CodeView, misc and COFF blobs", "anchors": ["src/pe_lib/pe_debug.cpp: get_debug_information"]}
{"id": "C69", "title": "debug_info objects are independent values", "statement": "In every program that creates, copies, assigns, changes, queries and destroys debug_info objects, each object keeps its own value, nothing is freed twice, used after it was freed or leaked, and a copy equals its source.", "quantifier": "every sequence of operations on any number of objects, including failing allocations", "why_tests_cant": "all histories of operations; leaks and double frees depend on the order", "anchors": ["src/pe_lib/pe_debug.cpp: debug_info::debug_info, operator=, copy_advanced_info, free_present_advanced_info, set_advanced_debug_info, set_advanced_info_type, get_advanced_debug_info"]}
{"id": "C70", "title": "Raw debug data come from the file", "statement": "Raw debug data kept when an image is loaded are the bytes of the file at the offset the debug directory gives.", "quantifier": "every file, stream kind and loading mode", "why_tests_cant": "all files; offsets and sizes are attacker chosen", "anchors": ["src/pe_lib/pe_base.cpp: read_pe"]}
{"id": "C71", "title": "Resource directory entries are independent values", "statement": "In every program that creates, copies, assigns, names, fills, nests and destroys resource directory entries, each entry keeps its own value, whatever is inside it, nothing is freed twice, used after it was freed or leaked, and a copy equals its source.", "quantifier": "every sequence of operations on any number of entries nested to any depth, including failing allocations", "why_tests_cant": "all histories of operations; leaks and uses after free depend on aliasing, order and vector growth", "anchors": ["src/pe_lib/pe_resources.cpp: resource_directory_entry::resource_directory_entry, operator=, release, ~resource_directory_entry, set_name, set_id, add_data_entry, add_resource_directory, get_data_entry, get_resource_directory; resource_directory::add_resource_directory_entry, get_entry_list"]}
{"id": "C72", "title": "Images are independent values", "statement": "In every program that creates, copies, assigns, changes and destroys image objects, each image keeps its own sections and headers, and the headers are never used after they were freed, freed twice or leaked.", "quantifier": "every sequence of operations on any number of images", "why_tests_cant": "all histories of operations; the faults depend on aliasing and order", "anchors": ["src/pe_lib/pe_base.cpp: pe_base::pe_base, operator=, ~pe_base"]}
{"id": "C74", "title": "A loaded file can be asked for anything", "statement": "For every file that the library loads successfully, reading its exports, imports, bound imports, relocations, thread-local storage, load configuration, exception data and debug information ends with a result or an exception, terminates, and reads no memory outside the image's buffers.", "quantifier": "every file content, stream kind and loading mode", "why_tests_cant": "all files; the directory contents and section layout are attacker chosen", "anchors": ["src/pe_lib/pe_base.cpp: read_pe", "src/pe_lib/pe_exports.cpp: get_exported_functions", "src/pe_lib/pe_imports.cpp: get_imported_functions", "src/pe_lib/pe_relocations.cpp: get_relocations", "src/pe_lib/pe_bound_import.cpp: get_bound_import_module_list", "src/pe_lib/pe_tls.cpp: get_tls_info", "src/pe_lib/pe_load_config.cpp: get_image_config", "src/pe_lib/pe_exception_directory.cpp: get_exception_directory_data", "src/pe_lib/pe_debug.cpp: get_debug_information"]}
{"id": "C73", "title": "Directory readers return exactly what the directory says", "statement": "Reading thread-local storage, the load configuration, relocations, bound imports, exports or resources succeeds with a result exactly when the bytes of the image at the directory's address describe that result according to the file format; a directory that is not there gives the documented empty result or exception.", "quantifier": "every image (any sections, headers and directory contents) and every result", "why_tests_cant": "both directions range over all byte contents: no valid directory is refused and no invented entry is ever returned", "anchors": ["src/pe_lib/pe_tls.cpp: get_tls_info", "src/pe_lib/pe_load_config.cpp: get_image_config", "src/pe_lib/pe_relocations.cpp: get_relocations", "src/pe_lib/pe_bound_import.cpp: get_bound_import_module_list", "src/pe_lib/pe_exports.cpp: get_exported_functions", "src/pe_lib/pe_resources.cpp: get_resources"]}
{"id": "C75", "title": "The .NET information is that of the CLR header", "statement": "get_basic_dotnet_info succeeds exactly when the 72 bytes of the CLR header are in the image at the directory's address; every runtime version, flag, entry point, address and size it then returns is the one these bytes hold at that field's offset, and the flag queries answer the corresponding bit; an image without the directory gives image_does_not_have_managed_code; for every loaded file the call is memory-safe.", "quantifier": "every image, every header content, every file that loads", "why_tests_cant": "every header content and every place of the header, including headers cut off by the end of a section", "anchors": ["src/pe_lib/pe_dotnet.cpp: get_basic_dotnet_info, basic_dotnet_info", "src/pe_lib/pe_base.cpp: is_dotnet", "src/pe_lib/pe_structures.h: image_cor20_header"]}
{"id": "C76", "title": "Header accessors report and change exactly the bytes at the documented offsets", "statement": "After any file has been loaded, every query for a value of the NT headers returns the little-endian value that the file has at the offset and of the size that the PE format gives to that value (the number of directories cut to 16); the has_* queries, is_console and is_gui answer what those bytes say. A call that sets a value changes the answer to its own query to that value (cut to 32 bits in a 32-bit image for the values of pointer size), to no other query, and nothing else in the image. In a file written from the image the value is at its place, as are the number of sections and the sizes of headers and image that belong to the file.", "quantifier": "every file that loads, every image, every query, every setter with every argument, every rebuild option", "why_tests_cant": "44 accessors times two layouts times every header content; a test pins a few fields of a few files, and a swapped pair of fields with equal contents goes unnoticed", "anchors": ["src/pe_lib/pe_properties_generic.cpp: get_*, set_*", "src/pe_lib/pe_base.cpp: has_imports ... has_debug, is_dotnet, is_console, is_gui, set_characteristics_flags, clear_characteristics_flags", "src/pe_lib/pe_rebuilder.cpp: rebuild_pe"]}
{"id": "C77", "title": "has_overlay says whether the file goes on behind its sections", "statement": "After a file has been loaded, has_overlay() is true exactly if the file has bytes behind the data of every section; a file written by the library ends with the data of its last section and, read back, has no overlay.", "quantifier": "every file that loads, every consistent image that is written with every option", "why_tests_cant": "section tables in every order, with and without data, with pointers anywhere; a test sees one layout", "anchors": ["src/pe_lib/pe_base.cpp: read_pe, has_overlay", "src/pe_lib/pe_rebuilder.cpp: rebuild_pe"]}
{"id": "C78", "title": "Tables found in an image are found in its file", "statement": "Write an image with a consistent layout with any options and open the file: get_exported_functions, get_imported_functions, get_relocations, get_tls_info, get_image_config, get_exception_directory_data, get_resources and get_basic_dotnet_info return from the opened image what they returned from the sections of the image written; so does get_bound_import_module_list unless the directory is moved behind the headers. The header bytes of a loaded image are the first bytes of the file, up to SizeOfHeaders but not into the data of the first section.", "quantifier": "every consistent image, every option of rebuild_pe, every table content, every file that loads", "why_tests_cant": "every table content at every place of every layout, in combination with every option; a test writes a few images", "anchors": ["src/pe_lib/pe_rebuilder.cpp: rebuild_pe", "src/pe_lib/pe_base.cpp: read_pe, section_data_from_rva, get_full_headers_data", "src/pe_lib/pe_exports.cpp, pe_imports.cpp, pe_relocations.cpp, pe_tls.cpp, pe_load_config.cpp, pe_exception_directory.cpp, pe_resources.cpp, pe_dotnet.cpp, pe_bound_import.cpp: readers"]}
{"id": "C79", "title": "Realigning the file keeps what readers see", "statement": "realign_file to any valid file alignment leaves the results of the readers of exports, imports, relocations, TLS data, exceptions, resources and the .NET header as they were, makes an image whose sections are laid out contiguously ready to be written, and what the readers find in its sections they find in the image opened from the file written then. Realigning is needed after an edit: the size of the edited section in its header is that of the rounded data.", "quantifier": "every image with a contiguous layout whose sections hold no more data than their address ranges, every file alignment, every table content", "why_tests_cant": "every combination of section sizes, trailing zeros, alignments and tables", "anchors": ["src/pe_lib/pe_base.cpp: realign_file, realign_section, realign_all_sections, recalculate_section_sizes", "src/pe_lib/pe_rebuilder.cpp: rebuild_pe"]}
{"id": "C80", "title": "An edit survives saving and reopening", "statement": "Take an image, rebuild its exports, imports, relocations, resources or TLS directory into one of its sections, realign the file, write it and open what was written: the reader for that table returns what was rebuilt, in its canonical order. After each edit the image can be edited and saved again.", "quantifier": "every consistent image, every table content that can be expressed, every section with room, every offset, every file alignment and every option of rebuild_pe", "why_tests_cant": "the chain rebuilder, realign_file, rebuild_pe, loader, reader for every content and layout", "anchors": ["src/pe_lib/pe_exports.cpp: rebuild_exports", "src/pe_lib/pe_imports.cpp: rebuild_imports", "src/pe_lib/pe_relocations.cpp: rebuild_relocations", "src/pe_lib/pe_resources.cpp: rebuild_resources", "src/pe_lib/pe_base.cpp: realign_file, read_pe", "src/pe_lib/pe_rebuilder.cpp: rebuild_pe", "src/pe_lib/pe_tls.cpp: rebuild_tls"]}
{"id": "C81", "title": "Several edits in a row are all kept", "statement": "Store exports, imports, relocations, resources and TLS in an image one after the other and add sections for them, in any order and any number, in the same or in different sections, so that no edit overwrites the bytes or the directory entry of an earlier one. Then every edit succeeds, and afterwards the reader of each table returns what was stored by it; also after realigning, writing and reopening the file. The image can be edited again.", "quantifier": "every consistent image, every sequence of edits of any length, every content that can be expressed, every section and offset, every file alignment", "why_tests_cant": "a history property: each edit must leave alone what all the earlier ones stored, for every sequence and layout", "anchors": ["src/pe_lib/pe_exports.cpp: rebuild_exports", "src/pe_lib/pe_imports.cpp: rebuild_imports", "src/pe_lib/pe_relocations.cpp: rebuild_relocations", "src/pe_lib/pe_resources.cpp: rebuild_resources", "src/pe_lib/pe_tls.cpp: rebuild_tls", "src/pe_lib/pe_base.cpp: recalculate_section_sizes, realign_file, set_directory_rva, set_directory_size"]}
{"id": "C82", "title": "Typed resources survive saving and reopening", "statement": "Bitmaps, strings, messages, icon and cursor files and version information that can be read from a resource tree can be read, the same, from the file that results when the tree is rebuilt into a section and the image is realigned, written and opened again: those chosen by language always, those chosen by index if the tree was in order. A bitmap file that is added is read back as the file with a regenerated header, a removed one is not found, and neither touches other resources. Version information that is set is read back from the opened file. Any history of additions and removals of resources ends in a file with the content the history leaves in a map.", "quantifier": "every consistent image, every resource tree that can be expressed, every bitmap, version block and history of changes, every section with room, every offset and file alignment", "why_tests_cant": "the typed readers pick entries by search and by index in a tree that the rebuilder sorts and the reader parses again, for every tree", "anchors": ["src/pe_lib/resource_bitmap_reader.cpp: resource_bitmap_reader", "src/pe_lib/resource_bitmap_writer.cpp: resource_bitmap_writer", "src/pe_lib/resource_string_table_reader.cpp: resource_string_table_reader", "src/pe_lib/resource_message_list_reader.cpp: resource_message_list_reader", "src/pe_lib/resource_cursor_icon_reader.cpp", "src/pe_lib/resource_version_info_reader.cpp", "src/pe_lib/resource_version_info_writer.cpp", "src/pe_lib/pe_resources.cpp: rebuild_resources, get_resources", "src/pe_lib/pe_resource_manager.cpp: add_resource, remove_resource"]}
{"id": "C83", "title": "What an edit that throws leaves behind", "statement": "When changing a directory entry, the file alignment or a section's virtual size, realigning, expanding or adding a section throws, the image in memory is the one before the call. The same holds when rebuilding relocations, bound imports, exports or resources throws, provided the headers have the directory entry that is to be stored and the sizes are below 2 GiB; for the load configuration and the TLS directory it holds in PE32+ images when no callbacks or data are written, and a failed rebuild of the load configuration changes nothing but the section it writes to. A failed rebasing leaves exactly the words before the failing entry rebased, and the image base as it was. A failed rebuild of imports leaves all headers as they were, and the whole image when no address table is rewritten in place.", "quantifier": "every image, every argument, every point at which the operation can throw", "why_tests_cant": "an exception can be thrown at any of many points that depend on sizes and addresses; the state left behind must be compared with the one before for all of them", "anchors": ["src/pe_lib/pe_base.cpp: add_section, expand_section, recalculate_section_sizes, set_section_virtual_size, set_file_alignment, realign_section", "src/pe_lib/pe_properties_generic.cpp: set_directory_rva, set_directory_size", "src/pe_lib/pe_relocations.cpp: rebuild_relocations, rebase_image", "src/pe_lib/pe_exports.cpp: rebuild_exports", "src/pe_lib/pe_resources.cpp: rebuild_resources", "src/pe_lib/pe_bound_import.cpp: rebuild_bound_imports", "src/pe_lib/pe_load_config.cpp: rebuild_image_config", "src/pe_lib/pe_tls.cpp: rebuild_tls", "src/pe_lib/pe_imports.cpp: rebuild_imports"]}
{"id": "C84", "title": "Queries by address are exact", "statement": "The query for the length of the data at an address returns the length of the headers when they are asked for and have the address, otherwise the stored or mapped length of the one section that has the address, and throws exactly when there is none; the query for what remains from an address on returns the distance to the end of those data, or 0 behind it. A read of n bytes at an address succeeds exactly when that length is at least n. Pointers point to the byte of the address in the data of that section, and writable ones exist exactly when the section has data. Every query by virtual address gives the result of the query by the RVA it stands for, and throws when the address stands for none.", "quantifier": "every image with a consistent section layout, every address, every kind of data, with and without headers", "why_tests_cant": "addresses, section bounds and image bases range over 32 and 64 bits; exactness must hold at each boundary of each section of each image", "anchors": ["src/pe_lib/pe_base.cpp: section_data_length_from_rva, section_data_length_from_va, section_data_from_rva, section_data_from_va, section_from_va, section_and_offset_from_rva", "src/pe_lib/pe_base.h: section_data_from_rva<T>, section_data_from_va<T>"]}
{"id": "C85", "title": "The load configuration and bound imports survive realigning and writing", "statement": "Realigning an image whose last section's data do not end with a zero byte changes neither the load configuration nor the bound imports that are read from it; what is found of them in its sections is found, the same, in the image opened from the file written then. A load configuration or a list of bound imports that is rebuilt into an image, which is then realigned, written and opened again, is what the readers of the opened image return.", "quantifier": "every image with a layout that can be edited, every file alignment, every configuration and list of bound imports that the rebuilders can store, every place in a section, all settings of the writer that leave bound imports where they are", "why_tests_cant": "these two readers look at the bytes of the file, not at the zero-filled image in memory, so whether a table survives depends on the interplay of padding, trimming and alignment for each length of each section", "anchors": ["src/pe_lib/pe_base.cpp: realign_file, realign_section", "src/pe_lib/pe_rebuilder.cpp: rebuild_pe", "src/pe_lib/pe_load_config.cpp: get_image_config_base, rebuild_image_config", "src/pe_lib/pe_bound_import.cpp: get_bound_import_module_list, rebuild_bound_imports"]}
{"id": "C86", "title": "Debug information survives writing a file whose sections do not move", "statement": "If a file is opened with its debug data, written and opened again, the debug information read is the same, with all details of PDB, misc and COFF data, provided that every section stays at its offset in the file and the data that the entries refer to are in sections. For any image, edited or created, the debug information it gives is found again in the file written for it whenever the raw data of its entries stand in that file at the offsets that the entries give. When sections move, as after realigning the file, it need not be: the offsets in the debug directory are not updated.", "quantifier": "every file and every stream kind, every image with a consistent layout, every number of entries of every type, all settings of the writer", "why_tests_cant": "the debug directory refers to the file by absolute offsets, so whether it survives depends on where the writer puts every section of every image; a sample shows one layout", "anchors": ["src/pe_lib/pe_base.cpp: read_pe", "src/pe_lib/pe_debug.cpp: get_debug_information", "src/pe_lib/pe_rebuilder.cpp: rebuild_pe", "src/pe_lib/pe_base.cpp: realign_file"]}
{"id": "C87", "title": "Each reader depends on its own data directory only", "statement": "The readers of exports (directory 0), imports (1), resources (2), exceptions (3), relocations (5), debug information (6), TLS (9), load configuration (10), bound imports (11) and the .NET header (14) return the same result, or throw the same exception, for any two images that agree in format, sections, header bytes, debug data, section alignment, image base, characteristics, number of directories and the entry of that one directory. So no other directory entry, header field, stub or overlay changes what they return.", "quantifier": "every two images, well-formed or not, every entry in every other directory", "why_tests_cant": "independence is a statement about all pairs of images that differ in anything else", "anchors": ["src/pe_lib/pe_exports.cpp: get_exported_functions", "src/pe_lib/pe_imports.cpp: get_imported_functions", "src/pe_lib/pe_resources.cpp: get_resources", "src/pe_lib/pe_exception_directory.cpp: get_exception_directory_data", "src/pe_lib/pe_relocations.cpp: get_relocations", "src/pe_lib/pe_debug.cpp: get_debug_information", "src/pe_lib/pe_tls.cpp: get_tls_info", "src/pe_lib/pe_load_config.cpp: get_image_config", "src/pe_lib/pe_bound_import.cpp: get_bound_import_module_list", "src/pe_lib/pe_dotnet.cpp: get_basic_dotnet_info"]}
{"id": "C88", "title": "The version viewer shows what the file says", "statement": "For a version resource in the documented format, with StringFileInfo and VarFileInfo blocks in any order and number and strings in any order, get_property of the viewer on what get_version_info_by_lang returns gives a value exactly when the file has that string in the table of that translation (the first of equal keys), throws or returns an empty string otherwise, and with no translation named looks at the table 041904b0, or if the file has none at the first table in string order. The named getters and setters are about the strings CompanyName, FileDescription, FileVersion, InternalName, LegalCopyright, OriginalFilename, ProductName and ProductVersion.", "quantifier": "every list of blocks, tables, strings and pairs below 65536 bytes, every resource tree, every key and name", "why_tests_cant": "orders and duplicates of unboundedly many strings and tables", "anchors": ["src/pe_lib/resource_version_info_reader.cpp: get_version_info_by_lang", "src/pe_lib/version_info_viewer.cpp: get_property", "src/pe_lib/version_info_editor.cpp: set_property"]}
{"id": "C89", "title": "Writing what was read from a written file gives the same file", "statement": "When an image with a consistent layout has been written (rebuild_pe, keeping or stripping the DOS header, with any handling of bound imports), the file can be opened again, and writing the image that was opened, with the same options, succeeds and gives exactly the same bytes.", "quantifier": "every image with a consistent layout, both kinds, any number of sections and directories, with or without stripping the DOS header, with or without updating SizeOfHeaders, both kinds of streams, with or without raw debug data", "why_tests_cant": "a byte that drifts on the second write shows only for particular stub lengths, alignments, directory counts or sections without data", "anchors": ["src/pe_lib/pe_rebuilder.cpp: rebuild_pe", "src/pe_lib/pe_factory.cpp: create_pe", "src/pe_lib/pe_base.cpp: read_pe"]}
