# Formal model of portable-executable-library (pe_bliss) in Rocq

The model lives in `rocq/theories/` (logical name `Verif`). It is an executable
re-statement, function by function, of the C++ sources in `/repo/src/pe_lib`.
Each definition cites the file and lines it models. `properties.jsonl` has the
properties in English, `MANIFEST.json` maps each one to its theorems, and
`seeded/LOG.jsonl` records edits of the model that a realistic bug would make and
which theorems they break.

## Conventions of the model

* Integers are `Z`. Every C++ wrap is written out: `u8 u16 u32 u64` reduce modulo
  2^8, 2^16, 2^32, 2^64. `size_t`, `long` and `std::streamoff` are 64 bits (LP64).
* Bytes and strings are `list Z`. `bytes l` says all elements are in [0,256).
  `std::wstring`/`u16string` are lists of 16-bit units.
* Every operation that can fail returns `res A`:
  `Ok a`, `Throw e` (a C++ exception, with its id), `Ub k` (undefined behaviour:
  a read or write outside a buffer, a null dereference, ...), `Fuel` (a loop ran
  longer than the model's bound). All C++ pointer accesses go through `rd`/`wr`,
  which give `Ub` outside the buffer. `safe r` says that `r` is `Ok` or `Throw`.
  So "memory safe" and "terminates" is the theorem `safe (f x)`, with a fuel that
  is far above any count the code can reach.
* Loops whose length is data dependent use `mloop`, an iterator with a binary
  fuel. `for`-loops over containers are structural recursion.
* An image is the record `pe`: headers (`p_nt`, a record of all header fields of
  PE32 or PE32+), section list, full headers buffer, stub, debug data, ... A
  section is a record of its header fields and its data, with the "old size" that
  `get_virtual_data`/`get_raw_data` use to map and unmap it.
* A section reference is an index into the section list; an index beyond the
  list stands for a section object that is not attached.
* A property that is false of the faithful model is stated as
  `..._refuted : exists x, ...` with a concrete witness. The proved part then
  carries the extra hypothesis and the suffix `_partial`, and the comment above it
  says what is missing. (A theorem without the suffix is the whole property.)

## Files

| file | content |
|---|---|
| `Base.v` | outcome monad, wraps, byte lists, little-endian codec, loops |
| `*Model.v` | model definitions only, one file per area of the code (table below) |
| `Spec*.v` | small specifications used in the statements; they mention the model's data types and memory reads, not its algorithms |
| `*Facts.v`, `*Round.v`, `*Done.v`, `Exact*.v`, `Own*.v`, ... | lemmas and proofs |
| `Samples*.v`, `*Samples.v` | concrete images, files and directories for the examples and refutations |
| `Prop*.v` | the property theorems, each closed by `exact` or a short projection, with `Print Assumptions`, and `Example`s showing that the hypotheses can be met |

| model | code |
|---|---|
| `UtilsModel` | `utils.h`, `utils.cpp` (pure helpers) |
| `SectionModel` | `pe_section.h/.cpp` |
| `PeModel` | `pe_properties_generic.h/.cpp` and the parts of `pe_base.h/.cpp` that look at and edit an image in memory |
| `LoadModel` | `std::istream`; `pe_base.cpp` constructors, `read_dos_header`, `read_pe`; `pe_factory.cpp`; `get_pe_type` |
| `RebuildModel` | `pe_rebuilder.cpp` |
| `ChecksumModel` | `pe_checksum.cpp` |
| `DirModel` | the steps that directory rebuilders share |
| `RelocModel`, `ExportModel`, `ImportModel`, `BoundModel`, `TlsModel`, `ConfigModel`, `ReadersModel` | `pe_relocations`, `pe_exports`, `pe_imports`, `pe_bound_import`, `pe_tls`, `pe_load_config`, `pe_exception_directory` and `pe_rich_data` |
| `DebugModel` | `pe_debug.cpp` |
| `OwnModel` | constructors, assignments and destructors of `debug_info` and `pe_base` with an explicit heap |
| `OwnTreeModel` | constructors, assignment, `release` and editing of `resource_directory_entry`, and the vector of entries of `resource_directory`, with an explicit heap; references are paths, a full vector copies its elements |
| `ResModel`, `ManagerModel` | `pe_resources`, `pe_directory`, `pe_resource_viewer`, `pe_resource_manager` |
| `ResDataModel` | `resource_bitmap_*`, `resource_string_table_reader`, `resource_message_list_reader`, `message_table` |
| `VerModel`, `VerEditModel` | `resource_version_info_*`, `version_info_viewer`, `version_info_editor`, `file_version_info` |
| `IconModel` | `resource_cursor_icon_*` |
| `TypedModel` | `resource_bitmap_reader`, `resource_bitmap_writer`, `resource_string_table_reader`, `resource_message_list_reader` (access through the tree) |
| `FailModel`, `FailImportModel` | the same edits and rebuilders as steps on the image, with what they leave behind when they throw |
| `AddrModel` | the queries by virtual address (section, length of the data, pointers, typed reads), `section_and_offset_from_rva` |
| `EntropyModel` | `entropy.cpp` |
| `DotnetModel` | `pe_dotnet.cpp` |
| `HeaderModel` | the accessors of single header values in `pe_properties_generic.cpp` and `pe_base.cpp` (26 queries, 18 setters, 12 `has_*` queries) |

## Properties

"whole" means that the English property is proved as it stands; otherwise the
last column says what is proved and what is missing or false.

| id | model and proof | result |
|---|---|---|
| C01 | align_up/down, is_power_of_2 with `Z.land` and wraps; bit lemmas turn masks into `mod` | whole (with the exact condition for wrapping) |
| C02 | arithmetic, iff | whole |
| C03 | the 8-byte name field; list reasoning | whole |
| C04 | flags in Characteristics, with the bits of the format as literals; `Z.bits_inj` | whole |
| C05 | section state (data, old size); invariant over every history of views and edits | whole |
| C06 | directories as a list of 16 pairs; get/set laws | proved up to 16 directories; a count above 16 reads past the array (refuted) |
| C07 | decision as iff | proved for 1 to 16 directories; with 0 directories the unsigned count wraps (refuted) |
| C08 | recursion on the index | nothing used is dropped; the minimum count is missed by one (refuted) |
| C09 | arithmetic mod 2^32/2^64 | whole |
| C10 | first match, uniqueness from disjointness | whole |
| C11 | inverse on disjoint raw ranges | proved for stored bytes; addresses in a section's virtual tail get offsets outside it (refuted) |
| C12 | reads through `rd` on the view that an independent memory map gives | whole |
| C13 | pointer = (buffer, offset) | virtual view proved; raw view proved for addresses inside the data, refuted beyond |
| C14 | istream model (content, position, flags) and read_pe step by step, for every byte string and stream kind | whole |
| C15 | inversion of the loader run | all checked header fields; layout unless a section wraps around 2^32 (refuted) |
| C16 | inversion of the loader run | whole |
| C17 | state of the stream after the run | proved when no read was cut short; refuted for short streams and debug data past the end |
| C18 | equations on the result | proved when the last section has a virtual size; otherwise it may overlap the new one (refuted) |
| C19 | invariant over edit sequences | proved; expanding raw data, and a fresh image, are the exceptions (refuted) |
| C20, C21, C23 | case analysis, iff | whole |
| C22 | list lemmas on resize/strip | proved for data not longer than SizeOfRawData; refuted otherwise |
| C24 | every read of rebuild_pe is inside a buffer | proved for images whose data match SizeOfRawData (loaded or realigned ones); refuted for added sections and 17 directories |
| C25 | codec for all headers + loader run on the produced bytes | whole (`C25_can_be_written` says which images can be written) |
| C26 | layout of the output | proved when sections without data have no file pointer behind the headers; stale PointerToRawData refuted |
| C27 | spec as a sum with end-around carry | whole |
| C28 | writer/reader pair; induction on tables | proved; the empty list is refuted |
| C29, C30 | bit arithmetic; loop invariant | whole |
| C31 | fold over relocations; disjoint writes commute | proved for disjoint words; overlapping ones refuted |
| C32 | writer/reader pair | proved for functions that the format can tell apart; five kinds of lists refuted |
| C33 | decision rule, sorted name table | whole |
| C34 | size accounting | non-empty lists; the empty list is refuted |
| C35 | loop invariant | whole |
| C36 | exact reader (iff) and writer/reader pair; with tables rewritten in place, the rebuilder as one that runs after the tables were written | round trip for settings and libraries that can be told apart, also with tables rewritten in place in other sections; refuted otherwise. Missing: filling in tables of names beside tables rewritten in place, and such tables in the headers or the rebuilt section |
| C37 | loop invariant | whole |
| C38 | frame on writes | bytes before the directory; bytes after it are cut off (refuted) |
| C39 | writer/reader pair on trees | proved for 16-bit ids and non-empty data, in order or with lengths that are multiples of 4; refuted otherwise |
| C40 | size accounting | proved when the entries are in order already or all lengths are multiples of four; refuted otherwise |
| C41 | recursion bounded by visited offsets | termination whole; safety except over-read of names (refuted) |
| C42 | refinement of the tree operations to a finite map, over histories | whole on trees with unique keys (which is needed, shown) |
| C43 | writer/reader pair; for a section that grows, invariant on the last section through expansion and writing (`C43_growing`) | places inside file data, or everything in the last section, which grows; places split between a section that grows and others are missing; zero fill without raw data refuted |
| C44 | frame | proved when the raw data are as long as the addresses say, the callbacks fit and the structure ends below 2^32; refuted otherwise |
| C45 | writer/reader pair | proved for 16-bit offsets, a null terminator already there and a section that is not stripped or the last; refuted otherwise |
| C46 | loop invariant | whole |
| C47 | writer/reader pair | proved for a section that is not stripped or the last; refuted otherwise |
| C48 | safety and exact result (iff) | whole |
| C49 | spec of the rich header | records proved; stubs without the mark are read past their end (refuted) |
| C50 | histogram by fold, Shannon's formula and bounds over `R` | whole (real-number formula, no rounding) |
| C51 | byte-level equation | whole |
| C52 | exact result (iff), strings inside the data | proved for well-formed data; over-read for other data refuted |
| C53 | loop with variable step | whole |
| C54 | writer/reader pair; the written bytes equal the documented VS_VERSIONINFO format, specified by itself in SpecVerFormat.v; files of other writers with the blocks in any order and number (SpecVerAny.v) | whole within the 16-bit sizes of the format (bound shown to be needed) |
| C55 | offsets stay near the data | at most 65535 bytes past the end, terminates without words of 0xFFFD or more; over-read, odd translations and an endless loop refuted |
| C56 | refinement to finite maps over histories | proved; translations in capital letters refuted for removal |
| C57 | free id search | proved while numbers last; replaced pictures and endless search at 65535 refuted |
| C58 | files and groups as byte strings | whole |
| C59 | lookup of single icons and cursors | icons whole; cursors when the groups have room for the entries they announce; over-read refuted |
| C60 | every branch of the debug reader is safe, also on every loaded image | whole |
| C61 | frame theorem for each rebuilder: refused sections, no overflow, only these bytes and this directory | whole (imports, exports, relocations, TLS, configuration, bound imports, resources) |
| C62 | creation, adding sections, realigning, writing and loading composed; the headers of a new image field by field | whole |
| C63 | lookups as membership | whole |
| C64 | safety of the TLS and configuration readers | whole |
| C65 | bit-field accessors, version strings | whole |
| C66 | cursor files | proved for heights below 128 and no colour count; refuted otherwise |
| C67 | icons and cursors never touch memory outside | get and remove whole; add except for 65535 pictures (C57) |
| C68 | exact result (iff) of the debug reader | proved; five deviations from the format refuted |
| C69 | heap model of `debug_info`; refinement of every program to values | memory whole; values except self-assignment (refuted) |
| C70 | loader run | whole for file streams; past a string stream's end zeros are kept (refuted) |
| C71 | heap model of `resource_directory_entry` and `resource_directory`; separation invariant; refinement of every program to values | proved for programs that do not copy between an entry and one inside it; six such cases refuted |
| C72 | heap model of `pe_base`; refinement of every program to values | except self-assignment (use after free) and failing constructors (leak), refuted |
| C73 | inductive descriptions of each directory's format; reader succeeds iff the bytes match | whole |
| C74 | C14 composed with the readers' safety | exports, bound imports, relocations and debug whole; the others when no section reaches 2^32; resources as in C41 |
| C75 | header decoded field by field; offsets of the CLR header as specification | whole |
| C76 | table of queries and setters; offsets of the PE format as specification; the field encoding is indexed by position, loading and writing by C14 and C25 | whole; with zero directories `has_*` is not what the count says (`_refuted`) |
| C77 | the overlay flag as the loader computes it from the section headers, whose raw sizes are followed through the section loop; for written files the end of the last section's data | partial: exact when the section that is last in the table has data and is last in the file; three `_refuted` theorems for the other files |
| C78 | simulation between two images that show the same bytes: each reader of C12-C60 looks at the image through `read_rva` and directory entries only, so a read that succeeds on the sections alone succeeds with the same result on the image loaded from the written file (C25 relates the two) | proved |
| C79 | the same simulation between an image and the realigned image; `realign_file` gives a consistent layout | proved, and `_refuted`: an edited image that is not realigned cannot be written |
| C80 | the rebuilders do not look at the header bytes (they commute with dropping them) and leave the edited section well sized, so the edited image meets C79's hypotheses; then the round trips C28, C32, C36, C39, C43 on the sections alone | relocations proved; exports, imports, resources, TLS partial as in C32, C36, C39, C43 |
| C81 | induction over the list of edits; invariant: every table stored so far is still shown at its place by the current image and its directory entry still points there (frame: an edit changes one section from its offset on, and its own entries); the readers of C80 then depend on those bytes only | partial: six kinds of edits (exports, relocations, resources, imports with descriptors moved, a new section at the end, TLS with its data and callbacks in the last section, which grows for them); libraries that keep their own address table, bound imports and configuration are missing. `_refuted`: imports stored in front of another table of the same section cut that table off |
| C82 | the tree read back has the same paths and data (C39, C80), and every typed reader is a function of the lookups along a path, so it agrees on both trees; for indices the order of the siblings is kept when the tree was sorted; composition with the theorems about the writers for what was added | partial: the trees C39 leaves out (empty data, wide numbers, unordered trees with lengths that are not multiples of 4) |
| C83 | the operations as steps on the image in memory (state and exception), proved to return and throw as the functions of the other models do; each throwing step is in front of the first change, or cannot throw (writers never throw; the end of a rebuilder does not throw for sizes below 2 GiB) | `_refuted`: without the directory entry in the headers the section is written before the exception; so it is by a load configuration with an address that does not fit and by TLS callbacks without room; rebasing stops half-way; so does rewriting import tables in place |
| C84 | each query is characterised by an equivalence with the layout of the sections (`SpecAddr`: which section has the address, how long its data are); the queries by virtual address are equal to those by the RVA they stand for | `_refuted`: the length in a section at hand is computed in 31 bits, so it is 0 when 2 GiB or more remain, and wrong far behind the stored data |
| C85 | the readers of configuration and bound imports are monotone in the data of the sections (longer data, same prefix); realigning only appends zeros, except at the end of the last section; composed with C78 and the round trips C45, C47 on the sections alone | configuration proved, bound imports partial as in C45. `_refuted`: a list of lock prefixes at the end of the last section loses its terminator |
| C86 | the loop of the loader that collects raw data and the loop of the reader go through the same entries, so what is collected is determined by the entries read and the bytes of the file; the entries themselves survive as in C78; the bytes survive where a section stays at its file offset (C26) | proved for files whose sections do not move and, in general, for raw data that stand in the file at the offsets given. `_refuted`: nothing updates these offsets when sections move |
| C87 | every access of a reader goes through the queries by address and the entry of its directory; these are equal, as functions, on two images with the same sections, header bytes and the few fields named, and so are the readers built from them | proved |
| C88 | C54 for blocks in any order, then lookups in the maps the reader builds: a key is found exactly when the file lists it, and what is found is its first entry | proved for resources below 65536 bytes whose blocks have the documented lengths |
| C89 | C25 with the exact headers and sections of the image read back; the layout rule applied to them gives the places they have | partial: with and without stripping the DOS header, for every image with a consistent layout whose bound imports are absent or left where they are. `_refuted`: bound imports at the start of the first section are moved into the headers by the second write |

## Trusted base

* Coq 8.16.1's kernel, with its `vm_compute` machine (used for witnesses of
  refutations and for examples, and for closed arithmetic).
* The reading of the C++ code: the tie between model and code is the citation on
  each definition. Nothing was compiled or run.
* The C++ semantics the model assumes: little-endian LP64 host, packed structures
  as in the source (`#pragma pack(1)`), libstdc++ for `std::istream`, string
  streams in the "C" locale, `std::sort` and `std::map` as the standard says.

### Axioms

No axiom, parameter, section-less variable, functor or module type is declared,
no kernel check is switched off, and nothing is admitted.
`Print Assumptions` follows each theorem in `Prop*.v`. It prints
"Closed under the global context" for all of them except the theorems
`C50_shannon`, `C50_bounds`, `C50_zero`, `C50_empty` and `C50_image` in
`PropEntropy.v`, which are about the standard library's real numbers. Each of these
lists four axioms, all of the standard library:

* `ClassicalDedekindReals.sig_not_dec`
* `ClassicalDedekindReals.sig_forall_dec`
* `FunctionalExtensionality.functional_extensionality_dep`
* `Classical_Prop.classic`

A checker that lists the axioms of all loaded libraries (`coqchk -o`) also shows
the axioms and primitives of other standard library files that are loaded with
`Reals` and `Lia`, such as those of `Uint63` and `PrimFloat`; no theorem here uses
them.

## Modelled and not modelled

Modelled: the functions of the files in the table above, apart from the following.

* Allocation failure (`std::bad_alloc`), and lengths above what memory can hold;
  the heap models (C69, C71, C72) have failing allocations.
* The input stream's `badbit` and streams with exceptions switched on; output
  streams are assumed to be good.
* `iconv` and wide string conversion: 16-bit units are taken as they are.
* Floating point rounding in the entropy calculation.
* When an operation throws, the model gives the half-changed image only for the operations
  in `FailModel` and `FailImportModel` (C83).
* Readers do not record which sections they mapped to their virtual view; C05
  shows that this does not change what a section holds.
* The buffer for the DOS header is taken as zeroed before reading.
* Reading `operator[]` of a `std::string` at its length counts as out of bounds,
  although libstdc++ has a null there.
* Accessors that only return or assign a member (most of `*_info` classes) are the
  fields of the records; the samples and the test programs in `/repo/src` have no model.

## Findings

Behaviour of the code that contradicts a property, each with a kernel-checked
witness (`_refuted` theorem) or a proof note:

1. `directory_exists` with 0 directories indexes the array (count - 1 wraps); more
   than 16 directories read past the array (C06, C07).
2. `strip_data_directories(min_count)` may keep one directory less (C08).
3. `rva_to_file_offset` maps a section's virtual tail outside its raw data (C11);
   raw pointers may lie outside the buffer (C13).
4. Sections that wrap around 2^32 are accepted by the loader (C15); the stream
   position is lost after short reads (C17).
5. `add_section` behind a section of virtual size 0 may overlap it (C18); `expand_section(raw)` and fresh
   images leave SizeOfImage behind (C19); realigning longer data truncates (C22).
6. `rebuild_pe` reads past the data of sections added or edited without realignment (C24, C79),
   and overlays sections with stale raw pointers (C26).
7. Rebuilding an empty list of relocations (C28); overlapping relocations are
   applied twice, and each type other than ABSOLUTE is treated as a full word (C31).
8. Exports: unnamed forwarders, null addresses, empty lists, lists without names at
   the end of a section are lost or refused (C32), and the empty list with a large
   base overflows the section (C34).
9. Imports: ordinals without original IAT, functions without address, filling
   without building are not read back (C36); the bytes after the directory are cut
   off (C38).
10. Resources: ids above 16 bits and empty data (C39), data order (C40: padding for the
    order in which data are written is not counted, the section overflows), names are over-read (C41).
11. TLS: zero fill (C43), short data, callbacks and offsets beyond the section (C44).
    Bound imports: the closing record is not written, stripping removes it, 16-bit
    offsets wrap (C45). Configuration: stripping cuts the lists (C47).
12. Rich data are searched past the stub (C49).
13. String tables are over-read (characters taken as bytes) (C52); version
    information is over-read, and a 16-bit alignment that wraps makes an endless
    loop (C55); translations in capital letters cannot be removed (C56).
14. Icons: numbers wrap past 65535, and replace others or search forever (C57); the
    cursor lookup checks the room of one entry only (C59); tall cursors (C66).
15. Debug: COFF file names are taken from the wrong place, auxiliary records of
    skipped symbols are read as symbols, NB09/NB11/NB05 are reported as no CodeView,
    a short misc record throws a standard exception, a directory at the very end of
    readable data is refused (C68); zeros are kept as debug data past a string
    stream's end (C70).
16. Self-assignment: `debug_info` loses its details (C69), `pe_base` uses freed
    memory; a failing `pe_base` constructor leaks its properties (C72).
    `set_advanced_info_type` never sets the type (C69).
17. A resource directory entry assigned to itself loses its contents (C71). `e.add_data_entry(e.get_data_entry())`,
    `e.add_resource_directory(e.get_resource_directory())` and `e = e.get_resource_directory().get_entry_list()[i]`
    read memory that `release` has freed. `d.add_resource_directory_entry(d.get_entry_list()[i])` asks the entry
    for its name after `push_back`, when the old storage may be gone. An entry assigned to one inside it is
    copied after that one was emptied.
18. With zero directories `has_imports()` and the like look at the directory entries anyway, because the count minus one
    wraps around (C76). `has_overlay()` adds the pointer of the last section to the size of the last section *that has
    data*, and takes the last section of the table for the last one in the file (C77).
19. `rebuild_imports` resizes the data of the section to end with its own table (pe_imports.cpp:736), also when the section was
    longer: what the section held behind the table is lost (C81). The other rebuilders keep it.
20. Exceptions leave images half-changed (C83): a rebuilder that stores its directory entry writes the table first and
    then finds that the headers have no such entry; `rebase_image` stops at the first address it cannot reach, with the
    words before it changed and the image base not; `rebuild_tls` and `rebuild_image_config` write their structure
    before they find that callbacks have no room or that an address does not fit; `rebuild_imports` with address tables that
    are rewritten in place finds word by word whether they have room, after it has written names and descriptors.
21. Realigning strips the zeros at the end of the last section, and the load configuration is read from stored bytes only: a list of lock
    prefixes that ends the last section loses its terminator, and the configuration cannot be read from the file (C85).
22. Rewriting an address table in place needs one byte more than the table behind it: `len <= sizeof(field)` (pe_imports.cpp:558) refuses a table
    that ends with the last byte of its section's data, although it can be read (C36).
23. A created PE32+ image is marked for the 32-bit machine i386 (Machine = 0x14C, pe_properties_generic.cpp:23), whatever its format: the caller
    has to call `set_machine` (C62_new_image).
24. Nothing updates the file offsets (PointerToRawData) in the debug directory when sections move in the file: after `realign_file` or after a change of the
    size of headers or sections, the file written has its debug data elsewhere, and reading it finds what happens to be at the old offset (C86).
25. `rebuild_pe` compares the address of the bound imports with SizeOfHeaders by `>`: when the
   headers end exactly where the first section begins and the bound imports stand there, they
   are taken for a part of the headers and moved (`C89_bound_imports_refuted`).

Further notes on code that no property covers: the loader turns a raw size into 0
for sections without virtual size; `section_data_length_from_rva` returns 0 when
2^31 or more bytes remain; the condition on automatic stripping of the last section
is inverted; the exception directory reader ignores the directory's size.
