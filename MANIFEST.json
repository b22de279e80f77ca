{
 "claims": [
  {
   "property": "C01",
   "status": "proved",
   "theorems": [
    "C01_read_exact",
    "C01_read_bool"
   ],
   "note": "Exact value of every in-bounds field, read as int (multi-bit) or bool-like (1 bit)."
  },
  {
   "property": "C02",
   "status": "partial",
   "theorems": [
    "C02_read_u64_refuted",
    "C02_read_u64_partial"
   ],
   "note": "False for unsigned 64-bit fields at bit offsets not divisible by 8 (refuted with a witness); proved for all other offsets."
  },
  {
   "property": "C03",
   "status": "partial",
   "theorems": [
    "C03_write_read",
    "C03_write_read_clear_field",
    "C03_signed_one_bit_refuted"
   ],
   "note": "write then read is proved for all layouts except signed 1-bit fields (refuted: -1 reads back as 1)."
  },
  {
   "property": "C04",
   "status": "proved",
   "theorems": [
    "C04_write_wraps"
   ],
   "note": "Values out of range wrap modulo 2^width (exact result)."
  },
  {
   "property": "C05",
   "status": "partial",
   "theorems": [
    "C05_other_bits_refuted",
    "C05_other_bits_partial",
    "C05_write_exact_effect"
   ],
   "note": "Refuted in general (writing OR-s into the buffer / clears only part); exact effect of a write is proved for every buffer."
  },
  {
   "property": "C06",
   "status": "proved",
   "theorems": [
    "C06_ascending_writes",
    "C06_later_writes_preserve"
   ],
   "note": ""
  },
  {
   "property": "C07",
   "status": "proved",
   "theorems": [
    "C07_read_in_bounds",
    "C07_write_in_bounds",
    "C07_write_out_of_bounds"
   ],
   "note": "In-bounds never raise, out-of-bounds writes always raise IndexError."
  },
  {
   "property": "C08",
   "status": "partial",
   "theorems": [
    "C08_pack_unpack",
    "C08_unaligned_u64_refuted"
   ],
   "note": "Proved for all layouts without an unaligned u64 that shares its last byte with a later field; refuted for those."
  },
  {
   "property": "C09",
   "status": "partial",
   "theorems": [
    "C09_view_local",
    "C09_unaligned_u64_refuted"
   ],
   "note": "Proved without unaligned u64 fields; refuted with them."
  },
  {
   "property": "C10",
   "status": "proved",
   "theorems": [
    "C10_framing",
    "C10_exact_effect"
   ],
   "note": ""
  },
  {
   "property": "C100",
   "status": "proved",
   "theorems": [
    "C100_drawing",
    "C100_arrows",
    "C100_connected",
    "C100_single_fields",
    "C100_distinct",
    "C100_instance",
    "C100_refuted",
    "C100_labels",
    "C100_labels_instance",
    "C100_labels_refuted"
   ],
   "note": "The conditions are in the statement; C100_refuted shows what happens without them. C100_single_fields: every schema text meets the condition of C100_connected on explicit references. C100_labels: titles, notes and rows; C100_labels_refuted: an enumeration of a namespace whose name starts like the structure's is shown with its name cut. Colours and fonts are not claimed."
  },
  {
   "property": "C101",
   "status": "proved",
   "theorems": [
    "C101_generates",
    "C101_only",
    "C101_schemas",
    "C101_failure",
    "C101_succeeds",
    "C101_folders",
    "C101_instance",
    "C101_refuted"
   ],
   "note": "For any generator given as a function of the schema text. Symbolic links, permissions, and the installation of the generator are not modelled; the walk finds what was there before the helper started. C101_refuted: a folder called like a schema, or like the output of the schema next to it, makes the helper fail."
  },
  {
   "property": "C102",
   "status": "partial",
   "theorems": [
    "C102_layout",
    "C102_text_layout",
    "C102_declarations",
    "C102_accepts",
    "C102_contents",
    "C102_text",
    "C102_text_contents"
   ],
   "note": "For schemas whose definitions are not called like a namespace and that do not use the name _builtin (without the first it is refuted, C47_refuted); the order of the fields of a structure, the values of an enumeration and the resources of an archive is part of the definition. C102_text*: for texts, whatever the order of sets; C102_layout: sizes, offsets, widths and signs of all structures agree."
  },
  {
   "property": "C103",
   "status": "proved",
   "theorems": [
    "C103_outcome",
    "C103_accepted",
    "C103_text",
    "C103_outputs"
   ],
   "note": "For all schemas, accepted or not. Everything the generator writes is a function of the tree, so it is covered too."
  },
  {
   "property": "C11",
   "status": "proved",
   "theorems": [
    "C11_vector_roundtrip"
   ],
   "note": ""
  },
  {
   "property": "C12",
   "status": "proved",
   "theorems": [
    "C12_indexing"
   ],
   "note": ""
  },
  {
   "property": "C13",
   "status": "proved",
   "theorems": [
    "C13_slices",
    "C13_list_slice_plain",
    "C13_list_slice_reverse",
    "C13_list_slice_full"
   ],
   "note": ""
  },
  {
   "property": "C14",
   "status": "partial",
   "theorems": [
    "C14_truncated_refuted",
    "C14_open_checks_partial"
   ],
   "note": "The checks that exist are proved; truncated files are refuted to be rejected."
  },
  {
   "property": "C15",
   "status": "proved",
   "theorems": [
    "C15_multivector_roundtrip"
   ],
   "note": ""
  },
  {
   "property": "C16",
   "status": "partial",
   "theorems": [
    "C16_index_overflow_partial",
    "C16_sub_byte_index_refuted"
   ],
   "note": "Overflow of byte-sized indexes raises; refuted for index widths that are not a whole number of bytes."
  },
  {
   "property": "C17",
   "status": "partial",
   "theorems": [
    "C17_negative_index_refuted",
    "C17_indexing_partial"
   ],
   "note": "Refuted for negative indexes; proved for non-negative ones."
  },
  {
   "property": "C18",
   "status": "proved",
   "theorems": [
    "C18_raw_roundtrip"
   ],
   "note": ""
  },
  {
   "property": "C19",
   "status": "proved",
   "theorems": [
    "C19_sub_str",
    "C19_nul_terminated",
    "C19_text"
   ],
   "note": ""
  },
  {
   "property": "C20",
   "status": "proved",
   "theorems": [
    "C20_sub_str_array",
    "C20_sub_str_list"
   ],
   "note": ""
  },
  {
   "property": "C21",
   "status": "proved",
   "theorems": [
    "C21_instance_roundtrip"
   ],
   "note": ""
  },
  {
   "property": "C22",
   "status": "partial",
   "theorems": [
    "C22_empty_containers_refuted",
    "C22_empty_resources_partial"
   ],
   "note": "Refuted at archive level for every archive (empty containers become None); proved below the archive object."
  },
  {
   "property": "C23",
   "status": "partial",
   "theorems": [
    "C23_iteration_order_refuted",
    "C23_iteration_order_partial"
   ],
   "note": "Refuted (iteration order is that of a set); proved up to permutation."
  },
  {
   "property": "C24",
   "status": "partial",
   "theorems": [
    "C24_to_numpy_partial",
    "C24_limit_refuted"
   ],
   "note": "numpy conversion modelled for fields up to 64 bits; refuted beyond."
  },
  {
   "property": "C25",
   "status": "partial",
   "theorems": [
    "C25_schema_verified_partial",
    "C25_mismatch_error",
    "C25_empty_schema_refuted",
    "C25_index_schema_unchecked"
   ],
   "note": "Proved at every nesting depth for non-empty stored schemas, with the exact exception; refuted for empty schema files in tars. Index schemas are never checked (proved)."
  },
  {
   "property": "C26",
   "status": "partial",
   "theorems": [
    "C26_required_present",
    "C26_missing_error",
    "C26_optional_absent",
    "C26_partial_optional_refuted",
    "C26_optional_no_data_error"
   ],
   "note": "Required resources, exact errors and absent optional ones proved; refuted for optional multivectors lacking only their data."
  },
  {
   "property": "C27",
   "status": "proved",
   "theorems": [
    "C27_accessors",
    "C27_only_mentioned_files"
   ],
   "note": ""
  },
  {
   "property": "C28",
   "status": "proved",
   "theorems": [
    "C28_end_to_end"
   ],
   "note": "All archive types without sub-archives (the Python builder cannot write sub-archives)."
  },
  {
   "property": "C29",
   "status": "proved",
   "theorems": [
    "C29_unknown",
    "C29_set_once",
    "C29_index_clash_refuted"
   ],
   "note": "For archive types whose resources have distinct files; a counterexample is given for types where they coincide."
  },
  {
   "property": "C30",
   "status": "proved",
   "theorems": [
    "C30_rejected",
    "C30_retry"
   ],
   "note": ""
  },
  {
   "property": "C31",
   "status": "proved",
   "theorems": [
    "C31_order_irrelevant"
   ],
   "note": ""
  },
  {
   "property": "C32",
   "status": "proved",
   "theorems": [
    "C32_crash",
    "C32_torn_write_refuted",
    "C32_finish_after_failure_refuted"
   ],
   "note": "Crash between file-system effects, any calls valid or not; torn writes and finish after a failed set are refuted separately."
  },
  {
   "property": "C33",
   "status": "proved",
   "theorems": [
    "C33_tar_equals_directory",
    "C33_sparse",
    "C33_last_wins",
    "C33_packable"
   ],
   "note": ""
  },
  {
   "property": "C34",
   "status": "proved",
   "theorems": [
    "C34_same_result",
    "C34_empty_file_refuted"
   ],
   "note": "Empty files excluded as in the property; shown necessary."
  },
  {
   "property": "C35",
   "status": "partial",
   "theorems": [
    "C35_single_partial",
    "C35_several",
    "C35_refuted"
   ],
   "note": "Holds when the letters 'archive' occur once; refuted otherwise."
  },
  {
   "property": "C36",
   "status": "proved",
   "theorems": [
    "C36_layout",
    "C36_instance"
   ],
   "note": "For every accepted schema, with and without enumeration-typed fields."
  },
  {
   "property": "C37",
   "status": "proved",
   "theorems": [
    "C37_bits_required",
    "C37_value_range"
   ],
   "note": ""
  },
  {
   "property": "C38",
   "status": "proved",
   "theorems": [
    "C38_basic_type",
    "C38_other_names"
   ],
   "note": ""
  },
  {
   "property": "C39",
   "status": "proved",
   "theorems": [
    "C39_enumeration",
    "C39_decision",
    "C39_numbering_exists"
   ],
   "note": "Literals as parsed by the grammar; a negative value in an unsigned enumeration raises InvalidSignError instead of InvalidEnumValueError; for every order in which Python iterates the set of values."
  },
  {
   "property": "C40",
   "status": "proved",
   "theorems": [
    "C40_total",
    "C40_sparse"
   ],
   "note": "A declared enumerator using a generated UNKNOWN_VALUE_ name raises SymbolRedefinition."
  },
  {
   "property": "C41",
   "status": "proved",
   "theorems": [
    "C41_constants",
    "C41_instance",
    "C41_rejected"
   ],
   "note": ""
  },
  {
   "property": "C42",
   "status": "proved",
   "theorems": [
    "C42_schema",
    "C42_dependency_order",
    "C42_preorder"
   ],
   "note": "Any graph; node identity is Python object identity."
  },
  {
   "property": "C43",
   "status": "proved",
   "theorems": [
    "C43_resolution",
    "C43_missing",
    "C43_instance",
    "C43_shadowing"
   ],
   "note": "Every reference of every accepted schema; and what a MissingSymbol error means."
  },
  {
   "property": "C44",
   "status": "proved",
   "theorems": [
    "C44_paths",
    "C44_schema",
    "C44_insert",
    "C44_instance"
   ],
   "note": "Any tree made by creating, inserting and renaming nodes; and the tree of every accepted schema."
  },
  {
   "property": "C45",
   "status": "proved",
   "theorems": [
    "C45_target",
    "C45_instance",
    "C45_refuted"
   ],
   "note": "Schema identifiers never contain '@'; shown necessary."
  },
  {
   "property": "C46",
   "status": "partial",
   "theorems": [
    "C46_max_size",
    "C46_instance",
    "C46_refuted_signed"
   ],
   "note": "Exact minimum proved; addressability holds for unsigned referencing fields, refuted for signed ones."
  },
  {
   "property": "C47",
   "status": "partial",
   "theorems": [
    "C47_merge_partial",
    "C47_duplicates_partial",
    "C47_instance",
    "C47_refuted",
    "C47_declarations",
    "C47_contents",
    "C47_accepts",
    "C47_duplicates"
   ],
   "note": "Refuted when a definition has the path of a namespace (acceptance then depends on how definitions are spread, and the error may be an assertion). Otherwise proved for whole schemas: the declarations are valid in both or neither (C47_declarations), both are accepted or both refused (C47_accepts), every definition of every declaration is in both finished trees at the same path with the same contents (C47_contents), and equal paths raise SymbolRedefinition if every definition is fine by itself (C47_duplicates)."
  },
  {
   "property": "C48",
   "status": "partial",
   "theorems": [
    "C48_refuted",
    "C48_refuted_lost",
    "C48_partial",
    "C48_instance"
   ],
   "note": "Refuted in general (underscores in names; an archive's builder and a neighbour named like it); proved for names without underscores."
  },
  {
   "property": "C49",
   "status": "partial",
   "theorems": [
    "C49_parses_partial",
    "C49_whole_partial",
    "C49_instance",
    "C49_refuted"
   ],
   "note": "Proved for all schema texts without dotted namespaces: every embedded text and the whole rendering are again schema texts, and parse to exactly the declarations of the definitions they are about, one block each, in normal form (absolute names, explicit widths). The full fixed point is refuted by six accepted schemas (C49_refuted): texts that the generator itself rejects, or renders differently."
  },
  {
   "property": "C50",
   "status": "partial",
   "theorems": [
    "C50_independent_partial",
    "C50_mentions_partial",
    "C50_instance",
    "C50_refuted"
   ],
   "note": "Independence and contents proved for all pairs of schemas that do not nest definitions in definitions and do not use the name _builtin (an archive counts constants unused by structures among its dependencies, as the code does); refuted in the literal reading for archive resources, whose text lists such constants of the whole schema."
  },
  {
   "property": "C51",
   "status": "partial",
   "theorems": [
    "C51_reader",
    "C51_readers_agree_partial",
    "C51_python_record",
    "C51_writer_partial",
    "C51_same_bytes_partial",
    "C51_refuted",
    "C51_enum_refuted"
   ],
   "note": "The C++ reader is exact for every field and buffer; records written by either side read back in the other and have the same bytes. Refuted for unaligned unsigned 64-bit fields sharing their last byte (Python returns foreign bits) and for negative enumeration values (the C++ writer destroys neighbouring fields)."
  },
  {
   "property": "C52",
   "status": "partial",
   "theorems": [
    "C52_reader_partial",
    "C52_readers_agree_partial",
    "C52_python_record_partial",
    "C52_writer_partial",
    "C52_same_bytes_partial",
    "C52_refuted"
   ],
   "note": "Proved for every field that spans at most 8 bytes or starts in the structure's first byte; refuted otherwise (both macros use a wrong byte for the ninth byte)."
  },
  {
   "property": "C53",
   "status": "partial",
   "theorems": [
    "C53_reader_partial",
    "C53_readers_agree_partial",
    "C53_python_record_partial",
    "C53_refuted",
    "C53_last_byte_refuted"
   ],
   "note": "Proved for every field followed by at least one more bit of data, except signed 1-bit fields and signed fields inside a byte that do not start it; refuted for those and for a field ending with the last byte of the data."
  },
  {
   "property": "C54",
   "status": "partial",
   "theorems": [
    "C54_files_partial",
    "C54_bad_checksum",
    "C54_other_types",
    "C54_bad_length",
    "C54_terminates_partial",
    "C54_instance",
    "C54_prefix_refuted",
    "C54_long_directory_refuted",
    "C54_space_refuted",
    "C54_diverges_refuted"
   ],
   "note": "Proved for all well-formed tars whose regular files have no POSIX prefix field, whose long names belong to files and whose numbers end in NUL; each exception is refuted with a witness. Wrong checksums, other member types and odd lengths are proved to be rejected anywhere; termination is proved except for sizes near 2^64, where one header makes the reader loop for ever (proved)."
  },
  {
   "property": "C55",
   "status": "partial",
   "theorems": [
    "C55_read_past_end_refuted",
    "C55_past_end_partial",
    "C55_behind_partial"
   ],
   "note": "Refuted; the exact behaviour is proved: IndexError for single bits and for fields crossing into an extra byte, otherwise the missing bytes read as zeros."
  },
  {
   "property": "C56",
   "status": "partial",
   "theorems": [
    "C56_aligned_partial",
    "C56_zero_width_refuted"
   ],
   "note": "Refuted off byte boundaries (always raises) and at offset 0 (clears the first byte); proved at every other byte boundary."
  },
  {
   "property": "C57",
   "status": "partial",
   "theorems": [
    "C57_refuted",
    "C57_own_schema_partial",
    "C57_instance"
   ],
   "note": "Refuted for resources whose names differ only in case; proved when names are distinct in capitals and do not start with an underscore."
  },
  {
   "property": "C58",
   "status": "partial",
   "theorems": [
    "C58_slices_partial",
    "C58_raw_slices_refuted"
   ],
   "note": "Refuted for omitted bounds and negative positions; proved for explicit bounds inside the data and every step, with the exact result for an omitted start or stop."
  },
  {
   "property": "C59",
   "status": "partial",
   "theorems": [
    "C59_unterminated_partial",
    "C59_unterminated_refuted"
   ],
   "note": "Refuted; the exact behaviour is proved: only the byte at the position is decoded."
  },
  {
   "property": "C60",
   "status": "partial",
   "theorems": [
    "C60_any_number_partial",
    "C60_string_lists_refuted"
   ],
   "note": "Refuted for size 0, separators of several bytes and lists ending with an empty string; proved for every number (0 and negative numbers return all strings) and separator byte."
  },
  {
   "property": "C61",
   "status": "partial",
   "theorems": [
    "C61_directory_partial",
    "C61_selection_errors",
    "C61_tar_refuted"
   ],
   "note": "Directories proved; tar files refuted (AttributeError for every tar)."
  },
  {
   "property": "C62",
   "status": "partial",
   "theorems": [
    "C62_layouts_partial",
    "C62_modules_partial",
    "C62_instance",
    "C62_refuted"
   ],
   "note": "Proved for all pairs of schemas (archive level, resource level, and for the classes of the generated modules) that do not nest definitions in definitions, do not use the name _builtin and do not refer to the generator's own index structures; refuted without the last condition: vector<.n._builtin.multivector.IndexType8> and <...IndexType16> embed the same text."
  },
  {
   "property": "C63",
   "status": "partial",
   "theorems": [
    "C63_module_partial",
    "C63_instance",
    "C63_refuted"
   ],
   "note": "Refuted for namespaces starting with an underscore; proved for all schemas with distinct class names, plain namespace and resource names, no name _builtin, and no definition whose path is (part of) a namespace's path."
  },
  {
   "property": "C64",
   "status": "partial",
   "theorems": [
    "C64_usable_partial",
    "C64_instance",
    "C64_refuted",
    "C64_nested_partial",
    "C64_nested_instance"
   ],
   "note": "Proved end to end (declarations -> generated class -> builder -> files -> opened archive), with sub-archives to any depth (C64_nested_partial), under conditions on names and layouts that C63, C57, C06/C08 and C28 show necessary; refuted for a resource named like a multivector's index."
  },
  {
   "property": "C65",
   "status": "partial",
   "theorems": [
    "C65_nested_partial",
    "C65_nested_instance",
    "C65_evolution_partial",
    "C65_instance",
    "C65_refuted"
   ],
   "note": "Proved with sub-archives to any depth (C65_nested_partial) under the conditions of C62 and C64; refuted without the condition on index structures (values 1, 2 written as 8-bit read back as one 16-bit value 513)."
  },
  {
   "property": "C66",
   "status": "proved",
   "theorems": [
    "C66_range",
    "C66_optional"
   ],
   "note": "The buffer holds the following record and 8 bytes of padding, as the format prescribes."
  },
  {
   "property": "C67",
   "status": "partial",
   "theorems": [
    "C67_read",
    "C67_absent",
    "C67_directory",
    "C67_instance",
    "C67_twice_refuted"
   ],
   "note": "Proved for the tars of C54 with distinct paths; refuted for repeated paths (the first member wins; Python's reader takes the last, C33_last_wins)."
  },
  {
   "property": "C68",
   "status": "proved",
   "theorems": [
    "C68_parse",
    "C68_rejects",
    "C68_unambiguous",
    "C68_blanks",
    "C68_names",
    "C68_instance",
    "C68_rejected",
    "C68_surprises"
   ],
   "note": "Both directions, against a declarative grammar (GrammarSpec.v) over lexemes and their spelling; texts are unbounded. Documentation comments are dropped."
  },
  {
   "property": "C69",
   "status": "proved",
   "theorems": [
    "C69_constants",
    "C69_structures",
    "C69_enumerations",
    "C69_archives",
    "C69_nothing_else",
    "C69_text"
   ],
   "note": "For schemas that keep definitions and namespaces apart and do not use the name _builtin, as the property says (C69_inside shows the first condition is needed); C69_text starts from schema text. The maximum sizes and documentation of resources are not part of the statement (C42 has the sizes)."
  },
  {
   "property": "C70",
   "status": "proved",
   "theorems": [
    "C70_declarations",
    "C70_accepts",
    "C70_text"
   ],
   "note": "An equivalence: acceptance iff declarations_valid (over the parsed declarations) and names_valid (over the tree of declarations, where scopes are defined); C70_declarations shows the tree of declarations exists exactly when declarations_valid holds, C70_text starts from schema text, C70_rules breaks and repairs each rule. Same two conditions on schemas as C69."
  },
  {
   "property": "C71",
   "status": "proved",
   "theorems": [
    "C71_write",
    "C71_read",
    "C71_read_only",
    "C71_round_trip",
    "C71_python",
    "C71_stale",
    "C71_empty_schema"
   ],
   "note": "Both C++ storages (file, memory) as parameters of one model; writing streams as the code does (size placeholder, data, seek back, size, padding). C71_stale and C71_empty_schema show why the statement speaks of resources not read before and of non-empty schemas."
  },
  {
   "property": "C72",
   "status": "proved",
   "theorems": [
    "C72_files",
    "C72_python"
   ],
   "note": "C72_files for every flush limit and element type; C72_python relates it to payload_of/set_files of the Python builder via C51."
  },
  {
   "property": "C73",
   "status": "partial",
   "theorems": [
    "C73_grows_partial",
    "C73_shrinks_partial",
    "C73_view_bytes_partial",
    "C73_refuted"
   ],
   "note": "Refuted in full (C73_refuted): a new element after pop_back/resize starts with the removed element's bytes; an empty vector of overlapping elements is written as one element. Proved for histories without removal, for histories in which every new element is assigned completely, and for writing all other vectors."
  },
  {
   "property": "C74",
   "status": "proved",
   "theorems": [
    "C74_files",
    "C74_python",
    "C74_view",
    "C74_open",
    "C74_unknown",
    "C74_overflow"
   ],
   "note": "C74_files/C74_python/C74_open/C74_view/C74_unknown; C74_overflow shows what happens when the stated bound on the data is broken."
  },
  {
   "property": "C75",
   "status": "proved",
   "theorems": [
    "C75_iterate",
    "C75_elements",
    "C75_slices",
    "C75_slice_bytes"
   ],
   "note": ""
  },
  {
   "property": "C76",
   "status": "proved",
   "theorems": [
    "C76_open",
    "C76_unique",
    "C76_again",
    "C76_python",
    "C76_instance_size_unchecked"
   ],
   "note": "C76_open with C76_unique determines the result of opening completely from the files. C76_instance_size_unchecked records that the size of an instance resource is not checked."
  },
  {
   "property": "C77",
   "status": "proved",
   "theorems": [
    "C77_files",
    "C77_complete",
    "C77_contents",
    "C77_incomplete",
    "C77_existing"
   ],
   "note": "For storages that start an empty stream for a new name (both C++ storages). The calls range over all those of the generated builders; resource contents are arbitrary. Hypotheses of the calls: a resource is written once and no two resources share a file (C74_overflow shows what happens to data longer than the index can say)."
  },
  {
   "property": "C78",
   "status": "proved",
   "theorems": [
    "C78_write",
    "C78_read",
    "C78_unique",
    "C78_read_only",
    "C78_round_trip",
    "C78_cpp",
    "C78_python",
    "C78_rewrite_memory",
    "C78_stale",
    "C78_overflow"
   ],
   "note": "Both Rust storages as parameters of one model, overflow checks on or off. C78_read with C78_unique determines the result from the files. C78_rewrite_memory (the memory storage appends when a resource is written again), C78_stale and C78_overflow show why the statement has its conditions. A missing schema file is reported as an I/O error."
  },
  {
   "property": "C79",
   "status": "proved",
   "theorems": [
    "C79_files",
    "C79_python",
    "C79_vector",
    "C79_open",
    "C79_empty_refuted"
   ],
   "note": "C79_empty_refuted records what the statement excepts: Rust stores the empty sequence of overlapping structures as one zeroed structure and cannot open the empty resource Python leaves for it; and that elements written through the spare element are those a later grow returns. C79_python requires fields whose bits lie within 8 bytes (C52)."
  },
  {
   "property": "C80",
   "status": "proved",
   "theorems": [
    "C80_files",
    "C80_cpp",
    "C80_safe",
    "C80_view",
    "C80_iter",
    "C80_slice",
    "C80_overflow"
   ],
   "note": "C80_safe is an equivalence for arbitrary index and data contents; C80_overflow shows what happens when the stated bound on the data is broken."
  },
  {
   "property": "C81",
   "status": "proved",
   "theorems": [
    "C81_substring",
    "C81_python"
   ],
   "note": ""
  },
  {
   "property": "C82",
   "status": "proved",
   "theorems": [
    "C82_open",
    "C82_unique",
    "C82_ok",
    "C82_again",
    "C82_python"
   ],
   "note": "C82_instance shows each kind of failure."
  },
  {
   "property": "C83",
   "status": "proved",
   "theorems": [
    "C83_files",
    "C83_complete",
    "C83_incomplete",
    "C83_existing"
   ],
   "note": "Concrete session with interleaved calls in C83_instance."
  },
  {
   "property": "C84",
   "status": "proved",
   "theorems": [
    "C84_rust_cpp",
    "C84_iff",
    "C84_cpp_built"
   ],
   "note": "C84_iff is an equivalence; C84_differences lists concrete archives that only C++ opens."
  },
  {
   "property": "C85",
   "status": "proved",
   "theorems": [
    "C85_open",
    "C85_members",
    "C85_empty",
    "C85_rust",
    "C85_close",
    "C85_size"
   ],
   "note": "C85_open is an equivalence for success and for each error; C85_empty: an empty directory opens; C85_instance shows a sub-archive with capitals not being found."
  },
  {
   "property": "C86",
   "status": "partial",
   "theorems": [
    "C86_vector",
    "C86_slice",
    "C86_instance_raw",
    "C86_multivector_partial",
    "C86_refuted",
    "C86_range_counted"
   ],
   "note": "Vectors, slices, instances and raw data proved. Refuted for multivectors: the generated code has one object per type, so all elements of a type in a bucket show the last one (C86_refuted, exact behaviour in C86_multivector_partial), and GetSize is one too many; sentinels of range vectors are counted as elements (C86_range_counted)."
  },
  {
   "property": "C87",
   "status": "partial",
   "theorems": [
    "C87_lines",
    "C87_diff",
    "C87_context_partial",
    "C87_description_partial",
    "C87_nothing",
    "C87_refuted"
   ],
   "note": "Proved for differences whose number of lines is not a positive multiple of 64 (optimality of the difference for all texts); for the others the out-of-bounds write is proved (C87_description_partial, C87_refuted)."
  },
  {
   "property": "C88",
   "status": "proved",
   "theorems": [
    "C88_cpp",
    "C88_raw",
    "C88_python",
    "C88_schemas",
    "C88_others"
   ],
   "note": "Trigraphs (off in the GNU dialects and since C++17) and characters beyond one byte are not modelled."
  },
  {
   "property": "C89",
   "status": "partial",
   "theorems": [
    "C89_go",
    "C89_python",
    "C89_rust_partial",
    "C89_rust_refuted",
    "C89_cpp_partial",
    "C89_cpp_refuted"
   ],
   "note": "Go and Python proved for all comments. Rust: characterised exactly (C89_rust_partial, an iff), refuted by a block comment without stars (C89_rust_refuted). C++: proved for comments without joined lines inside block comments, refuted otherwise (C89_cpp_refuted)."
  },
  {
   "property": "C90",
   "status": "partial",
   "theorems": [
    "C90_get_partial",
    "C90_set_partial",
    "C90_rust_eq_partial",
    "C90_fill_partial",
    "C90_cpp_eq",
    "C90_agree_partial",
    "C90_built_partial",
    "C90_less",
    "C90_less_order",
    "C90_less_refuted",
    "C90_equal_refuted",
    "C90_slice",
    "C90_range_partial"
   ],
   "note": "Rust: for fields within 64 bits of the byte they start in or starting in the first byte (elsewhere the accessors are wrong, C52_refuted); ranges likewise. Full agreement of Rust's and C++'s == refuted by unused bits (C90_equal_refuted); C++'s < is no strict weak order (C90_less_refuted)."
  },
  {
   "property": "C91",
   "status": "partial",
   "theorems": [
    "C91_enumeration_partial",
    "C91_refuted"
   ],
   "note": "All enumerations but signed ones of one bit (C91_refuted), at the positions the Rust accessor handles (C52)."
  },
  {
   "property": "C92",
   "status": "proved",
   "theorems": [
    "C92_nested",
    "C92_tar",
    "C92_instance"
   ],
   "note": "By induction over the nesting. The builder class has no support for sub-archives, so the user makes the builders of the subdirectories; directories only, or a tar of them without empty files."
  },
  {
   "property": "C93",
   "status": "partial",
   "theorems": [
    "C93_rust_constant_partial",
    "C93_rust_enumerator_partial",
    "C93_rust_groups",
    "C93_bool_refuted",
    "C93_cpp_constant_partial",
    "C93_cpp_enumerator_partial",
    "C93_cpp_refuted",
    "C93_go_constant",
    "C93_schema_constant",
    "C93_instance"
   ],
   "note": "Go and the generated schema: all constants. Rust: all but type bool (refuted: does not compile). C++: exactly the numbers below 2^63 in size (refuted for the others). Readers of numbers of the three languages are specified in NumberSpec.v from the language references. Enumerations do not exist in Go."
  },
  {
   "property": "C94",
   "status": "partial",
   "theorems": [
    "C94_rust_struct_partial",
    "C94_rust_enum_partial",
    "C94_rust_constants_partial",
    "C94_capitals_kept",
    "C94_rust_types_partial",
    "C94_rust_archive_partial",
    "C94_rust_modules_partial",
    "C94_cpp_struct_partial",
    "C94_cpp_archive_partial",
    "C94_cpp_namespace_partial",
    "C94_cpp_schemas_partial",
    "C94_rust_refuted",
    "C94_cpp_refuted",
    "C94_instance"
   ],
   "note": "Refuted in full (C94_rust_refuted, C94_cpp_refuted: accepted schemas whose code cannot compile). The partial theorems give, scope by scope, conditions on the names of the schema under which all declared names are distinct identifiers and no keywords; C94_instance meets them all with one schema text."
  },
  {
   "property": "C95",
   "status": "partial",
   "theorems": [
    "C95_meant",
    "C95_rust_types",
    "C95_rust_constants_partial",
    "C95_cpp",
    "C95_fields",
    "C95_rust_refuted",
    "C95_instance"
   ],
   "note": "Types and enumerations in Rust and everything in C++ proved. Rust constants: proved for names in capitals (C95_rust_constants_partial); refuted for names with small letters (C95_rust_refuted), which are declared in capitals but referred to with the schema's spelling. No namespace or definition may be called `super` in Rust. Which references each template writes is not modelled, only the functions that make the paths."
  },
  {
   "property": "C96",
   "status": "partial",
   "theorems": [
    "C96_finds_partial",
    "C96_only_partial",
    "C96_ambiguous",
    "C96_no_root",
    "C96_shows_partial",
    "C96_instance",
    "C96_refuted"
   ],
   "note": "Proved: archives of the only outermost namespace are found by name, and only they (C96_finds_partial, C96_only_partial, for schemas with distinct generated class names); with two outermost namespaces, or only namespaces mentioning builtin, every name is refused (C96_ambiguous, C96_no_root); an archive the inspector opens shows what was written, for undotted namespaces and distinct class names on both sides (C96_shows_partial). That every archive the generated module opens is also opened by the inspector is false: C96_refuted has five small schemas (types or constants of another namespace, a namespace mentioning builtin, nested namespaces, two constants in one field)."
  },
  {
   "property": "C97",
   "status": "partial",
   "theorems": [
    "C97_moves",
    "C97_compares",
    "C97_distance_partial",
    "C97_distance_behind",
    "C97_distance_refuted",
    "C97_loops",
    "C97_lower_bound",
    "C97_instance"
   ],
   "note": "Proved: moves, comparisons, loops in both directions and binary search (C97_moves, C97_compares, C97_loops, C97_lower_bound); the distance to an earlier or the same iterator (C97_distance_partial). The distance to a later iterator is 2^64 divided by the structure size, minus the positions between (C97_distance_behind): right only for structures of one byte, so the full statement is false (C97_distance_refuted). Moving a pointer outside its array is modelled as arithmetic modulo 2^64."
  },
  {
   "property": "C98",
   "status": "proved",
   "theorems": [
    "C98_copy",
    "C98_hash",
    "C98_hash_refuted",
    "C98_new"
   ],
   "note": "C98_hash_refuted shows the reading that is not promised: equal fields do not imply equal hashes, as bits of no field count."
  },
  {
   "property": "C99",
   "status": "proved",
   "theorems": [
    "C99_sparse",
    "C99_read",
    "C99_python",
    "C99_store",
    "C99_open",
    "C99_last_wins",
    "C99_read_only",
    "C99_instance"
   ],
   "note": "The members are those reported by the tar crate, which is trusted; its errors are not modelled. A member [a/../b] and the like is covered by C99_last_wins and C99_sparse only. C99_store connects the storage with the model of opening archives (C82)."
  }
 ]
}