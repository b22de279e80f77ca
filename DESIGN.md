# flatdata in Rocq: design

Technique: shallow, computable Gallina models of the code, branch by branch, with exceptions as values
(`res A := Ok a | Err e`).  Python integers are `Z` (unbounded; the two's-complement bit operations of `Z`
coincide with Python's), byte strings are `list Z`, strings are Coq `string`s.  Mutation becomes "returns
the new value"; file-system effects are an explicit list of operations.  Every model definition cites the
file and lines it models and says where it simplifies.  Specifications are in separate `*Spec.v` files that
do not use the model's helpers beyond its data types; proofs are in `*Facts.v` / `*Thms.v`; the property
theorems, named `Cnn_...`, are in `Props_*.v`, next to instances (`_instance`) showing that the hypotheses
are met by concrete, non-trivial cases, and to refutations (`_refuted`) where the code does not do what the
property says.  A theorem named `_partial` proves a restriction of the property; the property's full
statement is in properties.jsonl and what is missing is in the note below.

## Model files (rocq/theories) and the code they model

| model | code | specification |
|---|---|---|
| `PyBase.v`, `PyText.v` | Python primitives: lists, slices, int/bytes, str methods | `Spec.v`, `SliceSpec.v` |
| `DataAccess.v` | flatdata-py data_access.py | `Spec.v` |
| `Structure.v` | structure.py, record packing of archive_builder.py | `StructSpec.v` |
| `Resources.v`, `Utf8.v` | resources.py (Instance, RawData, Vector, Multivector, numpy views) | `ResourceSpec.v`, `SliceSpec.v` |
| `Builder.v` | resource_storage.py, file_resource_writer.py, archive_builder.py | `ArchiveSpec.v`, `HistorySpec.v` |
| `Archive.v` | archive.py, file_resource_storage.py, tar_archive_resource_storage.py | `OpenSpec.v`, `TarSpec.v` |
| `Writer.v` | flatdata_writer.py, inspector.py (selection and opening) | in Props |
| `Grammar.v` | generator grammar.py and the parts of pyparsing it uses | `GrammarSpec.v` |
| `GenTypes.v` | generator basictype.py, constant.py, enumeration*.py | `GenSpec.v` |
| `GenTree.v` | tree/nodes/*.py (node operations, references) | `GenAstSpec.v` |
| `GenTraversal.v` | tree/traversal.py | `GraphSpec.v` |
| `GenBuild.v` | tree/builder.py, resolver.py, create functions of all node classes | `GenAstSpec.v`, `DeclSpec.v`, `AcceptSpec.v` |
| `GenFlatdata.v` | generators/flatdata.py, templates/flatdata/*, SyntaxTree.schema, extract_subtree | `EmbedSpec.v`, `SameSpec.v`, `NormSpec.v` |
| `GenPython.v` | generators/python.py, templates/py/*, and executing the generated module | `GenOutSpec.v`, `UsableSpec.v` |
| `Codecs.v` | C++ Reader.h / Writer.h, Rust flatdata_read_bytes! / flatdata_write_bytes!, Go bit readers | `CodecSpec.v` |
| `CppTar.v` | C++ TarReader.cpp, MemoryMappedTarFileStorage.h, TarArchiveResourceStorage.h | `CppTarSpec.v` |
| `Streams.v`, `CppStore.v` | C++ ResourceStorage.h, File/MemoryResourceStorage.h, ResourceHandle.h, ExternalVector.h, Vector.h, MultiVector.h, ArrayView.h, MultiArrayView.h | `StoreSpec.v`, `ArchiveSpec.v` |
| `CppArchive.v` | C++ Archive.cpp, ArchiveBuilder.cpp, Archive.h, generated archives and builders (templates/cpp/archive.jinja2) | `CppArchiveSpec.v`, `CppSessionSpec.v` |
| `RustStore.v` | Rust storage.rs, filestorage.rs, memstorage.rs, vector.rs, multivector.rs, arrayview.rs, multiarrayview.rs, rawdata.rs, templates/rust/{structure,index,variadic}.jinja2 | `RustSpec.v` |
| `RustArchive.v` | Rust archives and builders: templates/rust/archive.jinja2, storage.rs:132-285 | `RustArchiveSpec.v`, `RustSessionSpec.v`, `CrossSpec.v` |
| `GoArchive.v` | Go library and generated Go archives: flatdata-go/flatdata/resource.go, templates/go/*.jinja2 | `GoSpec.v` |
| `GenLiterals.v` | the literals for schemas in templates/cpp, rust, go, py and the filters escaping them | `LiteralSpec.v` (how the languages read literals) |
| `NestedSpec.v` (`directory`) | directories of archives with sub-archives, written by the builders of each type (archive_builder.py:119-125: `subarchive` does nothing) | `NestedSpec.v` |
| `GenEngine.v` | engine.py:58-102, inspector.py:74-80 | from the text of a schema to the class of one archive |
| `CppIter.v` | C++ iterators over arrays (ArrayViewIterator.inl, ArrayView.inl:125-137), the algorithm of `std::lower_bound` on them, `copy_struct` (Copy.h), `hash_struct` (Hash.h), `Struct` (Struct.h) | `IterSpec.v` (places of an array) |
| `RustTar.v` | flatdata-rs/lib/src/tarstorage.rs, with the components of `std::path` on Unix; the `tar` crate is trusted for the list of members | `RustTarSpec.v`, `TarSpec.v` (a tar of a tree) |
| `GenDot.v` | generators/dot.py, templates/dot/*, the binding functions of tree/syntax_tree.py; texts as clusters, nodes with ports and arrows, without colours and fonts | `DotSpec.v` |
| `RustBuild.v` | flatdata-rs/lib/src/generator.rs:116-170 (walking the schemas, output paths, running the generator) and flatdata-generator app.py:53-81; a file system as a map from paths | `BuildSpec.v` |
| `MergeBuiltins.v`, `MergeNames.v` | what append_builtins adds, by paths; trees with the same kinds at the same paths have the same meaning of names (C47) |
| `OrderSpec.v` | vocabulary for C102: schemas with the same definitions |
| `GenPaths.v` | paths of types and constants in generated Rust and C++ code (generators/rust.py:76-88, generators/cpp.py:31-44, tree/nodes/node.py:78-90) | `PathSpec.v` (how Rust and C++ read a path in a module) |
| `GenNames.v` | names declared by generated Rust and C++ code (generators/rust.py, generators/cpp.py, templates/rust, templates/cpp) | `NameSpec.v` (identifiers, keywords and names taken by the templates), `NameFacts.v`, `Props_Names.v` |
| `GenNumbers.v` | numbers in generated code (generators/rust.py:34-42, constant and enumeration templates) | `NumberSpec.v` |
| `GenStructs.v` | the members, comparison and copying of generated Rust and C++ structures (templates/rust/structure.jinja2, templates/cpp/structure.jinja2) | `StructOpsSpec.v` |
| `GenDocs.v` | filters for comments: to_go_doc, to_python_doc, _rust_doc (its regular expression as functions), cpp_doc, jinja2's indent | `DocSpec.v` |
| `CppDiff.v` | flatdata-cpp/src/Archive.cpp:63-228: lines of a text, the table of distances, the way back, the excerpt with context | `DiffSpec.v` |

`Conformance_*.v` evaluate the repository's own test vectors on the models (evidence that the models are
faithful; not counted as proofs of properties).

## How the proofs go

* Bit fields (C01-C07, C55): a read is `le (slice) = le / 2^8k mod 2^8m`; a write adds `(v mod 2^w) 2^off`
  to the little-endian value of the buffer.  Records (C08, C09): induction over the fields with invariant
  `le buf < 2^(next offset)`.
* Containers (C10-C24, C58-C60): induction over records and buckets on framed byte strings.
* Archives (C25-C35, C61): opening is a fold over the resources of a storage tree; the builder is a state
  machine that emits file operations; a crash is a prefix of that list; C28 composes the container round
  trips; C33/C34 relate two representations of a directory tree.
* Generator (C36-C50, C57, C62-C65): invariants of trees through every pass of the builder; depth-first
  search with explicit fuel and a proof that it suffices; rendering as lines of words, with a decoding
  argument for C62.  Python's iteration order over sets is a parameter (any permutation).
* Schema text (C68): a recursive-descent parser on characters, proved sound and complete nonterminal by
  nonterminal for a grammar on lexemes; ordered choice is shown not to lose texts.
* Acceptance (C70): each pass succeeds exactly when its rules hold; the later passes are related to the tree of
  declarations by a simulation (`AcceptCarry.ksim`) that keeps what the rules look at.
* Other languages (C51-C54, C66, C67): loops as folds over bytes, related to the same specification of the
  bits / of the tar format as the Python code.
* C++ archives (C76-C77): opening is characterised as a relation between files and the object (`shows`), proved to be functional; a
  building program is a sequence of calls, its meaning (`does`) the list of resources it wrote; an invariant relates every open vector
  to its stream for any interleaving, and a flush that is nothing or more than a block shows that unclosed vectors cannot be read.
* Go archives (C85, C86): opening is proved to give an error iff the files are as `gfails` says (induction over nested archives), and the
  getters to give the bits of the stored record by the exactness of the Go reader (C53) at the position of each element; the multivector's
  shared element objects are modelled as a mutable list of positions, one per type.
* Difference of schemas in C++ (C87): the table holds the least cost for every pair of prefixes (`entry_least` by induction on scripts,
  `backtrack_facts` on the sum of the positions); the masks are characterised by positions (`near`), the printed text by a relation.
* Schemas in literals (C88): escaping is a character-wise encoding (`enc`), read back by induction; raw literals by the position of the
  first delimiter; the characters of schema texts are known from C46's tree invariants (`GenInk.v`).
* Nested archives (C92, and C64, C65 with sub-archives): induction over the contents; in each directory the files of C28 and the subdirectories do not meet.
* Numbers in generated code (C93): the groups of three by induction over the digits; the text without underscores is the decimal text, whose value is known from C49.
* Names (C94): every scope is the list of the names declared in it; `flat` (letters in small, no underscores) is invariant under all the changes of case the generators make, so names that differ in it stay distinct; the names added by templates are told apart by first letter, prefix or suffix.
* Inspector and engine (C96): EngineSpec says what an outermost namespace is. The children of a finished root are exactly the outermost namespaces of the schema (EngineFacts.final_top), so the search for one user namespace is a statement about the schema; the class is then found by C63. What is opened: the stored text denotes a second schema (C49), which gives the same archive up to comments and spelling (C65), and the directory shows its contents (C92, C65_nested); the signature and schema files are the only ones of their kind in the directory.
* C++ iterators and single structures (C97, C98): addresses are integers, the mixed `size_t`/`ptrdiff_t` arithmetic is written with its reductions modulo 2^64; an array is assumed inside the memory and no larger than PTRDIFF_MAX, so that reductions vanish (except in the one wrong difference). Loops and the binary search by induction on the number of structures. Copies: the bits of the structure are those of the source, then C51.
* Rust tar storage (C99): a tar of a tree as for C33; every path, in each spelling, has the components of the node it stands for, so the map from components to ranges is the tree. Archives: the storage gives the answers of a store with the files of the tree (C99_store), then C82.
* Diagrams (C100): the drawing, by induction on the tree, has exactly the clusters and nodes of the places below it; the arrows, archive by archive in dependency order, are those of the explicit references. An explicit reference's field belongs to its structure because both names are looked up in the same namespace (archives contain no structures); identifiers are paths, which '_' for '.' keeps apart when underscores only begin names. What is written on each part is proved along the same induction (DotLabels.v).
* The build helper (C101): what one schema changes, then induction over the walk; later schemas never touch earlier outputs because mirrored paths are injective and end in .rs.
* Merged namespaces (C47): `append_builtins` is characterised by the paths and kinds it adds, independently of the order in which multivectors are visited; so the declared trees of the split and the joined schema have the same kinds at the same paths, names mean the same in both (`names_valid_alike`), and C70 gives equal acceptance; C69 gives equal contents.
* Order of declarations (C102): as for C47, with the declared trees of any two schemas that have the same definitions per namespace.
* Sets (C103): results of the builder with two iteration orders are compared step by step; only the check of the enumeration values sees the order, and it succeeds exactly if every value fits, which is a property of the set.
* Layout (C102): the finished tree keeps the places of the declared one (AcceptCarry), so a field's reference to an enumeration is, in both trees, the same name in the same place; it means the same place (MergeNames), where `alike` puts the same enumeration; sizes and offsets follow from the widths (C36).
* Paths (C95): a path of names without colons has one reading (splitting at `::`); names of a finished tree are words and not empty, a node is determined by the names above it, and `super` is written once for every namespace around the current definition, by the depth of its location.
* Structures in Rust and C++ (C90, C91): on top of C52 and C40, bit by bit; equality of members and unused bits is equality of bytes.
* Comments in code (C89): line-wise characterisation of the filters; for C++ a model of line splicing and comment skipping against the
  grammar's own definition of comments (`GrammarSpec.v`).
* Rust archives (C82-C84): opening is related to file contents by `opens_as`, proved total and functional by induction over the nested
  schema; builder sessions keep an invariant relating the storage to what was asked for (one step lemma per call); agreement with C++ is
  proved between the two specifications, not the two programs.
* Rust library (C78-C81): as for C++; the result of a read is a relation on file contents (`reads_as`) proved total and functional;
  reading a bucket is characterised for arbitrary index bytes.
* C++ library (C71-C75): files are byte strings with open streams (cursors) on them; an open handle is described by
  what is already in the file and what is still buffered, and every operation keeps that description.

## Trusted base

* Coq 8.16.1's kernel, including `vm_compute`, and its standard library.  `Print Assumptions` says "Closed
  under the global context" for every property theorem: no axiom is used.  (A listing of all axioms of the
  loaded libraries mentions `Coq.ssr.ssrunder.*`, which no theorem uses.)  No axioms, admits, functors or
  module types are defined here.
* That the models are what the code does: the comments of each definition give the lines, and mutation tests
  of the models (seeded/LOG.jsonl, tools/mutate.py, tools/mutants*.py) show that the theorems constrain them.
* The semantics attributed to Python, C++, Rust, Go, jinja2 and pyparsing constructs in those comments.

## Not modelled

* pandas / numpy rendering beyond field decoding, `__repr__` texts, logging, command-line parsing (app.py,
  the scripts' argparse), the interactive prompt of the inspector; mmap and the operating system beyond
  whole-file contents and a prefix-of-operations crash model (torn writes are treated in C32 separately);
  memory exhaustion and recursion limits.
* Of the C++, Rust and Go templates: what the generated structures, enumerations, constants, documentation,
  names and paths are is modelled (Gen*.v); that the remaining text of the templates (includes, derive lines,
  formatting code, descriptions) compiles is not.  The layout of fields in generated code is that of the same
  tree attributes as Python's. 
* C++ `MemoryResourceStorage` and `describe`; C++ `Writer` for optional members (does not compile when
  instantiated); C++ debug statistics; Rust `Debug`/`describe` output.
* Generator comments (`doc`) are dropped except where their text matters: C35, C49 and C89.

## Findings (all stated as theorems named `_refuted`)

* C02/C05/C08/C51: unsigned 64-bit fields at unaligned offsets read foreign bits; writing over non-zero bits OR-s.
* C03: a 1-bit signed field holding -1 reads back as 1.
* C14/C16/C17: truncated files are accepted; non-byte index widths overflow silently; negative multivector indexes misbehave.
* C22/C26: empty containers vanish at archive level; an optional multivector lacking only its data raises.
* C25: an empty schema file inside a tar disables the schema check; index schemas are never checked.
* C85/C86: Go never reads archive signatures and ignores missing mandatory resources, lower-cases the directories of sub-archives, shares one object per type in multivector buckets and counts sentinels.
* C87: C++ writes one bit behind a vector when it describes a mismatch (undefined for 64, 128, ... lines) and drops an unchanged last line.
* C93: Rust: constants and enumerations of type bool are accepted by the generator and give code that does not compile (`pub const C: bool = 1;`). C++: `u64` constants from 2^63 on and the smallest `i64` give decimal literals without a type..
* C94: Rust: accepted schemas whose generated code does not compile: fields `new`, `set_a` next to `a`, `type` next to `type_`, `async`, `fill_from`, `_`; two fields with `@range(r)` of the same name; enumerators that differ in case or underscores only, or are `_1` or `SELF`; constants `AbCdEf` and `AbCdef`; archive `A` next to structure `ABuilder`; multivectors of the same name in two archives of a namespace, or named like a structure; structures `schema` and `loop`; archive `Match`; resources `type`, `open`, `storage`, or `r` next to `R`..
* C94: C++: accepted schemas whose generated code does not compile: fields `name`, `data`, `class`, `stream`, `ab` next to `aB`, `a` next to `AType`; enumerator `and`; resources `name`, `open`, `delete`, `a_b` next to `a__b`, `a` next to `m_a`, `a_reader` or a sub-archive `set_a`; archive `A` next to structure `ABuilder`, structure `A` next to `AMutator`, structure `to_string`; structure `A__r` next to an archive `A` with resource `r`..
* C95: Rust: a constant whose name has small letters (`const u8 Nothing`) is declared in capitals (`NOTHING`) but used by `@optional` as `super::n::Nothing`; the generated code does not compile..
* C96: The inspector (and the command line writer) can not open archives that the generated module opens: if a structure, enumeration or constant of another outermost namespace is in the stored schema (also constants that the archive does not use: every constant of the whole schema is stored with every archive), if the namespace contains the word builtin, if the archive is in a nested namespace (the stored schema is not accepted by the parser: `namespace a { namespace b {`), or if the stored schema orders two constants differently when it is generated again (the archive is refused as a schema mismatch). C96_refuted..
* C97: C++: the difference of two array iterators, the second being the later one, divides an unsigned number: for structures of two bytes `begin - (begin + 1)` is 2^63 - 1, not -1. Algorithms that only ask for last - first are not affected..
* C100: Diagrams: a resource bound by a resource that is itself bound has its arrows start at a node that is not drawn; a resource that binds itself is not drawn, and a reference to it makes the dot generator fail (RecursionError) for an accepted schema; `b_c` in archive `A` and `c` in archive `A_b` are drawn as one; the type of a field of `n`'s structure that is the enumeration E of namespace `nm` is shown as `m.E`.
* C101: Rust build helper: a folder called `x.flatdata` is passed to the generator as if it were a schema, and the build fails; likewise `a.flatdata` next to a folder `a.rs` with schemas.
* C91: Rust: a signed enumeration of one bit with the values 0 and -1 is accepted; reading a set bit transmutes 1, which is no variant: undefined behaviour.
* C90: C++: operator< of structures (all members smaller) is no strict weak order; operator== compares unused bits, Rust's does not.
* C89: Rust: a line of a block comment that does not start with a star becomes code; C++: a block comment with a backslash-newline between star and slash ends early.
* C32: finish after a failed set leaves an archive that opens without the resource / with torn data.
* C35/C61: the writer's archive-name search is misled by the letters 'archive'; the inspector fails on every tar.
* C46: the size limit of a resource addressed by a signed field is not addressable.
* C47/C63: a namespace with the path of a definition is merged into the definition.
* C48/C57: flattened class names and upper-cased schema constants collide.
* C50/C62: embedded texts contain unrelated constants; references to generator-internal index structures vanish from them.
* C51: the C++ writer destroys neighbouring fields for negative enumeration values.
* C52/C53: Rust macros use a wrong ninth byte; Go mis-reads some signed fields and reads past the end.
* C54/C67: the C++ tar reader ignores the POSIX prefix, mis-assigns long names of directories, rejects space-terminated numbers, can be made to loop for ever by one header, and takes the first of repeated members where Python takes the last.

## Properties
* **C01** Reading a bit field returns exactly its bits. Status: proved. Exact value of every in-bounds field, read as int (multi-bit) or bool-like (1 bit). Theorems: `C01_read_exact`, `C01_read_bool`.
* **C02** Reading an unaligned unsigned 64-bit field returns a 64-bit value. Status: partial. False for unsigned 64-bit fields at bit offsets not divisible by 8 (refuted with a witness); proved for all other offsets. Theorems: `C02_read_u64_refuted`, `C02_read_u64_partial`.
* **C03** A written value is read back. Status: partial. write then read is proved for all layouts except signed 1-bit fields (refuted: -1 reads back as 1). Theorems: `C03_write_read`, `C03_write_read_clear_field`, `C03_signed_one_bit_refuted`.
* **C04** Out-of-range values wrap modulo 2^width. Status: proved. Values out of range wrap modulo 2^width (exact result). Theorems: `C04_write_wraps`.
* **C05** Writing a field leaves every other bit of the buffer unchanged. Status: partial. Refuted in general (writing OR-s into the buffer / clears only part); exact effect of a write is proved for every buffer. Theorems: `C05_other_bits_refuted`, `C05_other_bits_partial`, `C05_write_exact_effect`.
* **C06** Writing fields in ascending order into a zeroed record never disturbs earlier fields. Status: proved.  Theorems: `C06_ascending_writes`, `C06_later_writes_preserve`.
* **C07** In-bounds accesses never raise. Status: proved. In-bounds never raise, out-of-bounds writes always raise IndexError. Theorems: `C07_read_in_bounds`, `C07_write_in_bounds`, `C07_write_out_of_bounds`.
* **C08** A structure packs into its declared size and unpacks to the same values. Status: partial. Proved for all layouts without an unaligned u64 that shares its last byte with a later field; refuted for those. Theorems: `C08_pack_unpack`, `C08_unaligned_u64_refuted`.
* **C09** A structure view only depends on its own bytes. Status: partial. Proved without unaligned u64 fields; refuted with them. Theorems: `C09_view_local`, `C09_unaligned_u64_refuted`.
* **C10** Resource framing. Status: proved.  Theorems: `C10_framing`, `C10_exact_effect`.
* **C11** Vector round trip. Status: proved.  Theorems: `C11_vector_roundtrip`.
* **C12** Vector indexing is list indexing. Status: proved.  Theorems: `C12_indexing`.
* **C13** Vector slices are list slices. Status: proved.  Theorems: `C13_slices`, `C13_list_slice_plain`, `C13_list_slice_reverse`, `C13_list_slice_full`.
* **C14** A truncated or oversized vector is never opened silently. Status: partial. The checks that exist are proved; truncated files are refuted to be rejected. Theorems: `C14_truncated_refuted`, `C14_open_checks_partial`.
* **C15** Multivector round trip. Status: proved.  Theorems: `C15_multivector_roundtrip`.
* **C16** A multivector too big for its index is rejected. Status: partial. Overflow of byte-sized indexes raises; refuted for index widths that are not a whole number of bytes. Theorems: `C16_index_overflow_partial`, `C16_sub_byte_index_refuted`.
* **C17** Multivector indices behave like list indices. Status: partial. Refuted for negative indexes; proved for non-negative ones. Theorems: `C17_negative_index_refuted`, `C17_indexing_partial`.
* **C18** Raw data round trip. Status: proved.  Theorems: `C18_raw_roundtrip`.
* **C19** sub_str returns the string up to the next separator. Status: proved.  Theorems: `C19_sub_str`, `C19_nul_terminated`, `C19_text`.
* **C20** sub_str_list / sub_str_array split consecutive strings. Status: proved.  Theorems: `C20_sub_str_array`, `C20_sub_str_list`.
* **C21** Instance round trip. Status: proved.  Theorems: `C21_instance_roundtrip`.
* **C22** Empty containers read back as empty containers. Status: partial. Refuted at archive level for every archive (empty containers become None); proved below the archive object. Theorems: `C22_empty_containers_refuted`, `C22_empty_resources_partial`.
* **C23** Structure iteration follows declaration order. Status: partial. Refuted (iteration order is that of a set); proved up to permutation. Theorems: `C23_iteration_order_refuted`, `C23_iteration_order_partial`.
* **C24** Slice to numpy returns exactly the selected rows. Status: partial. numpy conversion modelled for fields up to 64 bits; refuted beyond. Theorems: `C24_to_numpy_partial`, `C24_limit_refuted`.
* **C25** Schema verification on open. Status: partial. Proved at every nesting depth for non-empty stored schemas, with the exact exception; refuted for empty schema files in tars. Index schemas are never checked (proved). Theorems: `C25_schema_verified_partial`, `C25_mismatch_error`, `C25_empty_schema_refuted`, `C25_index_schema_unchecked`.
* **C26** Missing resources. Status: partial. Required resources, exact errors and absent optional ones proved; refuted for optional multivectors lacking only their data. Theorems: `C26_required_present`, `C26_missing_error`, `C26_optional_absent`, `C26_partial_optional_refuted`, `C26_optional_no_data_error`.
* **C27** Archive accessors reflect the storage at open time and are stable. Status: proved.  Theorems: `C27_accessors`, `C27_only_mentioned_files`.
* **C28** End-to-end: what the builder writes the archive reader reads. Status: proved. All archive types without sub-archives (the Python builder cannot write sub-archives). Theorems: `C28_end_to_end`.
* **C29** Each resource can be set at most once and unknown resources are rejected without effect. Status: proved. For archive types whose resources have distinct files; a counterexample is given for types where they coincide. Theorems: `C29_unknown`, `C29_set_once`, `C29_index_clash_refuted`.
* **C30** Records are validated before any payload is written. Status: proved.  Theorems: `C30_rejected`, `C30_retry`.
* **C31** The order of set calls does not matter. Status: proved.  Theorems: `C31_order_irrelevant`.
* **C32** Crash prefixes never open with wrong data. Status: proved. Crash between file-system effects, any calls valid or not; torn writes and finish after a failed set are refuted separately. Theorems: `C32_crash`, `C32_torn_write_refuted`, `C32_finish_after_failure_refuted`.
* **C33** Tar and directory storages are equivalent. Status: proved.  Theorems: `C33_tar_equals_directory`, `C33_sparse`, `C33_last_wins`, `C33_packable`.
* **C34** An archive opens identically from a directory and from a tar. Status: proved. Empty files excluded as in the property; shown necessary. Theorems: `C34_same_result`, `C34_empty_file_refuted`.
* **C35** The writer derives the archive name from the schema. Status: partial. Holds when the letters 'archive' occur once; refuted otherwise. Theorems: `C35_single_partial`, `C35_several`, `C35_refuted`.
* **C36** Structure layout is gap-free, ordered and non-overlapping. Status: proved. For every accepted schema, with and without enumeration-typed fields. Theorems: `C36_layout`, `C36_instance`.
* **C37** bits_required is exact. Status: proved.  Theorems: `C37_bits_required`, `C37_value_range`.
* **C38** Basic types reject widths beyond their storage. Status: proved.  Theorems: `C38_basic_type`, `C38_other_names`.
* **C39** Enumerations assign unique, in-range, auto-incremented values. Status: proved. Literals as parsed by the grammar; a negative value in an unsigned enumeration raises InvalidSignError instead of InvalidEnumValueError; for every order in which Python iterates the set of values. Theorems: `C39_enumeration`, `C39_decision`, `C39_numbering_exists`.
* **C40** Enumerations are total. Status: proved. A declared enumerator using a generated UNKNOWN_VALUE_ name raises SymbolRedefinition. Theorems: `C40_total`, `C40_sparse`.
* **C41** Constants fit their type and the fields that refer to them. Status: proved.  Theorems: `C41_constants`, `C41_instance`, `C41_rejected`.
* **C42** Dependency order and cycle detection. Status: proved. Any graph; node identity is Python object identity. Theorems: `C42_schema`, `C42_dependency_order`, `C42_preorder`.
* **C43** Name resolution picks the innermost declaration. Status: proved. Every reference of every accepted schema; and what a MissingSymbol error means. Theorems: `C43_resolution`, `C43_missing`, `C43_instance`, `C43_shadowing`.
* **C44** Tree paths identify nodes. Status: proved. Any tree made by creating, inserting and renaming nodes; and the tree of every accepted schema. Theorems: `C44_paths`, `C44_schema`, `C44_insert`, `C44_instance`.
* **C45** References survive renaming of separators. Status: proved. Schema identifiers never contain '@'; shown necessary. Theorems: `C45_target`, `C45_instance`, `C45_refuted`.
* **C46** Maximum resource size from explicit references. Status: partial. Exact minimum proved; addressability holds for unsigned referencing fields, refuted for signed ones. Theorems: `C46_max_size`, `C46_instance`, `C46_refuted_signed`.
* **C47** Namespace declarations merge. Status: partial. Refuted when a definition has the path of a namespace (acceptance then depends on how definitions are spread, and the error may be an assertion). Otherwise proved for whole schemas: the declarations are valid in both or neither (C47_declarations), both are accepted or both refused (C47_accepts), every definition of every declaration is in both finished trees at the same path with the same contents (C47_contents), and equal paths raise SymbolRedefinition if every definition is fine by itself (C47_duplicates). Theorems: `C47_merge_partial`, `C47_duplicates_partial`, `C47_instance`, `C47_refuted`, `C47_declarations`, `C47_contents`, `C47_accepts`, `C47_duplicates`.
* **C48** Distinct definitions get distinct generated Python names. Status: partial. Refuted in general (underscores in names; an archive's builder and a neighbour named like it); proved for names without underscores. Theorems: `C48_refuted`, `C48_refuted_lost`, `C48_partial`, `C48_instance`.
* **C49** Normalised schemas are a fixed point. Status: partial. Proved for all schema texts without dotted namespaces: every embedded text and the whole rendering are again schema texts, and parse to exactly the declarations of the definitions they are about, one block each, in normal form (absolute names, explicit widths). The full fixed point is refuted by six accepted schemas (C49_refuted): texts that the generator itself rejects, or renders differently. Theorems: `C49_parses_partial`, `C49_whole_partial`, `C49_instance`, `C49_refuted`.
* **C50** A resource's embedded schema depends only on that resource's dependencies. Status: partial. Independence and contents proved for all pairs of schemas that do not nest definitions in definitions and do not use the name _builtin (an archive counts constants unused by structures among its dependencies, as the code does); refuted in the literal reading for archive resources, whose text lists such constants of the whole schema. Theorems: `C50_independent_partial`, `C50_mentions_partial`, `C50_instance`, `C50_refuted`.
* **C51** C++ and Python agree on the bit layout. Status: partial. The C++ reader is exact for every field and buffer; records written by either side read back in the other and have the same bytes. Refuted for unaligned unsigned 64-bit fields sharing their last byte (Python returns foreign bits) and for negative enumeration values (the C++ writer destroys neighbouring fields). Theorems: `C51_reader`, `C51_readers_agree_partial`, `C51_python_record`, `C51_writer_partial`, `C51_same_bytes_partial`, `C51_refuted`, `C51_enum_refuted`.
* **C52** Rust and Python agree on the bit layout. Status: partial. Proved for every field that spans at most 8 bytes or starts in the structure's first byte; refuted otherwise (both macros use a wrong byte for the ninth byte). Theorems: `C52_reader_partial`, `C52_readers_agree_partial`, `C52_python_record_partial`, `C52_writer_partial`, `C52_same_bytes_partial`, `C52_refuted`.
* **C53** Go and Python agree on the bit layout. Status: partial. Proved for every field followed by at least one more bit of data, except signed 1-bit fields and signed fields inside a byte that do not start it; refuted for those and for a field ending with the last byte of the data. Theorems: `C53_reader_partial`, `C53_readers_agree_partial`, `C53_python_record_partial`, `C53_refuted`, `C53_last_byte_refuted`.
* **C54** The C++ tar reader indexes exactly the regular files. Status: partial. Proved for all well-formed tars whose regular files have no POSIX prefix field, whose long names belong to files and whose numbers end in NUL; each exception is refuted with a witness. Wrong checksums, other member types and odd lengths are proved to be rejected anywhere; termination is proved except for sizes near 2^64, where one header makes the reader loop for ever (proved). Theorems: `C54_files_partial`, `C54_bad_checksum`, `C54_other_types`, `C54_bad_length`, `C54_terminates_partial`, `C54_instance`, `C54_prefix_refuted`, `C54_long_directory_refuted`, `C54_space_refuted`, `C54_diverges_refuted`.
* **C55** Reading a field past the end of the data raises. Status: partial. Refuted; the exact behaviour is proved: IndexError for single bits and for fields crossing into an extra byte, otherwise the missing bytes read as zeros. Theorems: `C55_read_past_end_refuted`, `C55_past_end_partial`, `C55_behind_partial`.
* **C56** Zero-width fields are harmless. Status: partial. Refuted off byte boundaries (always raises) and at offset 0 (clears the first byte); proved at every other byte boundary. Theorems: `C56_aligned_partial`, `C56_zero_width_refuted`.
* **C57** Every resource of a generated Python archive is described by its own schema. Status: partial. Refuted for resources whose names differ only in case; proved when names are distinct in capitals and do not start with an underscore. Theorems: `C57_refuted`, `C57_own_schema_partial`, `C57_instance`.
* **C58** Raw data slices like bytes. Status: partial. Refuted for omitted bounds and negative positions; proved for explicit bounds inside the data and every step, with the exact result for an omitted start or stop. Theorems: `C58_slices_partial`, `C58_raw_slices_refuted`.
* **C59** An unterminated substring extends to the end of the data. Status: partial. Refuted; the exact behaviour is proved: only the byte at the position is decoded. Theorems: `C59_unterminated_partial`, `C59_unterminated_refuted`.
* **C60** String lists work for every size and separator. Status: partial. Refuted for size 0, separators of several bytes and lists ending with an empty string; proved for every number (0 and negative numbers return all strings) and separator byte. Theorems: `C60_any_number_partial`, `C60_string_lists_refuted`.
* **C61** The inspector opens archives from directories and tar files alike. Status: partial. Directories proved; tar files refuted (AttributeError for every tar). Theorems: `C61_directory_partial`, `C61_selection_errors`, `C61_tar_refuted`.
* **C62** Equal embedded schemas mean equal layouts. Status: partial. Proved for all pairs of schemas (archive level, resource level, and for the classes of the generated modules) that do not nest definitions in definitions, do not use the name _builtin and do not refer to the generator's own index structures; refuted without the last condition: vector<.n._builtin.multivector.IndexType8> and <...IndexType16> embed the same text. Theorems: `C62_layouts_partial`, `C62_modules_partial`, `C62_instance`, `C62_refuted`.
* **C63** The generated Python module imports and declares every definition. Status: partial. Refuted for namespaces starting with an underscore; proved for all schemas with distinct class names, plain namespace and resource names, no name _builtin, and no definition whose path is (part of) a namespace's path. Theorems: `C63_module_partial`, `C63_instance`, `C63_refuted`.
* **C64** Generated archive classes satisfy what the library relies on. Status: partial. Proved end to end (declarations -> generated class -> builder -> files -> opened archive), with sub-archives to any depth (C64_nested_partial), under conditions on names and layouts that C63, C57, C06/C08 and C28 show necessary; refuted for a resource named like a multivector's index. Theorems: `C64_usable_partial`, `C64_instance`, `C64_refuted`, `C64_nested_partial`, `C64_nested_instance`.
* **C65** A reader of another schema never misreads. Status: partial. Proved with sub-archives to any depth (C65_nested_partial) under the conditions of C62 and C64; refuted without the condition on index structures (values 1, 2 written as 8-bit read back as one 16-bit value 513). Theorems: `C65_nested_partial`, `C65_nested_instance`, `C65_evolution_partial`, `C65_instance`, `C65_refuted`.
* **C66** C++ ranges and optional values. Status: proved. The buffer holds the following record and 8 bytes of padding, as the format prescribes. Theorems: `C66_range`, `C66_optional`.
* **C67** The C++ tar storage reads exactly the packed files. Status: partial. Proved for the tars of C54 with distinct paths; refuted for repeated paths (the first member wins; Python's reader takes the last, C33_last_wins). Theorems: `C67_read`, `C67_absent`, `C67_directory`, `C67_instance`, `C67_twice_refuted`.
* **C68** Schema text denotes exactly the declarations written. Status: proved. Both directions, against a declarative grammar (GrammarSpec.v) over lexemes and their spelling; texts are unbounded. Documentation comments are dropped. Theorems: `C68_parse`, `C68_rejects`, `C68_unambiguous`, `C68_blanks`, `C68_names`, `C68_instance`, `C68_rejected`, `C68_surprises`.
* **C69** The schema tree contains exactly what was declared. Status: proved. For schemas that keep definitions and namespaces apart and do not use the name _builtin, as the property says (C69_inside shows the first condition is needed); C69_text starts from schema text. The maximum sizes and documentation of resources are not part of the statement (C42 has the sizes). Theorems: `C69_constants`, `C69_structures`, `C69_enumerations`, `C69_archives`, `C69_nothing_else`, `C69_text`.
* **C70** The generator accepts exactly the valid schemas. Status: proved. An equivalence: acceptance iff declarations_valid (over the parsed declarations) and names_valid (over the tree of declarations, where scopes are defined); C70_declarations shows the tree of declarations exists exactly when declarations_valid holds, C70_text starts from schema text, C70_rules breaks and repairs each rule. Same two conditions on schemas as C69. Theorems: `C70_declarations`, `C70_accepts`, `C70_text`.
* **C71** C++ resource storage: written resources, and only those, are read back. Status: proved. Both C++ storages (file, memory) as parameters of one model; writing streams as the code does (size placeholder, data, seek back, size, padding). C71_stale and C71_empty_schema show why the statement speaks of resources not read before and of non-empty schemas. Theorems: `C71_write`, `C71_read`, `C71_read_only`, `C71_round_trip`, `C71_python`, `C71_stale`, `C71_empty_schema`.
* **C72** C++ external vectors leave exactly the grown elements. Status: proved. C72_files for every flush limit and element type; C72_python relates it to payload_of/set_files of the Python builder via C51. Theorems: `C72_files`, `C72_python`.
* **C73** C++ vectors behave as sequences of records. Status: partial. Refuted in full (C73_refuted): a new element after pop_back/resize starts with the removed element's bytes; an empty vector of overlapping elements is written as one element. Proved for histories without removal, for histories in which every new element is assigned completely, and for writing all other vectors. Theorems: `C73_grows_partial`, `C73_shrinks_partial`, `C73_view_bytes_partial`, `C73_refuted`.
* **C74** C++ multivectors leave and show exactly the added elements. Status: proved. C74_files/C74_python/C74_open/C74_view/C74_unknown; C74_overflow shows what happens when the stated bound on the data is broken. Theorems: `C74_files`, `C74_python`, `C74_view`, `C74_open`, `C74_unknown`, `C74_overflow`.
* **C75** C++ views show the records, and slices of views slices of records. Status: proved.  Theorems: `C75_iterate`, `C75_elements`, `C75_slices`, `C75_slice_bytes`.
* **C76** A C++ archive object says what is in the files. Status: proved. C76_open with C76_unique determines the result of opening completely from the files. C76_instance_size_unchecked records that the size of an instance resource is not checked. Theorems: `C76_open`, `C76_unique`, `C76_again`, `C76_python`, `C76_instance_size_unchecked`.
* **C77** Every way of building an archive in C++ leaves exactly what was written. Status: proved. For storages that start an empty stream for a new name (both C++ storages). The calls range over all those of the generated builders; resource contents are arbitrary. Hypotheses of the calls: a resource is written once and no two resources share a file (C74_overflow shows what happens to data longer than the index can say). Theorems: `C77_files`, `C77_complete`, `C77_contents`, `C77_incomplete`, `C77_existing`.
* **C78** Rust resource storage: the result of a read is determined by the files. Status: proved. Both Rust storages as parameters of one model, overflow checks on or off. C78_read with C78_unique determines the result from the files. C78_rewrite_memory (the memory storage appends when a resource is written again), C78_stale and C78_overflow show why the statement has its conditions. A missing schema file is reported as an I/O error. Theorems: `C78_write`, `C78_read`, `C78_unique`, `C78_read_only`, `C78_round_trip`, `C78_cpp`, `C78_python`, `C78_rewrite_memory`, `C78_stale`, `C78_overflow`.
* **C79** Rust vectors leave and show exactly their elements. Status: proved. C79_empty_refuted records what the statement excepts: Rust stores the empty sequence of overlapping structures as one zeroed structure and cannot open the empty resource Python leaves for it; and that elements written through the spare element are those a later grow returns. C79_python requires fields whose bits lie within 8 bytes (C52). Theorems: `C79_files`, `C79_python`, `C79_vector`, `C79_open`, `C79_empty_refuted`.
* **C80** Rust multivectors leave and show exactly the added elements, and never read outside the data. Status: proved. C80_safe is an equivalence for arbitrary index and data contents; C80_overflow shows what happens when the stated bound on the data is broken. Theorems: `C80_files`, `C80_cpp`, `C80_safe`, `C80_view`, `C80_iter`, `C80_slice`, `C80_overflow`.
* **C81** Rust substrings of raw data. Status: proved.  Theorems: `C81_substring`, `C81_python`.
* **C82** Rust archives: open succeeds exactly for complete archives. Status: proved. C82_instance shows each kind of failure. Theorems: `C82_open`, `C82_unique`, `C82_ok`, `C82_again`, `C82_python`.
* **C83** Rust archive builders: every interleaving leaves exactly what was written, and only finished archives open. Status: proved. Concrete session with interleaved calls in C83_instance. Theorems: `C83_files`, `C83_complete`, `C83_incomplete`, `C83_existing`.
* **C84** C++ and Rust show the same archive. Status: proved. C84_iff is an equivalence; C84_differences lists concrete archives that only C++ opens. Theorems: `C84_rust_cpp`, `C84_iff`, `C84_cpp_built`.
* **C85** Go archives: opening reports exactly the unusable resources and shows the files that are there. Status: proved. C85_open is an equivalence for success and for each error; C85_empty: an empty directory opens; C85_instance shows a sub-archive with capitals not being found. Theorems: `C85_open`, `C85_members`, `C85_empty`, `C85_rust`, `C85_close`, `C85_size`.
* **C86** Go vectors, slices, instances, raw data and multivectors show the stored elements. Status: partial. Vectors, slices, instances and raw data proved. Refuted for multivectors: the generated code has one object per type, so all elements of a type in a bucket show the last one (C86_refuted, exact behaviour in C86_multivector_partial), and GetSize is one too many; sentinels of range vectors are counted as elements (C86_range_counted). Theorems: `C86_vector`, `C86_slice`, `C86_instance_raw`, `C86_multivector_partial`, `C86_refuted`, `C86_range_counted`.
* **C87** C++ describes a schema mismatch by a shortest difference. Status: partial. Proved for differences whose number of lines is not a positive multiple of 64 (optimality of the difference for all texts); for the others the out-of-bounds write is proved (C87_description_partial, C87_refuted). Theorems: `C87_lines`, `C87_diff`, `C87_context_partial`, `C87_description_partial`, `C87_nothing`, `C87_refuted`.
* **C88** The schemas inside generated code are the generator's texts, in every language. Status: proved. Trigraphs (off in the GNU dialects and since C++17) and characters beyond one byte are not modelled. Theorems: `C88_cpp`, `C88_raw`, `C88_python`, `C88_schemas`, `C88_others`.
* **C89** Comments of a schema stay comments in generated code. Status: partial. Go and Python proved for all comments. Rust: characterised exactly (C89_rust_partial, an iff), refuted by a block comment without stars (C89_rust_refuted). C++: proved for comments without joined lines inside block comments, refuted otherwise (C89_cpp_refuted). Theorems: `C89_go`, `C89_python`, `C89_rust_partial`, `C89_rust_refuted`, `C89_cpp_partial`, `C89_cpp_refuted`.
* **C90** Members, comparison and copying of generated structures. Status: partial. Rust: for fields within 64 bits of the byte they start in or starting in the first byte (elsewhere the accessors are wrong, C52_refuted); ranges likewise. Full agreement of Rust's and C++'s == refuted by unused bits (C90_equal_refuted); C++'s < is no strict weak order (C90_less_refuted). Theorems: `C90_get_partial`, `C90_set_partial`, `C90_rust_eq_partial`, `C90_fill_partial`, `C90_cpp_eq`, `C90_agree_partial`, `C90_built_partial`, `C90_less`, `C90_less_order`, `C90_less_refuted`, `C90_equal_refuted`, `C90_slice`, `C90_range_partial`.
* **C91** Reading an enumeration in Rust always gives a variant. Status: partial. All enumerations but signed ones of one bit (C91_refuted), at the positions the Rust accessor handles (C52). Theorems: `C91_enumeration_partial`, `C91_refuted`.
* **C92** Archives with sub-archives built directory by directory open with everything that was written. Status: proved. By induction over the nesting. The builder class has no support for sub-archives, so the user makes the builders of the subdirectories; directories only, or a tar of them without empty files. Theorems: `C92_nested`, `C92_tar`, `C92_instance`.
* **C93** Generated code in every language reads back constants and enumerators as the numbers of the schema. Status: partial. Go and the generated schema: all constants. Rust: all but type bool (refuted: does not compile). C++: exactly the numbers below 2^63 in size (refuted for the others). Readers of numbers of the three languages are specified in NumberSpec.v from the language references. Enumerations do not exist in Go. Theorems: `C93_rust_constant_partial`, `C93_rust_enumerator_partial`, `C93_rust_groups`, `C93_bool_refuted`, `C93_cpp_constant_partial`, `C93_cpp_enumerator_partial`, `C93_cpp_refuted`, `C93_go_constant`, `C93_schema_constant`, `C93_instance`.
* **C94** Names in generated Rust and C++ code can be declared together. Status: partial. Refuted in full (C94_rust_refuted, C94_cpp_refuted: accepted schemas whose code cannot compile). The partial theorems give, scope by scope, conditions on the names of the schema under which all declared names are distinct identifiers and no keywords; C94_instance meets them all with one schema text. Theorems: `C94_rust_struct_partial`, `C94_rust_enum_partial`, `C94_rust_constants_partial`, `C94_capitals_kept`, `C94_rust_types_partial`, `C94_rust_archive_partial`, `C94_rust_modules_partial`, `C94_cpp_struct_partial`, `C94_cpp_archive_partial`, `C94_cpp_namespace_partial`, `C94_cpp_schemas_partial`, `C94_rust_refuted`, `C94_cpp_refuted`, `C94_instance`.
* **C95** Generated Rust and C++ code refers to the definitions the schema meant. Status: partial. Types and enumerations in Rust and everything in C++ proved. Rust constants: proved for names in capitals (C95_rust_constants_partial); refuted for names with small letters (C95_rust_refuted), which are declared in capitals but referred to with the schema's spelling. No namespace or definition may be called `super` in Rust. Which references each template writes is not modelled, only the functions that make the paths. Theorems: `C95_meant`, `C95_rust_types`, `C95_rust_constants_partial`, `C95_cpp`, `C95_fields`, `C95_rust_refuted`, `C95_instance`.
* **C96** The inspector opens the archives the generator's users write. Status: partial. Proved: archives of the only outermost namespace are found by name, and only they (C96_finds_partial, C96_only_partial, for schemas with distinct generated class names); with two outermost namespaces, or only namespaces mentioning builtin, every name is refused (C96_ambiguous, C96_no_root); an archive the inspector opens shows what was written, for undotted namespaces and distinct class names on both sides (C96_shows_partial). That every archive the generated module opens is also opened by the inspector is false: C96_refuted has five small schemas (types or constants of another namespace, a namespace mentioning builtin, nested namespaces, two constants in one field). Theorems: `C96_finds_partial`, `C96_only_partial`, `C96_ambiguous`, `C96_no_root`, `C96_shows_partial`, `C96_instance`, `C96_refuted`.
* **C97** C++ iterators over arrays are positions. Status: partial. Proved: moves, comparisons, loops in both directions and binary search (C97_moves, C97_compares, C97_loops, C97_lower_bound); the distance to an earlier or the same iterator (C97_distance_partial). The distance to a later iterator is 2^64 divided by the structure size, minus the positions between (C97_distance_behind): right only for structures of one byte, so the full statement is false (C97_distance_refuted). Moving a pointer outside its array is modelled as arithmetic modulo 2^64. Theorems: `C97_moves`, `C97_compares`, `C97_distance_partial`, `C97_distance_behind`, `C97_distance_refuted`, `C97_loops`, `C97_lower_bound`, `C97_instance`.
* **C98** Copying, hashing and creating single structures in C++. Status: proved. C98_hash_refuted shows the reading that is not promised: equal fields do not imply equal hashes, as bits of no field count. Theorems: `C98_copy`, `C98_hash`, `C98_hash_refuted`, `C98_new`.
* **C99** Rust reads archives from tar files as from directories. Status: proved. The members are those reported by the tar crate, which is trusted; its errors are not modelled. A member [a/../b] and the like is covered by C99_last_wins and C99_sparse only. C99_store connects the storage with the model of opening archives (C82). Theorems: `C99_sparse`, `C99_read`, `C99_python`, `C99_store`, `C99_open`, `C99_last_wins`, `C99_read_only`, `C99_instance`.
* **C100** Diagrams show every resource, and connect what is connected. Status: proved. The conditions are in the statement; C100_refuted shows what happens without them. C100_single_fields: every schema text meets the condition of C100_connected on explicit references. C100_labels: titles, notes and rows; C100_labels_refuted: an enumeration of a namespace whose name starts like the structure's is shown with its name cut. Colours and fonts are not claimed. Theorems: `C100_drawing`, `C100_arrows`, `C100_connected`, `C100_single_fields`, `C100_distinct`, `C100_instance`, `C100_refuted`, `C100_labels`, `C100_labels_instance`, `C100_labels_refuted`.
* **C101** The Rust build helper generates every schema into its own place, and nothing else. Status: proved. For any generator given as a function of the schema text. Symbolic links, permissions, and the installation of the generator are not modelled; the walk finds what was there before the helper started. C101_refuted: a folder called like a schema, or like the output of the schema next to it, makes the helper fail. Theorems: `C101_generates`, `C101_only`, `C101_schemas`, `C101_failure`, `C101_succeeds`, `C101_folders`, `C101_instance`, `C101_refuted`.
* **C102** The order of declarations is irrelevant. Status: partial. For schemas whose definitions are not called like a namespace and that do not use the name _builtin (without the first it is refuted, C47_refuted); the order of the fields of a structure, the values of an enumeration and the resources of an archive is part of the definition. C102_text*: for texts, whatever the order of sets; C102_layout: sizes, offsets, widths and signs of all structures agree. Theorems: `C102_layout`, `C102_text_layout`, `C102_declarations`, `C102_accepts`, `C102_contents`, `C102_text`, `C102_text_contents`.
* **C103** The iteration order of sets is irrelevant. Status: proved. For all schemas, accepted or not. Everything the generator writes is a function of the tree, so it is covered too. Theorems: `C103_outcome`, `C103_accepted`, `C103_text`, `C103_outputs`.
